(** * C97: silencing a report with a comment *)
From Coq Require Import String List NArith ZArith Bool Arith Lia.
From Verif Require Import Base PyStr Ftypes Paths Config Collect CollectSpec Suppress SuppressSpec SuppressFacts SuppressProps Cst Engine EngineProps Batch Api ApiSpec ApiFacts ApiProps System SystemSpec SystemProps SystemSame SilenceSpec.
Import ListNotations.

(** ** The comments *)

Lemma listed_names : forall U ns text extra, listed U ns text -> remark extra -> names_at U (text ++ extra) ns.
Proof.
  intros U ns text extra L R. induction L as [n W|n ws ns text W Sp L IH].
  - apply na_last; auto.
    + destruct R as [->|(c & t & -> & Ec)]; intros (c' & t' & E & Ew); [discriminate|]. injection E as <- <-.
      pose proof (space_not_word U c Ec) as X. change (is_word U c = false) in X. congruence.
    + intros ws r _ _ E. destruct R as [->|(c & t & -> & Ec)]; [discriminate|]. injection E as -> _. discriminate.
  - rewrite <- !app_assoc. now apply na_more.
Qed.

Lemma listed_starts : forall U ns text extra, listed U ns text -> starts_word U (text ++ extra).
Proof.
  intros U ns text extra L. assert (W : forall n t, wordlike U n -> starts_word U (n ++ t)).
  { intros [|c n] t [N F]; [congruence|]. exists c, (n ++ t). split; auto. now inversion F. }
  destruct L; [auto|]. rewrite <- app_assoc. auto.
Qed.

Lemma at_start : forall word ws rest, directive word -> spaces ws -> first_directive (u "#" ++ ws ++ word ++ rest) rest.
Proof.
  intros word ws rest D Sp. exists [], (u "#" ++ ws ++ word ++ rest). split; [reflexivity|]. split.
  - exists ws. split; auto. destruct D as [->| ->]; auto.
  - intros pre' s' r _ L. simpl in L. lia.
Qed.

(** A comment with a list of rules, maybe followed by a remark, silences the rules in the list and no others. *)
Theorem C97_listed : forall U word ns text sep extra name,
  directive word -> listed U ns text -> remark extra ->
  (exists ws, spaces ws /\ (sep = u ":" ++ ws \/ (ws <> [] /\ sep = ws))) ->
  (comment_ignores U name (u "# " ++ word ++ sep ++ text ++ extra) = true <-> exists n, In n ns /\ names_rule U n name).
Proof.
  intros U word ns text sep extra name D L R (ws & Sp & Se).
  assert (Fd : first_directive (u "# " ++ word ++ sep ++ text ++ extra) (sep ++ text ++ extra)).
  { apply (at_start word (u " ") (sep ++ text ++ extra) D). repeat constructor. }
  assert (Se' : separated U (sep ++ text ++ extra) (text ++ extra)).
  { split; [now apply (listed_starts U ns)|]. exists ws. split; auto. destruct Se as [->|[Nw ->]]; [left|right]; rewrite <- ?app_assoc; auto. }
  pose proof (listed_names U ns text extra L R) as Na.
  rewrite C22_directive. split.
  - intros (rest & Fd' & H). rewrite (first_directive_unique Fd' Fd) in H. destruct H as [H|(names & ns' & n & S' & N' & In' & Nr)].
    + destruct (H _ Se').
    + rewrite (separated_unique S' Se') in N'. rewrite (names_at_unique N' Na) in In'. eauto.
  - intros (n & In_ & Nr). exists (sep ++ text ++ extra). split; auto. right. exists (text ++ extra), ns, n. auto.
Qed.

(** A comment with nothing but the directive silences every rule. *)
Theorem C97_all : forall U word name, directive word -> comment_ignores U name (u "# " ++ word) = true.
Proof.
  intros U word name D. apply C22_directive. exists []. split.
  - replace (u "# " ++ word) with (u "#" ++ u " " ++ word ++ []) by (rewrite app_nil_r; reflexivity). apply at_start; [auto|repeat constructor].
  - left. intros names (_ & ws & _ & [E|[Nw E]]); [discriminate|]. destruct ws; [congruence|discriminate].
Qed.

(** "Both comment directives achieve the same result", whatever else is in the comment. *)
Theorem C97_either : forall U ws rest name, spaces ws ->
  comment_ignores U name (u "#" ++ ws ++ u "lint-ignore" ++ rest) = comment_ignores U name (u "#" ++ ws ++ u "lint-fixme" ++ rest).
Proof.
  intros U ws rest name Sp.
  pose proof (at_start (u "lint-ignore") ws rest (or_introl eq_refl) Sp) as F1. pose proof (at_start (u "lint-fixme") ws rest (or_intror eq_refl) Sp) as F2.
  apply eq_true_iff_eq. rewrite !C22_directive. unfold silences. split; intros (r & Fd & H); exists rest; split; auto.
  - rewrite (first_directive_unique Fd F1) in H. exact H.
  - rewrite (first_directive_unique Fd F2) in H. exact H.
Qed.

(** ** Where it stands *)

Lemma near_scope : forall c n n' x, line_above c n n' \/ end_of_line c n n' -> (attached n' x <-> attached n x \/ x = c) /\ (stops n' <-> stops n).
Proof.
  intros c n n' x H. rewrite !own_attached. unfold stops. destruct H as [(l1 & l2 & E & ->)|H].
  - unfold own_comments. cbn [n_tw n_body n_comma n_rbracket n_lbracket n_after_decorators n_leading n_decorator]. rewrite E. split.
    + split.
      * intros [H|(ll & El & H)]; [auto|]. injection El as <-. apply in_app_iff in H. destruct H as [H|[H|H]].
        -- left. right. exists (l1 ++ l2). split; auto. apply in_or_app. auto.
        -- right. congruence.
        -- left. right. exists (l1 ++ l2). split; auto. apply in_or_app. auto.
      * intros [[H|(ll & El & H)]| ->]; [auto| |].
        -- injection El as <-. right. eexists. split; [reflexivity|]. apply in_app_iff in H. apply in_or_app. simpl. tauto.
        -- right. eexists. split; [reflexivity|]. apply in_or_app. simpl. auto.
    + split; intros [_ D]; split; auto; discriminate.
  - split; [|destruct H; cbn [n_leading n_decorator]; tauto].
    assert (own_comments n' = own_comments n \/ exists a b, own_comments n = a ++ b /\ own_comments n' = a ++ c :: b) as O.
    { right. unfold own_comments. destruct H as [E|E1 E2|E1 E2|E|E]; cbn [n_tw n_body n_comma n_rbracket n_lbracket n_after_decorators].
      - rewrite E. exists [], (comments_of [n_comma n] ++ comments_of [n_rbracket n] ++ comments_of (n_lbracket n) ++ comments_of (n_after_decorators n)). auto.
      - rewrite E1, E2. exists [], (comments_of [n_comma n] ++ comments_of [n_rbracket n] ++ comments_of (n_lbracket n) ++ comments_of (n_after_decorators n)). auto.
      - rewrite E1, E2. exists [], (comments_of [n_comma n] ++ comments_of [n_rbracket n] ++ comments_of (n_lbracket n) ++ comments_of (n_after_decorators n)). auto.
      - rewrite E. eexists _, _. split; reflexivity.
      - rewrite E. eexists (_ ++ _), _. split; rewrite <- app_assoc; reflexivity. }
    assert (n_leading n' = n_leading n) as -> by (destruct H; reflexivity).
    destruct O as [O|(a & b & O & O')].
    + destruct H as [E|E1 E2|E1 E2|E|E]; exfalso; revert O; unfold own_comments; cbn [n_tw n_body n_comma n_rbracket n_lbracket n_after_decorators];
        rewrite ?E, ?E1, ?E2; intro O; apply (f_equal (@length str)) in O; rewrite !app_length in O; simpl in O; lia.
    + rewrite O, O', !in_app_iff. simpl. intuition congruence.
Qed.

Lemma commented_scope : forall c p p' x, commented c p p' -> (in_scope p' x <-> in_scope p x \/ x = c).
Proof.
  intros c p p' x H. destruct H as [inner n n' outer h f Fi Nr|inner n h1 h2 Fi St|nodes h1 h2 f Fi].
  - destruct (near_scope c n n' x Nr) as [At St]. 
    rewrite <- !C23_scope. unfold node_comments. cbn [p_nodes p_header p_first].
    assert (Pre : forall m rest, node_comments_from (inner ++ m :: rest) h f = flat_map (fun y => own_comments y ++ match n_leading y with Some ll => comments_of ll | None => [] end) inner ++ node_comments_from (m :: rest) h f).
    { intros m rest. clear - Fi. induction inner as [|y inner IH]; [reflexivity|]. inversion Fi as [|? ? Sy Fi']; subst. cbn [app node_comments_from flat_map].
      rewrite IH by auto. destruct (n_leading y) as [ll|] eqn:El.
      - destruct (n_decorator y) eqn:Ed; [now rewrite <- !app_assoc|]. exfalso. apply Sy. split; [congruence|auto].
      - now rewrite app_nil_r, <- app_assoc. }
    rewrite !Pre, !in_app_iff.
    assert (Hd : forall m, In x (node_comments_from (m :: outer) h f) <-> attached m x \/
       In x (if match n_leading m with Some _ => negb (n_decorator m) | None => false end
             then match outer with [] => if f then comments_of h else [] | _ => [] end else node_comments_from outer h f)).
    { intro m. cbn [node_comments_from]. rewrite own_attached. destruct (n_leading m) as [ll|] eqn:El.
      - destruct (n_decorator m); cbn [negb]; rewrite !in_app_iff, comments_of_in; split.
        + intros [H|[H|H]]; eauto 6.
        + intros [[H|(l' & E & H)]|H]; auto. injection E as <-. auto.
        + intros [H|[H|H]]; eauto 6.
        + intros [[H|(l' & E & H)]|H]; auto. injection E as <-. auto.
      - rewrite in_app_iff. split; [intros [H|H]; auto|]. intros [[H|(l' & E & H)]|H]; auto. discriminate. }
    rewrite !Hd, At.
    assert (E : match n_leading n' with Some _ => negb (n_decorator n') | None => false end = match n_leading n with Some _ => negb (n_decorator n) | None => false end).
    { assert (B : forall m, match n_leading m with Some _ => negb (n_decorator m) | None => false end = true <-> stops m).
      { intro m. unfold stops. destruct (n_leading m); [|split; [discriminate|intros [X _]; congruence]].
        rewrite negb_true_iff. split; [intro Z; split; [discriminate|exact Z]|intros [_ Z]; exact Z]. }
      apply eq_true_iff_eq. rewrite !B. exact St. }
    rewrite E. tauto.
  - unfold in_scope. cbn [p_nodes p_header p_first]. rewrite !in_app_iff. cbn [In].
    assert (Ex : exists inner0 n0, inner ++ [n] = inner0 ++ [n0] /\ Forall (fun y => ~ stops y) inner0 /\ stops n0) by eauto.
    split.
    + intros [H|[[H|[H|H]] T]]; [auto|left; right|right|left; right]; try (split; [tauto|auto]). congruence.
    + intros [[H|[H T]]| ->]; [auto|right|right]; split; auto; tauto.
  - unfold in_scope. cbn [p_nodes p_header p_first]. rewrite !in_app_iff. cbn [In]. split.
    + intros [H|[[H|[H|H]] T]]; [auto|left; right|right|left; right]; try (split; [tauto|auto]). congruence.
    + intros [[H|[H T]]| ->]; [auto|right|right]; split; auto; tauto.
Qed.

(** The comment silences what it says for the code next to it, and what was silenced stays so. *)
Theorem C97_next_to : forall U name c p p', commented c p p' ->
  ignore_lint U name p' = ignore_lint U name p || comment_ignores U name c.
Proof.
  intros U name c p p' H. apply eq_true_iff_eq. rewrite orb_true_iff, !C23_ignore_lint, C22_directive. split.
  - intros (x & Sx & Si). apply (commented_scope c p p' x H) in Sx. destruct Sx as [Sx| ->]; eauto.
  - intros [(x & Sx & Si)|Si]; [exists x|exists c]; split; auto; apply (commented_scope c p p'); auto.
Qed.

(** And nothing for code elsewhere. *)
Theorem C97_elsewhere : forall U name p p', elsewhere p p' -> ignore_lint U name p' = ignore_lint U name p.
Proof.
  intros U name p p' H.
  assert (E : node_comments p' = node_comments p); [|unfold ignore_lint; now rewrite E].
  destruct H as [inner n outer outer' h h' f f' [Sn Sd] No No'|inner n h h' [Sn Sd]|p]; unfold node_comments; cbn [p_nodes p_header p_first]; [| |reflexivity].
  - induction inner as [|y inner IH]; cbn [app node_comments_from].
    + destruct (n_leading n); [|congruence]. rewrite Sd. destruct outer, outer'; congruence.
    + rewrite IH. destruct (n_leading y); auto. destruct (n_decorator y); auto. destruct inner; reflexivity.
  - induction inner as [|y inner IH]; cbn [app node_comments_from].
    + destruct (n_leading n); [|congruence]. now rewrite Sd.
    + rewrite IH. destruct (n_leading y); reflexivity.
Qed.

(** There is always such a place: for any code in a file, in a statement or not. *)
Theorem C97_possible : forall c p, exists p', commented c p p'.
Proof.
  intros c [nodes h f].
  destruct (List.existsb (fun x => match n_leading x with Some _ => negb (n_decorator x) | None => false end) nodes) eqn:E.
  - assert (exists inner n outer, nodes = inner ++ n :: outer /\ Forall (fun x => ~ stops x) inner /\ n_leading n <> None) as (inner & n & outer & -> & Fi & Ln).
    { clear -E. induction nodes as [|n nodes IH]; [discriminate|]. cbn [existsb] in E.
      destruct (match n_leading n with Some _ => negb (n_decorator n) | None => false end) eqn:En.
      - exists [], n, nodes. repeat split; auto. destruct (n_leading n); [discriminate|discriminate].
      - destruct (IH E) as (inner & m & outer & -> & Fi & L). exists (n :: inner), m, outer. repeat split; auto. constructor; auto.
        intros [X Y]. destruct (n_leading n); [rewrite Y in En; discriminate|congruence]. }
    destruct (n_leading n) as [ll|] eqn:El; [|congruence]. eexists. apply c_near; [exact Fi|]. left. exists [], ll. split; [exact El|reflexivity].
  - exists (Place nodes ([] ++ Some c :: h) f). apply (c_module c nodes [] h f). apply Forall_forall. intros x Ix [X Y].
    assert (T : existsb (fun x => match n_leading x with Some _ => negb (n_decorator x) | None => false end) nodes = true).
    { apply existsb_exists. exists x. split; auto. destruct (n_leading x); [now rewrite Y|congruence]. }
    congruence.
Qed.

(** ** Two versions of a file *)

(** The effect of the comments on one rule and node *)
Definition effect (U : unicode) (cs : list (str * (N -> bool))) (rule : str) (n : N) : bool :=
  existsb (fun x => snd x n && comment_ignores U rule (fst x)) cs.

Lemma effect_iff : forall U cs rule n, effect U cs rule n = true <-> silenced_by U cs rule n.
Proof.
  intros U cs rule n. unfold effect, silenced_by. rewrite existsb_exists. split.
  - intros ([c at_] & I & E). apply andb_true_iff in E. destruct E as [A B]. exists c, at_. repeat split; auto. now apply C22_directive.
  - intros (c & at_ & I & A & B). exists (c, at_). split; auto. cbn [fst snd]. rewrite A. now apply C22_directive.
Qed.

Lemma comments_effect : forall U cs M M', adds_comments cs M M' -> forall rule n,
  ignore_lint U rule (d_place M' n) = ignore_lint U rule (d_place M n) || effect U cs rule n.
Proof.
  intros U cs M M' H. induction H as [M M' E|c at_ cs M M1 M' A H IH]; intros rule n.
  - rewrite (C97_elsewhere U rule _ _ (E n)). cbn. now rewrite orb_false_r.
  - rewrite IH. unfold effect. cbn [existsb fst snd]. specialize (A n). destruct (at_ n).
    + rewrite (C97_next_to U rule c _ _ A), orb_assoc. reflexivity.
    + rewrite (C97_elsewhere U rule _ _ A). reflexivity.
Qed.

Lemma heard_commented : forall U cs M M' C xs vs, adds_comments cs M M' -> heard U M C xs vs ->
  forall xs' vs', Forall2 same_say xs xs' -> heard U M' C xs' vs' ->
  map sight vs' = map sight (filter (fun v => negb (effect U cs (v_rule v) (v_node v))) vs).
Proof.
  intros U cs M M' C xs vs Ad H. pose proof (comments_effect U cs M M' Ad) as Ef.
  induction H as [|x xs vs Si H IH|x v xs vs Si Te H IH]; intros xs' vs' Sm H'; inversion Sm as [|? x' ? xs1 [En Em] Sm']; subst.
  - inversion H'. reflexivity.
  - inversion H' as [|? ? ? Si' H1|? v' ? vs1 Si' Te' H1]; subst; [eauto|]. exfalso. apply Si'. rewrite silenced_iff in *. rewrite <- En, Ef, Si. reflexivity.
  - cbn [filter]. rewrite (proj1 (called_trim C (v_rule v)) (proj1 Te)) in *. rewrite silenced_iff in Si.
    assert (Ev : v_node v = s_node x) by apply Te. rewrite Ev.
    assert (Sx : silenced U M' C x' <-> effect U cs (trim_rule (k_name C)) (s_node x) = true).
    { rewrite silenced_iff, <- En, Ef. apply not_true_is_false in Si. rewrite Si. cbn [orb]. tauto. }
    inversion H' as [|? ? ? Si' H1|? v' ? vs1 Si' Te' H1]; subst.
    + apply Sx in Si'. rewrite Si'. cbn [negb]. eauto.
    + rewrite Sx in Si'. apply not_true_is_false in Si'. rewrite Si'. cbn [negb map]. f_equal; [|eauto].
      unfold sight. destruct Te as (C1 & N1 & _ & Ne1 & M1 & _), Te' as (C2 & N2 & _ & Ne2 & M2 & _).
      apply called_trim in C1. apply called_trim in C2. rewrite C1, C2, N1, N2, En. f_equal.
      rewrite Em in M1. destruct M1 as [M1|[M1 K1]], M2 as [M2|[M2 K2]]; try congruence.
      * destruct M2 as [M2|M2]; rewrite M2 in M1; [discriminate|]. injection M1 as X. congruence.
      * destruct M1 as [M1|M1]; rewrite M1 in M2; [discriminate|]. injection M2 as X. congruence.
Qed.

Lemma file_lint : forall Y p autofix opts hook es,
  run (fixit_file (tool_of Y) p autofix opts hook) es (Returned tt) -> (forall x, In x (results es) -> x_error x = None) ->
  exists F content F1 cfg F2 es', es = ELook F :: ELook F1 :: ELook F2 :: es' /\ f_file F p = Some content /\
    generate_config (y_env Y) F1 p None opts = Ok cfg /\ lint_of (tool_of Y) F2 p content cfg = (violations (results es), None).
Proof.
  intros Y p autofix opts hook es H Ne. destruct (file_run _ _ _ _ _ _ H Ne) as (F & content & F1 & cfg & es1 & es2 & r & -> & Ef & Eg & R & E2).
  apply bytes_run in R. destruct R as [_ [[_ X]|(F2 & es' & -> & R)]]; [discriminate|].
  destruct (lint_of (tool_of Y) F2 p content cfg) as [vs err] eqn:L. cbv zeta in R. destruct R as (err' & Rr & R).
  assert (Rs : results (ELook F :: ELook F1 :: (ELook F2 :: es') ++ es2) = report_of p vs err').
  { rewrite <- Rr. change (results (ELook F :: ELook F1 :: (ELook F2 :: es') ++ es2)) with (results ((ELook F2 :: es') ++ es2)). rewrite results_app, E2. apply app_nil_r. }
  rewrite Rs in Ne |- *.
  destruct err' as [e|].
  { exfalso. enough (x_error (Result p None (Some e)) = None) by discriminate. apply Ne. unfold report_of. apply in_or_app. right. simpl. auto. }
  destruct R as [-> _].
  assert (V : violations (report_of p vs None) = vs).
  { unfold report_of, violations. rewrite flat_map_app. replace (flat_map _ (match vs with [] => _ | _ => _ end)) with (@nil viol) by (destruct vs; reflexivity).
    rewrite app_nil_r. clear. induction vs as [|v vs IH]; [reflexivity|]. cbn [map flat_map x_violation app]. now f_equal. }
  exists F, content, F1, cfg, F2, (es' ++ es2). rewrite V. auto.
Qed.

(** What stays the same between two lints of a file: the modules with rules, the code of the rules and the configuration; and the rules say
    the same about the two versions of the file, as they do if they do not look at comments. *)
Definition same_but_comments (Y : system) (p : path) (opts : option options) (es es' : list ev) (M M' : metadata) : Prop :=
  (forall F F', y_world Y F = y_world Y F') /\ (forall F F', y_code Y F = y_code Y F') /\
  (forall F F' cf cf', In (ELook F) (es ++ es') -> In (ELook F') (es ++ es') ->
     generate_config (y_env Y) F p None opts = Ok cf -> generate_config (y_env Y) F' p None opts = Ok cf' -> cf = cf') /\
  exists md md', y_wrap Y md = Ok M /\ y_wrap Y md' = Ok M' /\
    (forall F text t, f_file F p = Some text -> hd_error es = Some (ELook F) -> y_parse Y text = Ok t -> t = md) /\
    (forall F text t, f_file F p = Some text -> hd_error es' = Some (ELook F) -> y_parse Y text = Ok t -> t = md') /\
    (forall F k, let C := y_code Y F k in Forall2 same_say (says C md (calls (d_tree M)) (k_first C)) (says C md' (calls (d_tree M')) (k_first C))).

Lemma filter_nil_all : forall A (f : A -> bool) l, (forall x, In x l -> f x = false) -> filter f l = [].
Proof. intros A f l H. induction l as [|x l IH]; [reflexivity|]. cbn [filter]. rewrite H by (simpl; auto). apply IH. intros y I. apply H. simpl. auto. Qed.

Lemma file_comments : forall Y p autofix opts hook es es' cs M M',
  same_but_comments Y p opts es es' M M' -> adds_comments cs M M' ->
  run (fixit_file (tool_of Y) p autofix opts hook) es (Returned tt) -> (forall x, In x (results es) -> x_error x = None) ->
  run (fixit_file (tool_of Y) p autofix opts hook) es' (Returned tt) -> (forall x, In x (results es') -> x_error x = None) ->
  map sight (violations (results es')) =
  map sight (filter (fun v => negb (effect (y_unicode Y) cs (v_rule v) (v_node v))) (violations (results es))).
Proof.
  intros Y p autofix opts hook es es' cs M M' (HW & HC & Hg & md & md' & W1 & W2 & P1 & P2 & Sa) Ad R1 N1 R2 N2.
  destruct (file_lint _ _ _ _ _ _ R1 N1) as (F & t1 & G1 & cf1 & K1 & e1 & E1 & Ef1 & Eg1 & L1).
  destruct (file_lint _ _ _ _ _ _ R2 N2) as (F' & t2 & G2 & cf2 & K2 & e2 & E2 & Ef2 & Eg2 & L2).
  assert (cf2 = cf1) as ->.
  { apply (Hg G2 G1); auto; apply in_or_app; [right; rewrite E2|left; rewrite E1]; simpl; auto. }
  apply lint_exact in L1. apply lint_exact in L2. rewrite (HW K2 K1) in L2.
  destruct L1 as (ks & d & s & C1 & L1), L2 as (ks' & d' & s' & C2 & L2). rewrite C1 in C2. injection C2 as <- _ _.
  destruct L1 as [[Ek ->]|(m1 & M1 & parts & A1 & B1 & H1 & -> & _)].
  { destruct L2 as [[_ ->]|(m2 & M2 & parts & A2 & B2 & H2 & -> & _)]; [reflexivity|]. subst ks. now inversion H2. }
  destruct L2 as [[Ek ->]|(m2 & M2 & parts' & A2 & B2 & H2 & -> & _)]; [subst ks; now inversion H1|].
  assert (m1 = md) as -> by (apply (P1 F t1); auto; now rewrite E1). assert (m2 = md') as -> by (apply (P2 F' t2); auto; now rewrite E2).
  assert (M1 = M) as -> by congruence. assert (M2 = M') as -> by congruence.
  clear - H1 H2 Ad Sa HC. revert parts' H2. induction H1 as [|k vs ks parts Hk _ IH]; intros parts' H2; inversion H2 as [|? vs' ? parts1 Hk' H2']; subst; [reflexivity|].
  cbn [concat]. rewrite filter_app, !map_app. rewrite <- (IH _ H2'). f_equal.
  unfold heard_from in Hk, Hk'. rewrite (HC K2 K1) in Hk'. eapply heard_commented; eauto.
Qed.

(** C97: a file, and the same file with comments put into it. The user gets the same violations in the same order, except those of the rules
    that a comment silences on the code next to it. *)
Theorem C97_file : forall Y p autofix opts hook es es' cs M M',
  same_but_comments Y p opts es es' M M' -> adds_comments cs M M' ->
  run (fixit_file (tool_of Y) p autofix opts hook) es (Returned tt) -> (forall x, In x (results es) -> x_error x = None) ->
  run (fixit_file (tool_of Y) p autofix opts hook) es' (Returned tt) -> (forall x, In x (results es') -> x_error x = None) ->
  exists keep, (forall v, keep v = true <-> ~ silenced_by (y_unicode Y) cs (v_rule v) (v_node v)) /\
    map sight (violations (results es')) = map sight (filter keep (violations (results es))).
Proof.
  intros Y p autofix opts hook es es' cs M M' Sb Ad R1 N1 R2 N2.
  exists (fun v => negb (effect (y_unicode Y) cs (v_rule v) (v_node v))). split; [|eapply file_comments; eauto].
  intro v. rewrite <- effect_iff, negb_true_iff. symmetry. apply not_true_iff_false.
Qed.

(** If each violation is silenced by one of the comments then the file is clean. *)
Theorem C97_clean : forall Y p autofix opts hook es es' cs M M',
  same_but_comments Y p opts es es' M M' -> adds_comments cs M M' ->
  run (fixit_file (tool_of Y) p autofix opts hook) es (Returned tt) -> (forall x, In x (results es) -> x_error x = None) ->
  run (fixit_file (tool_of Y) p autofix opts hook) es' (Returned tt) -> (forall x, In x (results es') -> x_error x = None) ->
  (violations (results es') = [] <-> forall v, In v (violations (results es)) -> silenced_by (y_unicode Y) cs (v_rule v) (v_node v)).
Proof.
  intros Y p autofix opts hook es es' cs M M' Sb Ad R1 N1 R2 N2.
  pose proof (file_comments _ _ _ _ _ _ _ _ _ _ Sb Ad R1 N1 R2 N2) as E. split.
  - intros Z v I. rewrite Z in E. cbn [map] in E. apply effect_iff. destruct (effect (y_unicode Y) cs (v_rule v) (v_node v)) eqn:Ef; auto.
    assert (I' : In (sight v) []); [|destruct I'].
    rewrite E. apply in_map, filter_In. split; auto. now rewrite Ef.
  - intro A. apply (map_eq_nil sight). rewrite E. apply map_eq_nil with (f := fun x => x). rewrite map_id.
    replace (filter _ _) with (@nil viol); [reflexivity|]. symmetry. apply filter_nil_all. intros v I. apply A in I. apply effect_iff in I. now rewrite I.
Qed.

(** ** Examples *)

(** The two imports of C78's example without the comment, and with the comment on a line of its own above the second one. The rule A
    reports both, B is disabled. *)
Definition plain_text : str := u "import a" ++ nl ++ u "import b" ++ nl.
Definition noted_text : str := u "import a" ++ nl ++ u "# lint-fixme: A, Other later" ++ nl ++ u "import b" ++ nl.
Definition note : str := u "# lint-fixme: A, Other later".
Definition plain_meta : metadata :=
  Metadata (d_tree meta0) (fun n => Place [plain_node; line_node None] [] (N.eqb n 2)) (fun _ => ex_range).
Definition noted_meta : metadata :=
  Metadata (d_tree meta0)
    (fun n => Place [plain_node; NInfo (Some None) NoBody None None [] [] (Some (if N.eqb n 2 then [] else [Some note])) false] [] (N.eqb n 2)) (fun _ => ex_range).
Definition plain_module : module :=
  Mod (Node 0 false [Body None [
    Node 1 true [Ind; Seq true [Node 2 false [Txt (u "import a"); Sep None (u "; ")]]; Txt nl];
    Node 3 true [Ind; Seq true [Node 4 false [Txt (u "import b"); Sep None (u "; ")]]; Txt nl]]]) true nl.
Definition noted_module : module :=
  Mod (Node 0 false [Body None [
    Node 1 true [Ind; Seq true [Node 2 false [Txt (u "import a"); Sep None (u "; ")]]; Txt nl];
    Node 3 true [Txt (note ++ nl); Ind; Seq true [Node 4 false [Txt (u "import b"); Sep None (u "; ")]]; Txt nl]]]) true nl.
Definition two_versions : system :=
  MkSystem env0 U0 (fun _ => world0) (PyState [] [] 0)
    (fun _ k => if N.eqb (fst k) 1 then reporter (u "ARule") None else reporter (u "B") None)
    (fun text => Ok (if str_eqb text plain_text then plain_module else noted_module))
    (fun m => Ok (if str_eqb (Cst.code m) plain_text then plain_meta else noted_meta))
    (fun _ => 1) (fun _ _ b => b) (fun m => Ok (Cst.code m)) (fun _ => None) (fun _ p => Ok [p]).
Definition seen (n : N) : result := Result ex_file (Some (Violation (u "A") ex_range (u "no imports") n None [])) None.

Definition plain_run : list ev :=
  [ELook (ex_fs plain_text); ELook (ex_fs plain_text); ELook (ex_fs plain_text); EGive (seen 2) None; EGive (seen 4) None].
Definition noted_run : list ev :=
  [ELook (ex_fs noted_text); ELook (ex_fs noted_text); ELook (ex_fs noted_text); EGive (seen 2) None].

Example C97_example :
  run (fixit_file (tool_of two_versions) ex_file false None false) plain_run (Returned tt) /\
  run (fixit_file (tool_of two_versions) ex_file false None false) noted_run (Returned tt) /\
  same_but_comments two_versions ex_file None plain_run noted_run plain_meta noted_meta /\
  adds_comments [(note, fun n => negb (N.eqb n 2))] plain_meta noted_meta /\
  listed U0 [u "A"; u "Other"] (u "A, Other") /\ remark (u " later").
Proof.
  split; [apply play_run with (l := [IFiles (ex_fs plain_text); IFiles (ex_fs plain_text); IFiles (ex_fs plain_text); IAnswer None; IAnswer None]); vm_compute; reflexivity|].
  split; [apply play_run with (l := [IFiles (ex_fs noted_text); IFiles (ex_fs noted_text); IFiles (ex_fs noted_text); IAnswer None]); vm_compute; reflexivity|].
  split.
  { split; [reflexivity|]. split; [reflexivity|]. split.
    - assert (Fs : forall F, In (ELook F) (plain_run ++ noted_run) -> F = ex_fs plain_text \/ F = ex_fs noted_text).
      { intros F I. unfold plain_run, noted_run in I. cbn [app In] in I.
        destruct I as [I|[I|[I|[I|[I|[I|[I|[I|[I|[]]]]]]]]]]; try discriminate; injection I as <-; auto. }
      assert (G : generate_config (y_env two_versions) (ex_fs plain_text) ex_file None None = generate_config (y_env two_versions) (ex_fs noted_text) ex_file None None) by (vm_compute; reflexivity).
      intros F F' cf cf' I I' E E'. destruct (Fs _ I) as [-> | ->], (Fs _ I') as [-> | ->]; congruence.
    - exists plain_module, noted_module. split; [vm_compute; reflexivity|]. split; [vm_compute; reflexivity|].
      split; [|split].
      + intros F text t Ff Fh Fp. injection Fh as <-. vm_compute in Ff. injection Ff as <-. vm_compute in Fp. now injection Fp as <-.
      + intros F text t Ff Fh Fp. injection Fh as <-. vm_compute in Ff. injection Ff as <-. vm_compute in Fp. now injection Fp as <-.
      + intros F k. cbn zeta. unfold two_versions. cbn [y_code]. destruct (N.eqb (fst k) 1); vm_compute; repeat constructor. }
  split.
  { apply a_one with (M1 := noted_meta); [|apply a_none; intro n; apply w_same]. intro n. unfold plain_meta, noted_meta. cbn [d_place]. destruct (N.eqb n 2); cbn [negb]; [apply w_same|].
    apply (c_near note [plain_node]); [repeat constructor; intros [X _]; now apply X|]. left. exists [], []. split; reflexivity. }
  split.
  - apply (l_more U0 (u "A") (u " ") [u "Other"] (u "Other")); [split; [discriminate|repeat constructor]|repeat constructor|].
    apply l_one. split; [discriminate|repeat constructor].
  - right. eexists _, _. split; reflexivity.
Qed.

(** The second import is not reported any more, and the first still is. *)
Example C97_example_result :
  map sight (violations (results plain_run)) = [(u "A", 2%N, u "no imports"); (u "A", 4%N, u "no imports")] /\
  map sight (violations (results noted_run)) = [(u "A", 2%N, u "no imports")].
Proof. vm_compute. split; reflexivity. Qed.

(** The names have to be apart by commas that directly follow them: here the second rule is part of the remark, and is reported. *)
Example C97_example_apart : forall U,
  comment_ignores U (u "A") (u "# lint-ignore: A , B") = true /\ comment_ignores U (u "B") (u "# lint-ignore: A , B") = false.
Proof. intro U. vm_compute. split; reflexivity. Qed.

Print Assumptions C97_listed.
Print Assumptions C97_all.
Print Assumptions C97_either.
Print Assumptions C97_next_to.
Print Assumptions C97_elsewhere.
Print Assumptions C97_possible.
Print Assumptions C97_file.
Print Assumptions C97_clean.
