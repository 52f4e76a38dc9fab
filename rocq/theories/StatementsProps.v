(** * C91: the rule classes about statements, and those that keep state, on whole files *)
From Coq Require Import String List NArith Bool Arith Lia Permutation Sorted.
From Verif Require Import Base PyStr Py Rules ReportsSpec ReportsProps Classes ClassesSpec ClassesProps SortedProps DataclassProps Scopes ScopesProps Imports ImportsProps Upgrade UpgradeProps
  Trees TreesSpec TreesFacts TreesProps AnnotationProps Ftypes Paths Config Collect CollectSpec Suppress SuppressSpec Cst Engine Batch BatchProps Api ApiSpec System SystemSpec SystemProps
  Session SessionSpec CommandsSpec ProgramSpec ProgramProps Visitors VisitorsSpec VisitorsFacts Statements StatementsSpec StatementsFacts.
Import ListNotations.

Lemma say_spoken : forall write md i l, map (say_it write md i) l = map (spoken write md i) l.
Proof. intros write md i l. apply map_ext. intros [[j|] new]; reflexivity. Qed.

Section OneClass.
  Context (read : module -> N -> thing) (write : module -> N -> new_thing -> repl).

  Lemma walk_told : forall r md nodes b xs,
    walk (fun (_ : bool) c (own : unit) => match r (read md (cst_id c)) with Ok l => (map (say_it write md (cst_id c)) l, Ok own) | Err e => ([], Err e) end) (map (pair b) nodes) tt = (xs, Ok tt) ->
    exists reports, Forall2 (fun c l => r (read md (cst_id c)) = Ok l) nodes reports /\ xs = told write md nodes reports.
  Proof.
    intros r md nodes b. induction nodes as [|c nodes IH]; intros xs H; cbn [map walk] in H; [injection H as <-; exists []; split; [constructor|reflexivity]|].
    destruct (r (read md (cst_id c))) as [l|e] eqn:E; [|discriminate H]. destruct (walk _ (map (pair b) nodes) tt) as [ys o] eqn:W. injection H as <- ->.
    destruct (IH _ eq_refl) as (reports & F & ->). exists (l :: reports). split; [constructor; auto|]. rewrite say_spoken. reflexivity.
  Qed.

  Lemma class_told : forall name msg enter ty r md M xs, no_underscore ty -> (forall t ty', has_type t ty' -> ty' <> ty -> r t = Ok []) -> shows_things read md M ->
    goes (statement_class read write name msg enter ty r) md (calls (d_tree M)) tt = (xs, Ok tt) ->
    exists reports, Forall2 (fun c l => r (read md (cst_id c)) = Ok l) (if enter then all_nodes (d_tree M) else ending (d_tree M)) reports /\
      xs = told write md (if enter then all_nodes (d_tree M) else ending (d_tree M)) reports.
  Proof.
    intros name msg enter ty r md M xs Nu Q Sh H. unfold statement_class in H.
    match type of H with goes (acts _ _ _ _ _ _ ?g) _ _ _ = _ => set (f := g) in H end.
    rewrite goes_acts in H by (destruct enter; repeat constructor; exact Nu).
    assert (Qf : forall b c s, In (b, c) (steps (d_tree M)) -> cst_type c <> ty -> f b md c s = ([], Ok s)).
    { intros b c s I N. unfold f. destruct (Sh c (steps_nodes _ _ _ I)) as (T & _). now rewrite (Q _ _ T N). }
    set (keep := fun x : bool * cst => if enter then fst x else negb (fst x)).
    assert (E : walk (fun b => f b md) (filter (relevant (if enter then [ty] else []) (if enter then [] else [ty])) (steps (d_tree M))) tt = walk (fun b => f b md) (filter keep (steps (d_tree M))) tt).
    { assert (Ef : filter (relevant (if enter then [ty] else []) (if enter then [] else [ty])) (steps (d_tree M)) = filter (fun x => str_eqb (cst_type (snd x)) ty) (filter keep (steps (d_tree M)))).
      { generalize (steps (d_tree M)). intro l. induction l as [|[b c] l IHl]; [reflexivity|]. cbn [filter].
        assert (Er : relevant (if enter then [ty] else []) (if enter then [] else [ty]) (b, c) = keep (b, c) && str_eqb (cst_type c) ty).
        { unfold relevant, keep. cbn [fst snd]. destruct enter, b; cbn [existsb negb]; rewrite ?orb_false_r; reflexivity. }
        rewrite Er, IHl. destruct (keep (b, c)); cbn [andb]; [|reflexivity]. cbn [filter snd]. reflexivity. }
      rewrite Ef. apply walk_filter. intros b c s I Eb. apply Qf; [now apply filter_In in I|]. cbn [snd] in Eb. now apply str_eqb_neq in Eb. }
    rewrite E in H. unfold keep in H. destruct enter.
    - rewrite steps_enter in H. now apply walk_told in H.
    - rewrite steps_leave in H. now apply walk_told in H.
  Qed.
End OneClass.

(** ** What the rules report about one node *)
Ltac nothing_else := intros; subst; try discriminate; try congruence.

Lemma object_told : forall c, object_reports c (here (option_map NewClass (no_object c))).
Proof.
  intro c. generalize (C63_reported c). destruct (no_object c) as [new|]; cbn [option_map here]; [|apply no_object_base].
  intros (H1 & H2 & H3 & H4 & H5 & H6). apply object_base; auto. repeat split; auto.
Qed.
Lemma named_told : forall nt c, named_tuple_reports nt c (here (option_map NewClass (no_named_tuple nt c))).
Proof.
  intros nt c. generalize (C67_named nt c). destruct (no_named_tuple nt c) as [new|]; cbn [option_map here]; [|apply no_tuple_base].
  intros (H1 & H2 & H3 & H4 & H5 & H6). apply tuple_base; auto.
Qed.
Lemma frozen_told : forall dc ds, frozen_reports dc ds
  (flat_map (fun dj => match frozen_decorator dc (fst dj) with Some d' => [(Some (snd dj), Some (NewDecorator d'))] | None => [] end) ds).
Proof.
  intros dc ds. induction ds as [|[d j] ds (sel & K & F)]; [exists []; split; constructor|]. cbn [flat_map fst snd]. generalize (C67_frozen dc d).
  destruct (frozen_decorator dc d) as [new|].
  - intros (D & H). exists ((d, j) :: sel). split.
    + apply keeps_one; auto. split; [exact D|]. cbn [fst]. intros (f & args & a & -> & I & N). destruct H as [(f' & args' & E & Na & _)|(N' & _)]; [|now apply (N' f args)]. injection E as <- <-. exact (Na a I N).
    + constructor; auto. exists new. split; [|reflexivity]. destruct H as [(f & args & E & _ & H)|H]; [left; exists f, args; auto|right; exact H].
  - intro H. exists sel. split; [|exact F]. apply keeps_not; auto. cbn [fst]. intros (D & N). apply N. destruct (H D) as (f & args & E & a & I & Nf). eauto 6.
Qed.
Lemma sorted_told : forall text c x, (forall lines, d_body c = Block lines -> NoDup (map ln_id lines)) -> sorted_attributes text c = Ok x -> sorted_reports text c (here (option_map NewClass x)).
Proof.
  intros text c [new|] Nd H; cbn [option_map here].
  - destruct (C64_result _ _ H) as (Mk & E1 & E2 & E3 & E4 & lines & pre & first & rest & attrs & names & post & B & B' & L & Np & Af & Kn & Pm & Fa & O & St & Nk).
    apply marked_unsorted with (lines := lines) (pre := pre) (attrs := attrs) (names := names) (post := post); auto; [eauto|]. destruct new. cbn in *. congruence.
  - unfold sorted_attributes in H. destruct (docstring text (d_body c)) as [doc|] eqn:D.
    2:{ apply not_marked. intro Mk. apply marked_iff in Mk. destruct Mk as (a & b & E). congruence. }
    destruct (contains (u "@sorted-attributes") doc) eqn:Ct.
    2:{ apply not_marked. intro Mk. apply some_marked in Mk. destruct Mk as (doc' & D' & C'). congruence. }
    destruct (d_body c) as [ls|body] eqn:B; [|eapply marked_line; exact B].
    destruct (partition_lines false ls) as [[pre assigns] post] eqn:P. destruct (partition_false _ P) as (Ea & _ & _).
    destruct (sort_lines assigns) as [s|e] eqn:S; [|discriminate H]. cbn [bind] in H. destruct (list_eqb N.eqb (map ln_id s) (map ln_id assigns)) eqn:Q; [|discriminate H].
    apply list_eqb_N in Q.
    assert (K : keeps assignment ls assigns).
    { rewrite Ea. apply keeps_filter. intros l _. apply is_attr_iff. }
    apply marked_sorted with (lines := ls) (attrs := assigns); auto. destruct (sort_lines_spec _ S) as [(_ & Le)|(kls & E1 & F1 & E2)]; [now left|right].
    exists (map fst kls). split.
    + rewrite <- E1. clear - F1. induction F1 as [|p l Hp F IH]; [constructor|]. constructor; auto.
    + assert (Es : s = assigns).
      { apply (@id_inj ls); auto.
        - intros l I. rewrite E2 in I. apply (keeps_in K). rewrite <- E1. eapply Permutation_in; [apply Permutation_map, Permutation_sym, sorted_perm|exact I].
        - intros l I. now apply (keeps_in K) in I. }
      assert (G : forall l l' : list (str * Classes.line), Forall (fun p => attribute (snd p) (fst p)) l -> Forall (fun p => attribute (snd p) (fst p)) l' -> map snd l = map snd l' -> map fst l = map fst l').
      { clear. induction l as [|x l IH]; intros [|y l'] H H' E; try discriminate; auto. cbn [map] in *. injection E as E E'. inversion H; subst. inversion H'; subst.
        f_equal; auto. eapply attribute_fun; [eassumption|]. now rewrite E. }
      rewrite (G kls (sorted kleb kls)); auto.
      * apply map_sorted, kleb_sorted.
      * rewrite Forall_forall in *. intros p I. apply F1. eapply Permutation_in; [apply Permutation_sym, sorted_perm|exact I].
      * congruence.
Qed.
Lemma cls_told : forall outer f, cls_reports outer f (match use_cls outer f with Some o => [(None, option_map NewFunction o)] | None => [] end).
Proof.
  intros outer f. unfold use_cls. destruct (fn_classmethod f) eqn:C; [|apply cls_fine; auto]. destruct (fn_params f) as [|p0 ps] eqn:P; [cbn [option_map]; apply cls_missing; auto|].
  destruct (str_eqb p0 Scopes.cls) eqn:E; [apply str_eqb_eq in E; subst; apply cls_fine; right; exists ps; exact P|]. apply str_eqb_neq in E.
  destruct (known (fn_locals f :: outer) Scopes.cls) eqn:K; cbn [option_map].
  - apply existsb_exists in K. destruct K as (s & I & M). apply mem_iff in M. eapply cls_taken; eauto.
  - apply cls_other; auto. intros s I J. assert (X : known (fn_locals f :: outer) Scopes.cls = true) by (apply existsb_exists; exists s; split; [exact I|now apply mem_iff]). congruence.
Qed.
Lemma except_told : forall hs, except_reports hs (if or_in_except hs then [(None, None)] else []).
Proof.
  intro hs. destruct (or_in_except hs) eqn:E.
  - apply C71_or in E. destruct E as (l & r & E). eapply or_handler; exact E.
  - apply no_or_handler. intros l r H. assert (X : or_in_except hs = true) by (apply C71_or; eauto). congruence.
Qed.
Lemma if_told : forall test, if_reports test (match no_static_if test with Some _ => [(None, None)] | None => [] end).
Proof.
  intro test. destruct (C75_static_if test) as (H1 & H2). destruct (no_static_if test) as [o|] eqn:E.
  - assert (o = None) as -> by (unfold no_static_if, no_fix in E; destruct (static_bool test); congruence). destruct (proj1 H1 eq_refl) as (b & S). eapply if_settled; exact S.
  - apply if_open. intros b S. apply (proj1 H2 eq_refl). eauto.
Qed.
Lemma union_told : forall sc v es, union_reports sc v es
  (match union_to_optional sc v es with Some o => [(None, option_map (fun p => NewAnnotation (fst p) (snd p)) o)] | None => [] end).
Proof.
  intros sc v es. generalize (C66_union sc v es). destruct (union_to_optional sc v es) as [o|].
  - intros (Ev & e & Es & [(S1 & Ne & ->)|(S1 & ->)]); cbn [option_map fst snd]; [apply union_fixed; auto; split; auto|]. apply union_open with (e := e); auto. split; auto.
  - intro H. apply union_not. intros e (Ev & Es). apply H. split; auto. exists e. exact Es.
Qed.
Lemma noqa_told : forall s, noqa_reports s (if noqa_comment s then [(None, None)] else []).
Proof.
  intro s. destruct (noqa_comment s) eqn:E.
  - apply C71_noqa in E. destruct E as (a & b & E & H). eapply noqa; eauto.
  - apply no_noqa. intros a b Es H. assert (X : noqa_comment s = true) by (apply C71_noqa; eauto). congruence.
Qed.
Lemma keywords_told : forall cr names args, keyword_reports cr names args
  (flat_map (fun n => if existsb (str_eqb n) [u "fixit.InvalidTestCase"; u "fixit.ValidTestCase"] then here (option_map NewArgs (convert_linecol cr args)) else []) names).
Proof.
  intros cr names args.
  assert (T : forall n, existsb (str_eqb n) [u "fixit.InvalidTestCase"; u "fixit.ValidTestCase"] = true <-> test_case n).
  { intro n. cbn [existsb]. rewrite orb_false_r, orb_true_iff, !str_eqb_eq. reflexivity. }
  generalize (C69_keywords cr args). destruct (convert_linecol cr args) as [new|]; cbn [option_map here].
  - intros (Old & kept & line & column & K & L & Cl & ->). right. split; [exact Old|].
    exists kept, line, column, (filter (fun n => existsb (str_eqb n) [u "fixit.InvalidTestCase"; u "fixit.ValidTestCase"]) names). repeat (split; [assumption|]).
    split; [apply keeps_filter; intros n _; apply T|]. clear T. induction names as [|n names IH]; [reflexivity|]. cbn [flat_map filter]. destruct (existsb _ _); cbn [app map]; now rewrite IH.
  - intro H. left. split; [|now right]. clear. induction names as [|n names IH]; [reflexivity|]. cbn [flat_map]. rewrite IH. now destruct (existsb _ _).
Qed.

Section Codes.
  Context (read : module -> N -> thing) (write : module -> N -> new_thing -> repl) (msg : str -> option str) (text : expr -> option str) (code_range : expr -> expr -> expr).

  (** A class of the list, with the rule in it *)
  Definition code_with (C : rule_code) (r : thing -> res (list said)) : Prop :=
    exists name enter ty, C = statement_class read write name (msg name) enter ty r /\ no_underscore ty /\ (forall t ty', has_type t ty' -> ty' <> ty -> r t = Ok []) /\
      (forall c, (if enter then all_nodes c else ending c) = in_turn name c) /\
      forall t l, own_lines t -> r t = Ok l -> reports_of text code_range name t l.

  Lemma plain_type : forall s, forallb (fun x => negb (N.eqb x 95)) s = true -> no_underscore s.
  Proof. intros s H I. rewrite forallb_forall in H. specialize (H _ I). discriminate. Qed.

  Lemma all_codes : forall C, In C (statement_codes read write msg text code_range) -> exists r, code_with C r.
  Proof.
    intros C I. unfold statement_codes in I. cbn [List.In] in I.
    Ltac code r := exists r; eexists _, _, _; split; [reflexivity|]; split; [apply plain_type; reflexivity|]; split;
      [intros t ty' T N; destruct t; try reflexivity; cbn [has_type] in T; congruence|]; split; [reflexivity|];
      intros t l O E; destruct t; cbn in E; try (injection E as <-).
    Ltac close := unfold reports_of; repeat split; intros; subst; try discriminate; try congruence; try (cbn; tauto).
    repeat (destruct I as [<-|I]; [|]); [..|destruct I].
    - code object_rule; close. injection H as <- <- <- <-. apply object_told.
    - code named_tuple_rule; close. injection H as <- <- <- <-. apply named_told.
    - code frozen_rule; close. injection H as <- <- <- <-. apply frozen_told.
    - code (sorted_rule text); close.
      + injection H as <- <- <- <-. destruct (sorted_attributes text c) as [x|e] eqn:Ex; [|discriminate E]. cbn [bind] in E. injection E as <-. eapply sorted_told; [|exact Ex].
        intros lines B. eapply O; eauto.
    - code cls_rule; close. injection H as <- <-. apply cls_told.
    - code except_rule; close. injection H as <-. apply except_told.
    - code static_if_rule; close. injection H as <-. apply if_told.
    - code union_rule; close. injection H as <- <- <-. apply union_told.
    - code noqa_rule; close. injection H as <-. apply noqa_told.
    - code (keywords_rule code_range); close. injection H as <- <-. apply keywords_told.
  Qed.
End Codes.

(** What one of the classes says about a file that it goes through without an exception *)
Theorem C91_says : forall read write msg text code_range Y F p md M k C,
  In C (statement_codes read write msg text code_range) -> y_code Y F k = C -> shows_things read md M -> completes Y F p md M k ->
  exists reports, Forall2 (fun c l => reports_of text code_range (k_name C) (read md (cst_id c)) l) (in_turn (k_name C) (d_tree M)) reports /\
    says C md (calls (d_tree M)) (k_first C) = told write md (in_turn (k_name C) (d_tree M)) reports.
Proof.
  intros read write msg text cr Y F p md M k C I E Sh Cp. pose proof (completes_goes _ _ _ _ _ _ Cp) as Cg. rewrite E in Cg. destruct Cg as (own & H). clear E Cp.
  destruct (all_codes read write msg text cr C I) as (r & name & enter & ty & -> & Nu & Q & T & R).
  change (k_name (statement_class read write name (msg name) enter ty r)) with name. change (k_first (statement_class read write name (msg name) enter ty r)) with tt in *.
  change (k_own (statement_class read write name (msg name) enter ty r)) with unit in own. destruct own.
  destruct (goes (statement_class read write name (msg name) enter ty r) md (calls (d_tree M)) tt) as [xs o] eqn:G. cbn [snd] in H. subst o.
  rewrite says_goes, G. cbn [fst]. destruct (class_told _ _ _ _ _ _ _ _ _ _ Nu Q Sh G) as (reports & Fr & ->). rewrite T in *.
  exists reports. split; [|reflexivity].
  assert (An : forall c, In c (in_turn name (d_tree M)) -> In c (all_nodes (d_tree M))).
  { intros c Ic. rewrite <- T in Ic. destruct enter; [exact Ic|now apply ending_nodes]. }
  clear G I Q T Nu. induction Fr as [|c l cs ls Hc Fr IH]; [constructor|]. constructor; [|apply IH; intros; apply An; now right].
  apply R; [|exact Hc]. apply (Sh c). apply An. now left.
Qed.

(** An error-free run: for each selected class, the module and what it says *)
Lemma lint_parts : forall Y p autofix opts hook es,
  (forall F, fair_sets (y_world Y F)) -> run (fixit_file (tool_of Y) p autofix opts hook) es (Returned tt) -> no_errors es ->
  exists F content F1 cfg F2 es' ks parts,
    es = ELook F :: ELook F1 :: ELook F2 :: es' /\ f_file F p = Some content /\ generate_config (y_env Y) F1 p None opts = Ok cfg /\
    NoDup ks /\ (forall k, In k ks <-> selected Y F2 cfg k) /\ violations (results es) = concat parts /\
    Forall2 (fun k vs => exists md M, y_parse Y content = Ok md /\ y_wrap Y md = Ok M /\ completes Y F2 p md M k /\
      let C := y_code Y F2 k in heard (y_unicode Y) M C (says C md (calls (d_tree M)) (k_first C)) vs) ks parts.
Proof.
  intros Y p autofix opts hook es Fa R Ne.
  destruct (C78_exactly Y p autofix opts hook es Fa R Ne) as (F & content & F1 & cfg & F2 & es' & ks & Ees & Ef & Eg & Nk & Sel & H).
  destruct (file_works _ _ _ _ _ _ Fa R Ne) as (F' & content' & F1' & cfg' & F2' & es'' & Ees' & Ef' & Eg' & Wk).
  assert (F' = F /\ F1' = F1 /\ F2' = F2) as (-> & -> & ->) by (rewrite Ees in Ees'; injection Ees' as -> -> -> _; auto).
  assert (content' = content) as -> by congruence. assert (cfg' = cfg) as -> by congruence. exists F, content, F1, cfg, F2, es', ks.
  destruct H as [(-> & V)|(md & M & parts & Ep & Ew & H & V & _)]; [exists []; rewrite V; repeat (split; auto)|]. exists parts. repeat (split; auto).
  destruct Wk as (_ & Wk).
  assert (Cp : forall k, In k ks -> completes Y F2 p md M k).
  { intros k I. destruct Wk as [Wk|(md1 & M1 & Ep1 & Ew1 & Wk)]; [exfalso; apply (Wk k), Sel; auto|].
    assert (md1 = md) as -> by congruence. assert (M1 = M) as -> by congruence. apply Wk, Sel, I. }
  clear V Sel Nk. induction H as [|k vs ks parts Hk H IH]; [constructor|]. constructor; [|apply IH; intros; apply Cp; now right].
  exists md, M. split; auto. split; auto. split; [apply Cp; now left|exact Hk].
Qed.

(** Linting a file, without errors: the violations of each such class are what it is to report about the nodes of the file and no comment silences. *)
Theorem C91_lint : forall read write msg text code_range Y p autofix opts hook es,
  (forall F, fair_sets (y_world Y F)) -> (forall c md M, y_parse Y c = Ok md -> y_wrap Y md = Ok M -> shows_things read md M) ->
  run (fixit_file (tool_of Y) p autofix opts hook) es (Returned tt) -> no_errors es ->
  exists F content F1 cfg F2 es' ks parts,
    es = ELook F :: ELook F1 :: ELook F2 :: es' /\ f_file F p = Some content /\ generate_config (y_env Y) F1 p None opts = Ok cfg /\
    NoDup ks /\ (forall k, In k ks <-> selected Y F2 cfg k) /\ violations (results es) = concat parts /\
    Forall2 (fun k vs => let C := y_code Y F2 k in In C (statement_codes read write msg text code_range) ->
      exists md M reports, y_parse Y content = Ok md /\ y_wrap Y md = Ok M /\
        Forall2 (fun c l => reports_of text code_range (k_name C) (read md (cst_id c)) l) (in_turn (k_name C) (d_tree M)) reports /\
        heard (y_unicode Y) M C (told write md (in_turn (k_name C) (d_tree M)) reports) vs) ks parts.
Proof.
  intros read write msg text cr Y p autofix opts hook es Fa Sh R Ne.
  destruct (lint_parts _ _ _ _ _ _ Fa R Ne) as (F & content & F1 & cfg & F2 & es' & ks & parts & Ees & Ef & Eg & Nk & Sel & V & H).
  exists F, content, F1, cfg, F2, es', ks, parts. repeat (split; [assumption|]). clear V Sel Nk Ees Ef Eg R Ne.
  induction H as [|k vs ks parts (md & M & Ep & Ew & Cp & Hk) H IH]; [constructor|]. constructor; [|exact IH]. cbv zeta in *.
  intro I. destruct (C91_says _ _ _ _ _ _ _ _ _ _ _ _ I eq_refl (Sh _ _ _ Ep Ew) Cp) as (reports & Fr & E).
  exists md, M, reports. repeat (split; [assumption|]). rewrite <- E. exact Hk.
Qed.

(** ** Rules that keep state *)
Section TreeClass.
  Context (kind_of : module -> N -> kind) (write_expr : module -> N -> expr -> repl) (md : module) (text : str -> option str).
  Notation as_node := (as_node kind_of md).
  Notation say_note := (say_note write_expr text md).

  Definition go_all {S} (v : Trees.visitor S) : list node -> S -> S * list note :=
    fix go l s := match l with [] => (s, []) | c :: l' => let (s', r) := traverse v c s in let (s'', r') := go l' s' in (s'', r ++ r') end.
  Lemma traverse_eq : forall S (v : Trees.visitor S) i k cs s, traverse v (Trees.Node i k cs) s =
    let (s1, r1) := v_visit v (Trees.Node i k cs) s in let (s2, r2) := go_all v cs s1 in let (s3, r3) := v_leave v (Trees.Node i k cs) s2 in (s3, r1 ++ r2 ++ r3).
  Proof. reflexivity. Qed.

  Definition step_of {Own} (v : Trees.visitor Own) (b : bool) (c : cst) (s : Own) : list say * res Own :=
    let (s', ns) := (if b then v_visit v else v_leave v) (as_node c) s in (map say_note ns, Ok s').

  Lemma walk_traverse : forall Own (v : Trees.visitor Own) c s, walk (step_of v) (steps c) s = (map say_note (snd (traverse v (as_node c) s)), Ok (fst (traverse v (as_node c) s))).
  Proof.
    intros Own v. apply (cst_ind2 (fun c => forall s, walk (step_of v) (steps c) s = (map say_note (snd (traverse v (as_node c) s)), Ok (fst (traverse v (as_node c) s))))).
    intros i ty attrs IH s. set (c := Cst i ty attrs). set (subs := flat_map (fun a : str * list cst => match a with (_, cs) => cs end) attrs).
    assert (Es : steps c = (true, c) :: flat_map steps subs ++ [(false, c)]).
    { unfold c, subs. cbn [steps]. f_equal. f_equal. clear. induction attrs as [|[n cs] attrs IH]; [reflexivity|]. cbn [flat_map]. rewrite flat_map_app. now rewrite IH. }
    assert (En : as_node c = Trees.Node i (kind_of md i) (map as_node subs)).
    { unfold c, subs. cbn [Statements.as_node]. f_equal. clear. induction attrs as [|[n cs] attrs IH]; [reflexivity|]. cbn [flat_map]. rewrite map_app. now rewrite IH. }
    assert (IHs : forall x, In x subs -> forall s0, walk (step_of v) (steps x) s0 = (map say_note (snd (traverse v (as_node x) s0)), Ok (fst (traverse v (as_node x) s0)))).
    { intros x I. unfold subs in I. apply in_flat_map in I. destruct I as ([n cs] & Ia & Ic). exact (IH n cs Ia x Ic). }
    assert (Ew : forall s0, walk (step_of v) (flat_map steps subs) s0 = (map say_note (snd (go_all v (map as_node subs) s0)), Ok (fst (go_all v (map as_node subs) s0)))).
    { clear - IHs. induction subs as [|x subs IHx]; intro s0; [reflexivity|]. cbn [flat_map map]. change (go_all v (as_node x :: map as_node subs) s0) with (let (s', r) := traverse v (as_node x) s0 in let (s'', r') := go_all v (map as_node subs) s' in (s'', r ++ r')). rewrite walk_app, IHs by now left.
      destruct (traverse v (as_node x) s0) as [s1 r1]. cbn [fst snd]. rewrite (IHx (fun y I => IHs y (or_intror I)) s1). destruct (go_all v (map as_node subs) s1) as [s2 r2]. cbn [fst snd]. now rewrite map_app. }
    assert (Et : forall s0, traverse v (as_node c) s0 = let (s1, r1) := v_visit v (as_node c) s0 in let (s2, r2) := go_all v (map as_node subs) s1 in
        let (s3, r3) := v_leave v (as_node c) s2 in (s3, r1 ++ r2 ++ r3)) by (intro s0; rewrite En; apply traverse_eq).
    rewrite Es, Et. cbn [walk]. unfold step_of at 1. cbn match. destruct (v_visit v (as_node c) s) as [s1 r1]. rewrite walk_app, Ew.
    destruct (go_all v (map as_node subs) s1) as [s2 r2]. cbn [fst snd walk]. unfold step_of. destruct (v_leave v (as_node c) s2) as [s3 r3]. cbn [fst snd]. now rewrite app_nil_r, !map_app.
  Qed.
End TreeClass.

Lemma tree_says : forall kind_of write_expr name msg enter leave text Own (v : Trees.visitor Own) first md M,
  Forall no_underscore enter -> Forall no_underscore leave -> shows_kinds kind_of md M ->
  (forall t s ty, has_kind (node_kind t) ty -> existsb (str_eqb ty) enter = false -> v_visit v t s = (s, [])) ->
  (forall t s ty, has_kind (node_kind t) ty -> existsb (str_eqb ty) leave = false -> v_leave v t s = (s, [])) ->
  says (tree_class kind_of write_expr name msg enter leave text v first) md (calls (d_tree M)) first =
  map (say_note write_expr text md) (snd (traverse v (as_node kind_of md (d_tree M)) first)).
Proof.
  intros kind_of write_expr name msg enter leave text Own v first md M Ne Nl Sh Qe Ql. rewrite says_goes. unfold tree_class. rewrite (goes_acts enter leave Ne Nl).
  change (fst (walk (step_of kind_of write_expr md text v) (filter (relevant enter leave) (steps (d_tree M))) first) = map (say_note write_expr text md) (snd (traverse v (as_node kind_of md (d_tree M)) first))).
  rewrite walk_filter; [now rewrite walk_traverse|]. intros b c s I E. pose proof (Sh c (steps_nodes _ _ _ I)) as K.
  assert (Kn : node_kind (as_node kind_of md c) = kind_of md (cst_id c)) by (destruct c; reflexivity). rewrite <- Kn in K. unfold relevant in E. cbn [fst snd] in E. unfold step_of. destruct b.
  - now rewrite (Qe _ s _ K E).
  - now rewrite (Ql _ s _ K E).
Qed.

Ltac quiet_kinds := intros [i k cs] s ty K E; cbn [node_kind] in K; destruct k; cbn [has_kind] in K; subst; try reflexivity; discriminate E.
Ltac plain_types := repeat constructor; apply plain_type; reflexivity.

Section Says.
  Context (kind_of : module -> N -> kind) (write_expr : module -> N -> expr -> repl) (msg : str -> option str) (md : module) (M : metadata) (Sh : shows_kinds kind_of md M).
  Notation tree := (as_node kind_of md (d_tree M)).

  Lemma sleep_says : let C := sleep_class kind_of write_expr msg in
    says C md (calls (d_tree M)) (k_first C) = map (say_note write_expr (fun _ => None) md) (snd (traverse async_sleep tree false)).
  Proof. apply tree_says; [plain_types|plain_types|exact Sh|quiet_kinds|quiet_kinds]. Qed.
  Lemma super_says : let C := super_class kind_of write_expr msg in
    says C md (calls (d_tree M)) (k_first C) = map (say_note write_expr (fun _ => None) md) (snd (traverse redundant_super tree [])).
  Proof. apply tree_says; [plain_types|plain_types|exact Sh|quiet_kinds|quiet_kinds]. Qed.
  Lemma typing_says : forall text, let C := typing_class kind_of write_expr msg text in
    says C md (calls (d_tree M)) (k_first C) = map (say_note write_expr text md) (snd (traverse typing_types tree 0)).
  Proof. intro text. apply tree_says; [plain_types|plain_types|exact Sh|quiet_kinds|quiet_kinds]. Qed.
  Lemma strings_says : let C := strings_class kind_of write_expr msg in
    says C md (calls (d_tree M)) (k_first C) = map (say_note write_expr (fun _ => None) md) (snd (traverse string_types tree start)).
  Proof. apply tree_says; [plain_types|plain_types|exact Sh|quiet_kinds|quiet_kinds]. Qed.
End Says.

Lemma as_node_distinct : forall kind_of md M, own_ids M -> distinct (as_node kind_of md (d_tree M)).
Proof.
  intros kind_of md M H. unfold distinct. rewrite preorder_ids. unfold own_ids in H. enough (E : forall c, TreesFacts.ids (as_node kind_of md c) = map cst_id (all_nodes c)) by now rewrite E.
  apply cst_ind2. intros i ty attrs IH. cbn [as_node TreesFacts.ids all_nodes map cst_id]. f_equal.
  induction attrs as [|[n cs] attrs IHa]; [reflexivity|]. cbn [flat_map]. rewrite flat_map_app, map_app, IHa by (intros n' cs' I; apply (IH n' cs'); now right). f_equal.
  specialize (IH n cs (or_introl eq_refl)). clear IHa. induction cs as [|x cs IHc]; [reflexivity|]. cbn [map flat_map]. rewrite map_app, IHc by (intros c' I; apply IH; now right). now rewrite (IH x) by now left.
Qed.

(** Linting a file, without errors: the violations of the classes that keep state are about the nodes that they are to report, in order, where no
    comment silences them. *)
Theorem C91_state : forall kind_of write_expr msg text Y p autofix opts hook es,
  (forall F, fair_sets (y_world Y F)) -> (forall c md M, y_parse Y c = Ok md -> y_wrap Y md = Ok M -> shows_kinds kind_of md M /\ own_ids M) ->
  run (fixit_file (tool_of Y) p autofix opts hook) es (Returned tt) -> no_errors es ->
  exists F content F1 cfg F2 es' ks parts,
    es = ELook F :: ELook F1 :: ELook F2 :: es' /\ f_file F p = Some content /\ generate_config (y_env Y) F1 p None opts = Ok cfg /\
    NoDup ks /\ (forall k, In k ks <-> selected Y F2 cfg k) /\ violations (results es) = concat parts /\
    Forall2 (fun k vs => exists md M, y_parse Y content = Ok md /\ y_wrap Y md = Ok M /\
      let C := y_code Y F2 k in
      let t := as_node kind_of md (d_tree M) in
      let about n r := Say (Trees.node_id n) None PosDefault (option_map (write_expr md (Trees.node_id n)) r) in
      (** calls of time.sleep directly in an asynchronous function *)
      (C = sleep_class kind_of write_expr msg -> exists sel,
         keeps (fun pn => TreesProps.calls (u "time.sleep") (snd pn) /\ directly_in_async (fst pn)) (preorder [] t) sel /\
         heard (y_unicode Y) M C (map (fun pn => about (snd pn) None) sel) vs) /\
      (** calls of super with the class around as the first of two arguments *)
      (C = super_class kind_of write_expr msg -> exists sel,
         keeps super_call (postorder [] t) sel /\
         heard (y_unicode Y) M C (map (fun pn => about (snd pn) (Some (Py.Call (Name (u "super")) []))) sel) vs) /\
      (** names of builtin containers in annotations *)
      (C = typing_class kind_of write_expr msg text -> exists sel new,
         keeps (fun pn => exists y sc, builtin_container pn y sc) (preorder [] t) sel /\
         Forall2 (fun pn x => exists y sc, builtin_container pn y sc /\
           x = Say (Trees.node_id (snd pn)) (text y) PosDefault (if sc y then Some (write_expr md (Trees.node_id (snd pn)) (Name y)) else None)) sel new /\
         heard (y_unicode Y) M C new vs) /\
      (** strings in annotations after the future import, but not in Literal *)
      (C = strings_class kind_of write_expr msg -> exists sel new,
         keeps (fun pn => (exists e, is_string (snd pn) e) /\ in_annotation (fst pn) /\ future_before (fst pn) /\ ~ in_literal (fst pn)) (preorder [] t) sel /\
         Forall2 (fun pn x => exists e, is_string (snd pn) e /\ x = about (snd pn) e) sel new /\
         heard (y_unicode Y) M C new vs)) ks parts.
Proof.
  intros kind_of we msg text Y p autofix opts hook es Fa Sh R Ne.
  destruct (lint_parts _ _ _ _ _ _ Fa R Ne) as (F & content & F1 & cfg & F2 & es' & ks & parts & Ees & Ef & Eg & Nk & Sel & V & H).
  exists F, content, F1, cfg, F2, es', ks, parts. repeat (split; [assumption|]). clear V Sel Nk Ees Ef Eg R Ne.
  induction H as [|k vs ks parts (md & M & Ep & Ew & _ & Hk) H IH]; [constructor|]. constructor; [|exact IH]. clear IH H. cbv zeta in *.
  exists md, M. split; [exact Ep|]. split; [exact Ew|]. destruct (Sh _ _ _ Ep Ew) as (Kd & Oi). repeat split; intro E; rewrite E in Hk |- *.
  - change (says (sleep_class kind_of we msg) md (Batch.calls (d_tree M)) (k_first (sleep_class kind_of we msg))) with (let C := sleep_class kind_of we msg in says C md (Batch.calls (d_tree M)) (k_first C)) in Hk.
    rewrite sleep_says in Hk by exact Kd. destruct (C65_async_sleep (as_node kind_of md (d_tree M))) as (sel & K & Es). exists sel. split; [exact K|]. rewrite Es, map_map in Hk. exact Hk.
  - change (says (super_class kind_of we msg) md (Batch.calls (d_tree M)) (k_first (super_class kind_of we msg))) with (let C := super_class kind_of we msg in says C md (Batch.calls (d_tree M)) (k_first C)) in Hk.
    rewrite super_says in Hk by exact Kd. destruct (C65_super (as_node kind_of md (d_tree M))) as (sel & K & Es). exists sel. split; [exact K|]. rewrite Es, map_map in Hk. exact Hk.
  - change (says (typing_class kind_of we msg text) md (Batch.calls (d_tree M)) (k_first (typing_class kind_of we msg text))) with (let C := typing_class kind_of we msg text in says C md (Batch.calls (d_tree M)) (k_first C)) in Hk.
    rewrite typing_says in Hk by exact Kd. destruct (C66_typing (as_node kind_of md (d_tree M))) as (sel & K & Fn). exists sel. eexists. split; [exact K|]. split; [|exact Hk].
    clear K Hk. induction Fn as [|pn n sel ns (N1 & y & sc & B & N2 & N3) Fn IHn]; [constructor|]. constructor; [|exact IHn]. exists y, sc. split; [exact B|].
    unfold say_note. rewrite N1, N2, N3. now destruct (sc y).
  - change (says (strings_class kind_of we msg) md (Batch.calls (d_tree M)) (k_first (strings_class kind_of we msg))) with (let C := strings_class kind_of we msg in says C md (Batch.calls (d_tree M)) (k_first C)) in Hk.
    rewrite strings_says in Hk by exact Kd. destruct (C66_strings (as_node_distinct kind_of md M Oi)) as (sel & K & Fn). exists sel. eexists. split; [exact K|]. split; [|exact Hk].
    clear K Hk. induction Fn as [|pn n sel ns (N1 & S1) Fn IHn]; [constructor|]. constructor; [|exact IHn]. exists (n_repl n). split; [exact S1|]. unfold say_note. now rewrite N1.
Qed.

(** ** DeprecatedABCImport *)
Section AbcClass.
  Context (read : module -> N -> thing) (write : module -> N -> new_thing -> repl) (name : str) (msg : option str) (md : module) (M : metadata).

  Definition abc_step (enter : bool) (c : cst) (s : option (list str)) : list say * res (option (list str)) :=
    let i := cst_id c in
    if enter then
      match read md i with
      | AnImport b imp => let (s', r) := visit_import s (b, imp) in (map (say_it write md i) (here (option_map NewImport r)), Ok s')
      | AnAlias a => (map (say_it write md i) (here (option_map NewAlias (abc_alias a))), Ok s)
      | AClass k _ _ _ => (map (fun new => say_it write md i (None, Some (NewClass new))) (abc_bases k), Ok s)
      | _ => ([], Ok s)
      end
    else
      match read md i with
      | AModule body => (map (say_it write md i) (here (option_map (fun names => NewBody (split_imports names body)) s)), Ok s)
      | _ => ([], Ok s)
      end.

  Lemma abc_entered : forall nodes s, exists reports s',
    walk abc_step (map (pair true) nodes) s = (told write md nodes reports, Ok s') /\
    Forall2 (fun c l => abc_reports (read md (cst_id c)) l) nodes reports /\
    let things := map (fun c => read md (cst_id c)) nodes in
    ((s' = s /\ forall i names, In (AnImport false i) things -> ~ mixed_import i names) \/
     exists l1 i l2 names, things = l1 ++ AnImport false i :: l2 /\ mixed_import i names /\ s' = Some names /\ forall j ns, In (AnImport false j) l2 -> ~ mixed_import j ns).
  Proof.
    induction nodes as [|c nodes IH]; intro s.
    { exists [], s. split; [reflexivity|]. split; [constructor|]. left. split; [reflexivity|]. intros i names []. }
    assert (K : exists l s1, abc_step true c s = (map (say_it write md (cst_id c)) l, Ok s1) /\ abc_reports (read md (cst_id c)) l /\
      ((s1 = s /\ forall i names, read md (cst_id c) = AnImport false i -> ~ mixed_import i names) \/ exists i names, read md (cst_id c) = AnImport false i /\ mixed_import i names /\ s1 = Some names)).
    { unfold abc_step. cbv zeta. assert (Z : forall t, match t with AnImport _ _ | AnAlias _ | AClass _ _ _ _ => False | _ => True end -> forall i names, t = AnImport false i -> ~ mixed_import i names).
      { intros t H i names ->. destruct H. }
      destruct (read md (cst_id c)) as [k nt dc ds|outer f|hs|test|sc v es|tx|ns args|b imp|a|body|n] eqn:Er;
        try (exists [], s; split; [reflexivity|]; split; [apply abc_other; exact Logic.I|left; split; [reflexivity|apply Z; exact Logic.I]]).
      - destruct (C68_bases k) as (bs & n & E & Fb & old & Ko & Lo). exists (map (fun _ => (None, Some (NewClass (ClassDef (d_name k) bs (d_keywords k) (d_decorators k) (d_body k))))) old), s.
        split; [|split; [apply abc_class_bases; assumption|left; split; [reflexivity|discriminate]]].
        rewrite E, <- Lo, map_map. f_equal. clear. induction old as [|x old IH]; [reflexivity|]. cbn [List.length repeat map]. now rewrite IH.
      - destruct (visit_import_spec s b imp) as [(-> & Pu & E)|[(-> & (names & Mi & E) & Np)|(Nm & Np & E)]]; rewrite E; cbn [option_map here].
        + eexists _, s. split; [reflexivity|]. split; [apply abc_pure; exact Pu|]. left. split; [reflexivity|]. intros i names Ei. injection Ei as <-.
          intros ((M1 & l' & El & ->) & _ & x & I & Nx). destruct Pu as (ns & (_ & l'' & El' & ->) & _ & A). rewrite El in El'. injection El' as <-. apply Nx, A, I.
        + exists [], (Some names). split; [reflexivity|]. split; [apply abc_not_pure; now right|]. right. eauto.
        + exists [], s. split; [reflexivity|]. split; [apply abc_not_pure; exact Np|]. left. split; [reflexivity|]. intros i names Ei. injection Ei as -> ->. destruct Nm as [Nm|Nm]; [discriminate|apply Nm].
      - exists (here (option_map NewAlias (abc_alias a))), s. split; [reflexivity|]. split; [|left; split; [reflexivity|discriminate]]. destruct (abc_alias a) as [a'|] eqn:Ea; cbn [option_map here].
        + apply C68_import in Ea. destruct Ea as (x & A & E1 & E2 & E3). eapply abc_dotted; eauto.
        + apply abc_not_dotted. intros x A E. assert (X : abc_alias a = Some (ImportAlias [u "collections"; u "abc"; x] (ia_as a))) by (apply C68_import; exists x; auto). congruence. }
    destruct K as (l & s1 & E1 & R1 & D1). destruct (IH s1) as (reports & s' & E2 & R2 & D2). exists (l :: reports), s'. split; [|split; [constructor; assumption|]].
    - cbn [map walk]. rewrite E1, E2, say_spoken. reflexivity.
    - cbv zeta in *. cbn [map]. destruct D2 as [(-> & N2)|(l1 & i & l2 & names & E & Mi & -> & N2)].
      + destruct D1 as [(-> & N1)|(i & names & E & Mi & ->)].
        * left. split; [reflexivity|]. intros i names [E|I]; [now apply N1|now apply N2].
        * right. exists [], i, (map (fun c => read md (cst_id c)) nodes), names. rewrite E. auto.
      + right. exists (read md (cst_id c) :: l1), i, l2, names. rewrite E. auto.
  Qed.

  Lemma abc_says : forall body, shows_things read md M -> one_module read md M body ->
    exists reports final, Forall2 (fun c l => abc_reports (read md (cst_id c)) l) (all_nodes (d_tree M)) reports /\
      module_reports (map (fun c => read md (cst_id c)) (all_nodes (d_tree M))) body final /\
      let C := abc_class read write name msg in
      says C md (calls (d_tree M)) (k_first C) = told write md (all_nodes (d_tree M)) reports ++ map (spoken write md (cst_id (d_tree M))) final.
  Proof.
    intros body Sh (Rb & Om). destruct (abc_entered (all_nodes (d_tree M)) None) as (reports & s' & E & Fr & D). cbv zeta in D.
    exists reports, (here (option_map (fun names => NewBody (split_imports names body)) s')). split; [exact Fr|]. split.
    { destruct D as [(-> & N)|(l1 & i & l2 & names & El & Mi & -> & N)]; [now apply module_fine|]. cbn [option_map here]. destruct (split_parts names body) as (parts & Fp & ->). eapply module_mixed; eauto. }
    cbv zeta. rewrite says_goes. unfold abc_class.
    rewrite goes_acts by plain_types.
    change (fst (walk abc_step (filter (relevant (map u ["ImportFrom"; "ImportAlias"; "ClassDef"]%string) [u "Module"]) (steps (d_tree M))) None) =
      told write md (all_nodes (d_tree M)) reports ++ map (spoken write md (cst_id (d_tree M))) (here (option_map (fun names => NewBody (split_imports names body)) s'))).
    rewrite walk_filter.
    2:{ intros b c s I Er. destruct (Sh c (steps_nodes _ _ _ I)) as (T & _). unfold relevant in Er. cbn [fst snd] in Er. unfold abc_step. destruct b, (read md (cst_id c)); try reflexivity; cbn [has_type] in T; rewrite T in Er; discriminate Er. }
    assert (Sp : exists init, steps (d_tree M) = init ++ [(false, d_tree M)] /\ forall c, In (false, c) init -> In c (tl (all_nodes (d_tree M)))).
    { destruct (d_tree M) as [i ty attrs]. exists ((true, Cst i ty attrs) :: flat_map (fun a : str * list cst => match a with (_, cs) => flat_map steps cs end) attrs). split; [reflexivity|].
      change (tl (all_nodes (Cst i ty attrs))) with (flat_map (fun a : str * list cst => match a with (_, cs) => flat_map all_nodes cs end) attrs).
      intros c [I|I]; [discriminate I|]. apply in_flat_map in I. destruct I as ([n cs] & Ia & I). apply in_flat_map in I. destruct I as (x & Ix & I). apply in_flat_map. exists (n, cs). split; auto. apply in_flat_map. exists x. split; auto. eapply steps_nodes, I. }
    destruct Sp as (init & Es & Hi). pose proof (steps_enter (d_tree M)) as Ee. rewrite Es, filter_app in Ee. cbn [filter fst] in Ee. rewrite app_nil_r in Ee.
    rewrite Es, walk_app, <- (walk_filter _ abc_step (fun x => fst x) init), Ee, E.
    2:{ intros b c s I Eb. cbn [fst] in Eb. subst b. assert (In c (all_nodes (d_tree M))) as Ia by (apply (steps_nodes _ false); rewrite Es; apply in_or_app; now left).
        destruct (Sh c Ia) as (T & _). specialize (Om c (Hi c I)). unfold abc_step. destruct (read md (cst_id c)); try reflexivity. cbn [has_type] in T. contradiction. }
    cbn [walk]. unfold abc_step. cbv zeta. rewrite Rb. cbn [fst]. now rewrite app_nil_r, say_spoken.
  Qed.
End AbcClass.

(** Linting a file, without errors: the violations of DeprecatedABCImport are what is to be reported about the nodes of the file, then about the module,
    and no comment silences. *)
Theorem C91_abc : forall read write name msg Y p autofix opts hook es,
  (forall F, fair_sets (y_world Y F)) ->
  (forall c md M, y_parse Y c = Ok md -> y_wrap Y md = Ok M -> shows_things read md M /\ exists body, one_module read md M body) ->
  run (fixit_file (tool_of Y) p autofix opts hook) es (Returned tt) -> no_errors es ->
  exists F content F1 cfg F2 es' ks parts,
    es = ELook F :: ELook F1 :: ELook F2 :: es' /\ f_file F p = Some content /\ generate_config (y_env Y) F1 p None opts = Ok cfg /\
    NoDup ks /\ (forall k, In k ks <-> selected Y F2 cfg k) /\ violations (results es) = concat parts /\
    Forall2 (fun k vs => let C := y_code Y F2 k in C = abc_class read write name msg ->
      exists md M body reports final, y_parse Y content = Ok md /\ y_wrap Y md = Ok M /\ one_module read md M body /\
        Forall2 (fun c l => abc_reports (read md (cst_id c)) l) (all_nodes (d_tree M)) reports /\
        module_reports (map (fun c => read md (cst_id c)) (all_nodes (d_tree M))) body final /\
        heard (y_unicode Y) M C (told write md (all_nodes (d_tree M)) reports ++ map (spoken write md (cst_id (d_tree M))) final) vs) ks parts.
Proof.
  intros read write name msg Y p autofix opts hook es Fa Sh R Ne.
  destruct (lint_parts _ _ _ _ _ _ Fa R Ne) as (F & content & F1 & cfg & F2 & es' & ks & parts & Ees & Ef & Eg & Nk & Sel & V & H).
  exists F, content, F1, cfg, F2, es', ks, parts. repeat (split; [assumption|]). clear V Sel Nk Ees Ef Eg R Ne.
  induction H as [|k vs ks parts (md & M & Ep & Ew & _ & Hk) H IH]; [constructor|]. constructor; [|exact IH]. clear IH H. cbv zeta in *.
  intro E. rewrite E in Hk |- *. destruct (Sh _ _ _ Ep Ew) as (St & body & Om). destruct (abc_says read write name msg md M body St Om) as (reports & final & Fr & Mr & Es). cbv zeta in Es.
  exists md, M, body, reports, final. repeat (split; [assumption|]). rewrite <- Es. exact Hk.
Qed.
