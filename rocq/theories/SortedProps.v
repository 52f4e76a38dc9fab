(** * C64: sorted class attributes *)
From Coq Require Import String List NArith Bool Arith Permutation Sorted Lia.
From Verif Require Import Base PyStr Py Classes ClassesSpec ClassesProps.
Import ListNotations.
Set Implicit Arguments.

(** A line that assigns one target, and one that assigns the name [s]. *)
Definition assignment (l : line) : Prop := exists t v, ln_content l = Simple [Assign [t] v].
Definition attribute (l : line) (s : str) : Prop := exists v, ln_content l = Simple [Assign [Name s] v].

(** The first statement of the body is the expression [e]. *)
Definition begins_with (b : suite) (e : expr) : Prop :=
  (exists l ls ss, b = Block (l :: ls) /\ ln_content l = Simple (ExprStmt e :: ss)) \/ (exists ss, b = OneLine (ExprStmt e :: ss)).

(** The class asks for sorting in its docstring. *)
Definition marked (text : expr -> option str) (c : class_def) : Prop :=
  exists e a b, begins_with (d_body c) e /\ text e = Some (a ++ u "@sorted-attributes" ++ b).

Definition in_order (names : list str) : Prop := StronglySorted (fun a b => str_leb a b = true) names.

(** ** Facts *)

Lemma docstring_iff : forall text b doc, docstring text b = Some doc <-> exists e, begins_with b e /\ text e = Some doc.
Proof.
  intros text b doc. unfold docstring, begins_with. split.
  - destruct b as [[|l ls]|[|s ss]]; try discriminate.
    + destruct (ln_content l) as [[|[|e|] ss]|] eqn:E; try discriminate. intro T. exists e. split; auto. left. eauto.
    + destruct s as [|e|]; try discriminate. intro T. exists e. split; eauto.
  - intros (e & [(l & ls & ss & -> & E)|(ss & ->)] & T); [rewrite E|]; exact T.
Qed.

Lemma marked_iff : forall text c, marked text c <-> exists a b, docstring text (d_body c) = Some (a ++ u "@sorted-attributes" ++ b).
Proof.
  intros text c. unfold marked. split.
  - intros (e & a & b & B & T). exists a, b. apply docstring_iff. eauto.
  - intros (a & b & D). apply docstring_iff in D. destruct D as (e & B & T). eauto 6.
Qed.

Lemma contains_iff : forall t s, contains t s = true <-> exists a b, s = a ++ t ++ b.
Proof.
  intros t s. induction s as [|x s IH]; cbn [contains].
  - rewrite orb_false_r, startswith_spec. split; [intros (b & E); exists [], b; auto|].
    intros (a & b & E). destruct a; [exists b; auto|discriminate].
  - rewrite orb_true_iff, startswith_spec, IH. split.
    + intros [(b & ->)|(a & b & ->)]; [exists [], b; auto|exists (x :: a), b; auto].
    + intros (a & b & E). destruct a as [|y a]; [left; exists b; auto|]. right. injection E as -> ->. eauto.
Qed.

Definition is_attr (l : line) : bool := match attribute_line l with Some _ => true | None => false end.

Lemma is_attr_iff : forall l, is_attr l = true <-> assignment l.
Proof.
  intro l. unfold is_attr, attribute_line, assignment. destruct (ln_content l) as [[|[[|t [|t2 ts]] v|e|n] [|y b]]|n]; split;
    intro H; try discriminate; eauto; destruct H as (t0 & v0 & H); try discriminate.
Qed.

Lemma partition_true : forall ls, partition_lines true ls = ([], filter is_attr ls, filter (fun l => negb (is_attr l)) ls).
Proof.
  induction ls as [|l ls IH]; [reflexivity|]. cbn [partition_lines filter].
  assert (A : is_attr l = match attribute_line l with Some _ => true | None => false end) by reflexivity. rewrite A.
  destruct (attribute_line l); rewrite IH; reflexivity.
Qed.

Lemma partition_false : forall ls pre assigns post, partition_lines false ls = (pre, assigns, post) ->
  assigns = filter is_attr ls /\ pre ++ post = filter (fun l => negb (is_attr l)) ls /\
  exists rest, ls = pre ++ rest /\ (forall l, In l pre -> is_attr l = false) /\
    match rest with [] => post = [] | l :: rest' => is_attr l = true /\ post = filter (fun l => negb (is_attr l)) rest' end.
Proof.
  induction ls as [|l ls IH]; intros pre assigns post E; cbn [partition_lines] in E.
  - injection E as <- <- <-. repeat split; auto. exists []. repeat split; auto. intros ? [].
  - cbn [filter]. assert (A : is_attr l = match attribute_line l with Some _ => true | None => false end) by reflexivity.
    destruct (attribute_line l) eqn:At.
    + rewrite partition_true in E. injection E as <- <- <-. rewrite A. cbn [negb]. repeat split; auto. exists (l :: ls). repeat split; auto. intros ? [].
    + destruct (partition_lines false ls) as [[pre0 as0] post0] eqn:P. injection E as <- <- <-.
      destruct (IH _ _ _ eq_refl) as (E1 & E2 & rest & E3 & Hp & Hr). rewrite A. cbn [negb]. repeat split.
      * exact E1.
      * cbn [app]. now rewrite E2.
      * exists rest. repeat split; auto; [now rewrite E3|]. intros x [<-|I]; auto.
Qed.

Lemma partition_again : forall pre s post,
  (forall l, In l pre -> is_attr l = false) -> (forall l, In l s -> is_attr l = true) -> (forall l, In l post -> is_attr l = false) ->
  s <> [] -> partition_lines false (pre ++ s ++ post) = (pre, s, post).
Proof.
  intros pre s post H1 H2 H3 N.
  assert (Fs : forall l, (forall x, In x l -> is_attr x = true) -> filter is_attr l = l /\ filter (fun x => negb (is_attr x)) l = []).
  { induction l as [|x l IH]; intro H; [auto|]. simpl. rewrite (H x (or_introl eq_refl)). simpl. destruct IH as [-> ->]; auto. intros; apply H; simpl; auto. }
  assert (Fn : forall l, (forall x, In x l -> is_attr x = false) -> filter is_attr l = [] /\ filter (fun x => negb (is_attr x)) l = l).
  { induction l as [|x l IH]; intro H; [auto|]. simpl. rewrite (H x (or_introl eq_refl)). simpl. destruct IH as [-> ->]; auto. intros; apply H; simpl; auto. }
  induction pre as [|l pre IH].
  - destruct s as [|x s]; [congruence|]. cbn [app partition_lines].
    pose proof (H2 x (or_introl eq_refl)) as Hx. unfold is_attr in Hx. destruct (attribute_line x); [|discriminate].
    rewrite partition_true. rewrite !filter_app.
    assert (H2' : forall l, In l s -> is_attr l = true) by (intros; apply H2; simpl; auto).
    destruct (Fs s H2') as [-> ->], (Fn post H3) as [-> ->]. rewrite app_nil_r. reflexivity.
  - cbn [app partition_lines]. pose proof (H1 l (or_introl eq_refl)) as Hx. unfold is_attr in Hx. destruct (attribute_line l); [discriminate|].
    rewrite IH; auto. intros; apply H1; simpl; auto.
Qed.

Lemma texts_of : forall ls keys kls, map_res key_of ls = Ok keys -> all_texts (combine keys ls) = Some kls ->
  map snd kls = ls /\ Forall (fun p => attribute (snd p) (fst p)) kls.
Proof.
  induction ls as [|l ls IH]; intros keys kls E A; cbn [map_res] in E.
  - injection E as <-. cbn in A. injection A as <-. auto.
  - destruct (key_of l) as [k|] eqn:K; [|discriminate]. cbn [bind] in E. destruct (map_res key_of ls) as [ks|]; [|discriminate].
    cbn [bind] in E. injection E as <-. cbn [combine all_texts] in A. destruct (key_text k) as [s|] eqn:Kt; [|discriminate].
    destruct (all_texts (combine ks ls)) as [r|] eqn:R; [|discriminate]. injection A as <-.
    destruct (IH _ _ eq_refl R) as [E1 E2]. split; [cbn [map snd]; now rewrite E1|]. constructor; auto. cbn [fst snd].
    unfold key_of, attribute_line in K. destruct (ln_content l) as [[|[[|t [|t2 ts]] v|e|n] [|y b]]|n] eqn:C; try discriminate.
    destruct t; try discriminate; injection K as <-; try discriminate. injection Kt as <-. exists v. exact C.
Qed.

Lemma texts_total : forall ls names, Forall2 attribute ls names ->
  exists keys, map_res key_of ls = Ok keys /\ all_texts (combine keys ls) = Some (combine names ls).
Proof.
  induction 1 as [|l s ls names (v & E) H (keys & E1 & E2)]; [exists []; auto|].
  exists (KText s :: keys). cbn [map_res]. unfold key_of at 1, attribute_line. rewrite E. cbn [bind]. rewrite E1. split; [reflexivity|].
  cbn [combine all_texts key_text]. rewrite E2. reflexivity.
Qed.

Definition kleb (a b : str * line) : bool := str_leb (fst a) (fst b).

Lemma sorted_id : forall l : list (str * line), StronglySorted (fun a b => kleb a b = true) l -> sorted kleb l = l.
Proof.
  induction 1 as [|x l S IH F]; [reflexivity|]. cbn [sorted fold_right]. fold (sorted kleb l). rewrite IH.
  destruct l as [|y l]; [reflexivity|]. cbn [insert_sorted]. inversion F as [|? ? K]; subst. now rewrite K.
Qed.

(** stability: the elements of one name keep their order *)
Lemma insert_same : forall (x : str * line) l s,
  filter (fun p => str_eqb (fst p) s) (insert_sorted kleb x l) =
  (if str_eqb (fst x) s then [x] else []) ++ filter (fun p => str_eqb (fst p) s) l.
Proof.
  intros x l s. induction l as [|y l IH]; cbn [insert_sorted]; [simpl; now destruct (str_eqb (fst x) s)|].
  destruct (kleb x y) eqn:K; [simpl; now destruct (str_eqb (fst x) s)|]. cbn [filter]. rewrite IH.
  destruct (str_eqb (fst x) s) eqn:E1, (str_eqb (fst y) s) eqn:E2; auto.
  apply str_eqb_eq in E1, E2. unfold kleb in K. rewrite E1, E2, str_leb_refl in K. discriminate.
Qed.

Lemma sorted_same : forall l s,
  filter (fun p => str_eqb (fst p) s) (sorted kleb l) = filter (fun p => str_eqb (fst p) s) l.
Proof.
  intros l s. induction l as [|x l IH]; [reflexivity|]. change (sorted kleb (x :: l)) with (insert_sorted kleb x (sorted kleb l)).
  rewrite insert_same, IH. cbn [filter]. now destruct (str_eqb (fst x) s).
Qed.

Lemma kleb_sorted : forall l, StronglySorted (fun a b => kleb a b = true) (sorted kleb l).
Proof.
  intro l. apply sorted_sorted.
  - intros a b. apply str_leb_total.
  - intros a b c. apply str_leb_trans.
Qed.

Lemma map_sorted : forall l : list (str * line), StronglySorted (fun a b => kleb a b = true) l <-> in_order (map fst l).
Proof.
  induction l as [|x l IH]; split; intro H; cbn [map] in *; try constructor; inversion H as [|? ? S F]; subst.
  - now apply IH.
  - clear - F. induction F; cbn [map]; constructor; auto.
  - now apply IH.
  - clear - F. induction l; constructor; inversion F; subst; auto.
Qed.

Lemma keeps_in : forall A (P : A -> Prop) l l', keeps P l l' -> forall x, In x l' <-> In x l /\ P x.
Proof.
  induction 1 as [|x l l' H K IH|x l l' H K IH]; intro y; simpl; [tauto| |]; split.
  - intros [->|E]; [tauto|]. apply IH in E. tauto.
  - intros [[->|E] Hy]; [tauto|]. right. apply IH. tauto.
  - intro E. apply IH in E. tauto.
  - intros [[->|E] Hy]; [contradiction|]. apply IH. tauto.
Qed.

Lemma filter_keeps : forall A (P : A -> Prop) (f : A -> bool) l l', (forall x, In x l -> f x = true <-> P x) -> keeps P l l' -> l' = filter f l.
Proof.
  intros A P f l l' H K. induction K as [|x l l' Hx K IH|x l l' Hx K IH]; simpl; auto.
  - rewrite (proj2 (H x (or_introl eq_refl)) Hx). f_equal. apply IH. intros; apply H; simpl; auto.
  - destruct (f x) eqn:E; [exfalso; apply Hx, H; simpl; auto|]. apply IH. intros; apply H; simpl; auto.
Qed.

Lemma attribute_fun : forall l s s', attribute l s -> attribute l s' -> s = s'.
Proof. intros l s s' (v & E) (v' & E'). congruence. Qed.

Lemma attribute_assignment : forall l s, attribute l s -> assignment l.
Proof. intros l s (v & E). exists (Name s), v. exact E. Qed.

Lemma filter_perm : forall A (f : A -> bool) l, Permutation l (filter (fun x => negb (f x)) l ++ filter f l).
Proof.
  intros A f l. induction l as [|x l IH]; [constructor|]. simpl. destruct (f x); simpl.
  - eapply perm_trans; [apply perm_skip, IH|]. apply Permutation_middle.
  - now apply perm_skip.
Qed.

(** What the rule does once it has sorted. *)
Lemma sort_lines_spec : forall ls s, sort_lines ls = Ok s ->
  (s = ls /\ List.length ls <= 1) \/
  exists kls, map snd kls = ls /\ Forall (fun p => attribute (snd p) (fst p)) kls /\ s = map snd (sorted kleb kls).
Proof.
  intros ls s E. unfold sort_lines in E. destruct (map_res key_of ls) as [keys|] eqn:K; [|discriminate]. cbn [bind] in E.
  destruct ls as [|x [|y ls]]; try (injection E as <-; left; simpl; split; [reflexivity|lia]).
  destruct (all_texts (combine keys (x :: y :: ls))) as [kls|] eqn:A; [|discriminate]. injection E as <-. right.
  destruct (texts_of _ K A) as [E1 E2]. exists kls. auto.
Qed.

Lemma list_eqb_N : forall a b : list N, list_eqb N.eqb a b = true <-> a = b.
Proof. intros a b. apply list_eqb_spec. intros. apply N.eqb_eq. Qed.

Lemma id_inj : forall (L a b : list line), NoDup (map ln_id L) -> incl a L -> incl b L -> map ln_id a = map ln_id b -> a = b.
Proof.
  intros L a. induction a as [|x a IH]; intros [|y b] N Ha Hb E; try discriminate; auto. cbn [map] in E. injection E as E1 E2. f_equal.
  - assert (I1 : In x L) by (apply Ha; simpl; auto). assert (I2 : In y L) by (apply Hb; simpl; auto). clear - N E1 I1 I2.
    induction L as [|z L IH]; [destruct I1|]. cbn [map] in N. inversion N as [|? ? N1 N2]; subst.
    destruct I1 as [->|I1], I2 as [->|I2]; auto.
    + exfalso. apply N1. rewrite E1. now apply in_map.
    + exfalso. apply N1. rewrite <- E1. now apply in_map.
  - apply IH; auto; intros z I; [apply Ha|apply Hb]; simpl; auto.
Qed.

(** ** C64 *)

(** The new body: everything up to the first assignment, then the assignments sorted by name (those of one name in
    their order), then everything else in its order. The class is marked, and was not in order. *)
Theorem C64_result : forall text c new,
  sorted_attributes text c = Ok (Some new) ->
  marked text c /\
  d_name new = d_name c /\ d_bases new = d_bases c /\ d_keywords new = d_keywords c /\ d_decorators new = d_decorators c /\
  exists lines pre first rest attrs names post,
    d_body c = Block lines /\ d_body new = Block (pre ++ attrs ++ post) /\
    lines = pre ++ first :: rest /\ (forall l, In l pre -> ~ assignment l) /\ assignment first /\
    keeps (fun l => ~ assignment l) lines (pre ++ post) /\
    Permutation lines (pre ++ attrs ++ post) /\
    Forall2 attribute attrs names /\ in_order names /\
    (forall s, exists same, keeps (fun l => attribute l s) lines same /\ keeps (fun l => attribute l s) attrs same) /\
    ~ keeps assignment lines attrs.
Proof.
  intros text c new E. unfold sorted_attributes in E. destruct (docstring text (d_body c)) as [doc|] eqn:D; [|discriminate].
  destruct (contains (u "@sorted-attributes") doc) eqn:M; [|discriminate]. apply contains_iff in M. destruct M as (a & b & ->).
  destruct (d_body c) as [ls|] eqn:B; [|discriminate].
  destruct (partition_lines false ls) as [[pre assigns] post] eqn:P.
  destruct (sort_lines assigns) as [s|] eqn:S; [|discriminate]. cbn [bind] in E.
  destruct (list_eqb N.eqb (map ln_id s) (map ln_id assigns)) eqn:Q; [discriminate|]. injection E as <-. cbn [d_name d_bases d_keywords d_decorators d_body].
  split; [apply marked_iff; exists a, b; rewrite B; exact D|]. repeat (split; [reflexivity|]).
  destruct (partition_false _ P) as (Ea & Ep & rest & El & Hp & Hr).
  destruct (sort_lines_spec _ S) as [[-> _]|(kls & K1 & K2 & ->)].
  { rewrite (proj2 (list_eqb_N _ _) eq_refl) in Q. discriminate. }
  destruct rest as [|first rest].
  { exfalso. rewrite app_nil_r in El. subst pre. assert (X : assigns = []).
    { rewrite Ea. clear - Hp. induction ls as [|x ls IH]; [reflexivity|]. simpl. rewrite (Hp x (or_introl eq_refl)). apply IH. intros; apply Hp; simpl; auto. }
    rewrite X in K1. destruct kls; [|discriminate]. rewrite X in Q. discriminate. }
  destruct Hr as [Hf Hr].
  assert (Pm : Permutation kls (sorted kleb kls)) by apply sorted_perm.
  exists ls, pre, first, rest, (map snd (sorted kleb kls)), (map fst (sorted kleb kls)), post.
  split; [reflexivity|]. split; [reflexivity|]. split; [exact El|].
  split; [intros l I K; apply is_attr_iff in K; rewrite (Hp l I) in K; discriminate|].
  split; [now apply is_attr_iff|].
  assert (Kn : keeps (fun l => ~ assignment l) ls (pre ++ post)).
  { rewrite Ep. apply keeps_filter. intros l _. rewrite negb_true_iff. split; intro H.
    - intro K. apply is_attr_iff in K. congruence.
    - destruct (is_attr l) eqn:X; auto. exfalso. apply H. now apply is_attr_iff. }
  split; [exact Kn|].
  split.
  { eapply perm_trans; [apply filter_perm with (f := is_attr)|]. rewrite <- Ep, <- Ea, <- K1.
    rewrite <- app_assoc. apply Permutation_app_head. eapply perm_trans; [apply Permutation_app_comm|]. apply Permutation_app_tail.
    now apply Permutation_map. }
  assert (Fa : Forall (fun p => attribute (snd p) (fst p)) (sorted kleb kls)).
  { rewrite Forall_forall in *. intros p I. apply K2. eapply Permutation_in; [apply Permutation_sym; exact Pm|exact I]. }
  split; [clear - Fa; induction Fa; cbn [map]; constructor; auto|].
  split; [apply map_sorted, kleb_sorted|].
  split.
  - intro n. exists (map snd (filter (fun p => str_eqb (fst p) n) kls)).
    assert (G : forall k : list (str * line), Forall (fun p => attribute (snd p) (fst p)) k ->
              keeps (fun l => attribute l n) (map snd k) (map snd (filter (fun p => str_eqb (fst p) n) k))).
    { clear. induction 1 as [|x k Hx H IH]; [constructor|]. cbn [map filter]. destruct (str_eqb (fst x) n) eqn:X.
      - cbn [map]. apply keeps_one; auto. apply str_eqb_eq in X. now rewrite <- X.
      - apply keeps_not; auto. intro K. rewrite (attribute_fun Hx K), str_eqb_refl in X. discriminate. }
    split.
    + (* among all lines *)
      specialize (G kls K2). rewrite K1, Ea in G. clear - G. remember (map snd (filter (fun p : str * line => str_eqb (fst p) n) kls)) as same eqn:X. clear X kls.
      revert same G. induction ls as [|x ls IH]; intros same G; simpl in G; [exact G|]. destruct (is_attr x) eqn:X.
      * inversion G; subst; [apply keeps_one|apply keeps_not]; auto.
      * apply keeps_not; auto. intro K. apply attribute_assignment, is_attr_iff in K. congruence.
    + rewrite <- sorted_same. now apply G.
  - intro K. assert (X : map snd (sorted kleb kls) = assigns).
    { rewrite Ea. apply filter_keeps with (P := assignment); auto. intros; apply is_attr_iff. }
    rewrite X, (proj2 (list_eqb_N _ _) eq_refl) in Q. discriminate.
Qed.

Lemma some_marked : forall text c, marked text c -> exists doc, docstring text (d_body c) = Some doc /\ contains (u "@sorted-attributes") doc = true.
Proof. intros text c E. apply marked_iff in E. destruct E as (a & b & E). exists (a ++ u "@sorted-attributes" ++ b). split; auto. apply contains_iff. eauto. Qed.

(** When all its assignments are to names, a marked class is reported iff they are not in order. *)
Theorem C64_reported : forall text c lines attrs names,
  d_body c = Block lines -> NoDup (map ln_id lines) -> marked text c ->
  keeps assignment lines attrs -> Forall2 attribute attrs names ->
  (in_order names -> sorted_attributes text c = Ok None) /\
  (~ in_order names -> exists new, sorted_attributes text c = Ok (Some new)).
Proof.
  intros text c lines attrs names B N Mk Ka Fa. destruct (some_marked Mk) as (doc & D & M).
  unfold sorted_attributes. rewrite D, M, B.
  destruct (partition_lines false lines) as [[pre assigns] post] eqn:P. destruct (partition_false _ P) as (Ea & _ & _).
  assert (A : assigns = attrs). { rewrite Ea. symmetry. apply filter_keeps with (P := assignment); auto. intros; apply is_attr_iff. }
  rewrite A in *. clear A.
  destruct (texts_total Fa) as (keys & E1 & E2). 
  assert (L : map snd (combine names attrs) = attrs /\ map fst (combine names attrs) = names).
  { clear - Fa. induction Fa as [|x y l l' _ _ [IH1 IH2]]; [auto|]. cbn [combine map fst snd]. now rewrite IH1, IH2. }
  destruct L as [L1 L2].
  assert (S : sort_lines attrs = Ok (map snd (sorted kleb (combine names attrs)))).
  { unfold sort_lines. rewrite E1. cbn [bind]. destruct attrs as [|x [|y attrs]].
    - inversion Fa; subst. reflexivity.
    - inversion Fa as [|? s ? ? _ F']; subst. inversion F'; subst. reflexivity.
    - rewrite E2. reflexivity. }
  rewrite S. cbn [bind]. split; intro O.
  - rewrite sorted_id by (apply map_sorted; now rewrite L2). rewrite L1, (proj2 (list_eqb_N _ _) eq_refl). reflexivity.
  - destruct (list_eqb N.eqb _ _) eqn:Q; [|eauto]. exfalso. apply O. apply list_eqb_N in Q.
    assert (Ie : incl attrs lines) by (intros x I; apply (keeps_in Ka) in I; tauto).
    assert (Is : incl (map snd (sorted kleb (combine names attrs))) lines).
    { intros x I. apply Ie. rewrite <- L1. eapply Permutation_in; [apply Permutation_map, Permutation_sym, sorted_perm|exact I]. }
    apply (@id_inj lines) in Q; auto.
    assert (G : forall l l' : list (str * line), Forall (fun p => attribute (snd p) (fst p)) l -> Forall (fun p => attribute (snd p) (fst p)) l' ->
              map snd l = map snd l' -> map fst l = map fst l').
    { induction l as [|x l IH]; intros [|y l'] H H' E; try discriminate; auto. cbn [map] in *. injection E as E E'. inversion H; subst. inversion H'; subst.
      f_equal; auto. eapply attribute_fun; [eassumption|]. now rewrite E. }
    assert (Fk : Forall (fun p => attribute (snd p) (fst p)) (combine names attrs)).
    { clear - Fa. induction Fa; cbn [combine]; constructor; auto. }
    rewrite <- L2, <- (G (sorted kleb (combine names attrs))); auto.
    + apply map_sorted, kleb_sorted.
    + rewrite Forall_forall in *. intros p I. apply Fk. eapply Permutation_in; [apply Permutation_sym, sorted_perm|exact I].
    + congruence.
Qed.

(** Without the mark nothing happens. *)
Theorem C64_unmarked : forall text c, ~ marked text c -> sorted_attributes text c = Ok None.
Proof.
  intros text c N. unfold sorted_attributes. destruct (docstring text (d_body c)) as [doc|] eqn:D; auto.
  destruct (contains (u "@sorted-attributes") doc) eqn:M; auto. exfalso. apply N. apply contains_iff in M. destruct M as (a & b & ->). apply marked_iff. exists a, b. exact D.
Qed.

Theorem C64_once : forall text c new, sorted_attributes text c = Ok (Some new) -> sorted_attributes text new = Ok None.
Proof.
  intros text c new E. destruct (C64_result _ _ E) as (Mk & _ & _ & _ & _ & lines & pre & first & rest & attrs & names & post & B & B' & El & Hp & Hf & Kn & Pm & Fa & O & _ & _).
  assert (A1 : forall l, In l attrs -> is_attr l = true).
  { intros l I. apply is_attr_iff. clear - Fa I. induction Fa as [|x s l1 l2 H F IH]; destruct I; subst; auto. eapply attribute_assignment; eauto. }
  assert (A2 : forall l, In l (pre ++ post) -> is_attr l = false).
  { intros l I. destruct (is_attr l) eqn:X; auto. exfalso. apply (keeps_in Kn) in I. destruct I as [_ I]. apply I. now apply is_attr_iff. }
  assert (Na : attrs <> []).
  { intros ->. assert (I : In first (pre ++ [] ++ post)).
    { apply (Permutation_in _ Pm). rewrite El. apply in_or_app. simpl. auto. }
    simpl in I. apply A2 in I. apply is_attr_iff in Hf. congruence. }
  unfold sorted_attributes. destruct (docstring text (d_body new)) as [doc|]; auto. destruct (contains _ doc); auto. rewrite B'.
  rewrite partition_again; auto; try (intros l I; apply A2; apply in_or_app; auto).
  destruct (texts_total Fa) as (keys & E1 & E2). unfold sort_lines. rewrite E1. cbn [bind].
  destruct attrs as [|x [|y attrs]]; [congruence| |].
  - cbn [bind]. rewrite (proj2 (list_eqb_N _ _) eq_refl). reflexivity.
  - rewrite E2. cbn [bind].
    assert (L : forall (a : list line) n, Forall2 attribute a n -> map snd (combine n a) = a /\ map fst (combine n a) = n).
    { clear. induction 1 as [|u0 v0 l l' _ _ [IH1 IH2]]; [auto|]. cbn [combine map fst snd]. now rewrite IH1, IH2. }
    destruct (L _ _ Fa) as [L1 L2].
    change (sorted (fun a b : str * line => str_leb (fst a) (fst b))) with (sorted kleb).
    rewrite sorted_id by (apply map_sorted; now rewrite L2). rewrite L1, (proj2 (list_eqb_N _ _) eq_refl). reflexivity.
Qed.

(** ** What the new body does *)

Lemma precedes_cons : forall A (a b x : A) l, precedes a b l -> precedes a b (x :: l).
Proof. intros A a b x l (p & q & r & ->). exists (x :: p), q, r. reflexivity. Qed.

Lemma execute_app : forall S A (step : A -> S -> option S) l1 l2 s,
  execute step (l1 ++ l2) s = match execute step l1 s with Some s' => execute step l2 s' | None => None end.
Proof. intros S A step. induction l1 as [|x l1 IH]; intros l2 s; [reflexivity|]. simpl. destruct (step x s); auto. Qed.

Lemma front : forall S A (step : A -> S -> option S) h x y s,
  (forall a, In a x -> commute step a h) -> execute step (x ++ h :: y) s = execute step (h :: x ++ y) s.
Proof.
  intros S A step h x. induction x as [|a x IH]; intros y s H; [reflexivity|].
  assert (E : execute step ((a :: x) ++ h :: y) s = execute step (a :: h :: x ++ y) s).
  { cbn [app execute]. destruct (step a s) as [s'|]; [|reflexivity]. rewrite IH; [reflexivity|]. intros; apply H; simpl; auto. }
  rewrite E. pose proof (H a (or_introl eq_refl) s) as C. cbn [execute app] in *.
  destruct (step a s) as [s1|]; [destruct (step h s1) as [s2|]|]; destruct (step h s) as [s3|];
    try (destruct (step a s3) as [s4|]); congruence.
Qed.

Lemma reorder : forall S A (step : A -> S -> option S) l' l, Permutation l l' -> NoDup l ->
  (forall a b, precedes a b l -> precedes b a l' -> commute step a b) ->
  forall s, execute step l s = execute step l' s.
Proof.
  intros S A step. induction l' as [|h l' IH]; intros l Pm N H s.
  - apply Permutation_sym, Permutation_nil in Pm. now subst.
  - assert (I : In h l) by (eapply Permutation_in; [apply Permutation_sym; exact Pm|simpl; auto]).
    destruct (in_split _ _ I) as (x & y & ->). 
    assert (P' : Permutation (x ++ y) l') by (apply Permutation_cons_inv with (a := h); eapply perm_trans; [apply Permutation_middle|exact Pm]).
    rewrite front.
    + cbn [execute]. destruct (step h s) as [s'|]; auto. apply IH; auto.
      * now apply NoDup_remove_1 in N.
      * intros a b Pa Pb. apply H; [|now apply precedes_cons].
        destruct Pa as (p & q & r & E). clear - E. revert p q E. induction x as [|z x IHx]; intros p q E; simpl in E.
        -- subst y. exists (h :: p), q, r. reflexivity.
        -- destruct p as [|z' p]; simpl in E; injection E as -> E.
           ++ clear IHx. assert (K : exists q', x ++ h :: y = q' ++ b :: r \/ exists r', x ++ h :: y = q' ++ b :: r').
              { assert (Ib : In b (x ++ h :: y)). { apply in_or_app. assert (In b (x ++ y)) by (rewrite E; apply in_or_app; simpl; auto). apply in_app_or in H. simpl. tauto. }
                destruct (in_split _ _ Ib) as (q' & r' & ->). exists q'. right. eauto. }
              destruct K as (q' & [K|(r' & K)]); simpl; rewrite K; exists [], q'; eexists; reflexivity.
           ++ apply precedes_cons. now apply (IHx p q).
    + intros a Ia. apply H.
      * destruct (in_split _ _ Ia) as (p & q & ->). exists p, q, y. now rewrite <- !app_assoc.
      * assert (Ia' : In a l') by (eapply Permutation_in; [exact P'|apply in_or_app; auto]).
        destruct (in_split _ _ Ia') as (p & q & ->). exists [], p, q. reflexivity.
Qed.

(** Executing the new body does the same, whatever a line does, if lines that have changed their order can be
    exchanged. *)
Theorem C64_meaning : forall S (step : line -> S -> option S) text c new lines lines' s,
  d_body c = Block lines -> NoDup (map ln_id lines) ->
  sorted_attributes text c = Ok (Some new) -> d_body new = Block lines' ->
  (forall a b, precedes a b lines -> precedes b a lines' -> commute step a b) ->
  execute step lines s = execute step lines' s.
Proof.
  intros S step text c new lines lines' s B N E B' H.
  destruct (C64_result _ _ E) as (_ & _ & _ & _ & _ & ls & pre & first & rest & attrs & names & post & B1 & B1' & _ & _ & _ & _ & Pm & _).
  rewrite B in B1. injection B1 as <-. rewrite B' in B1'. injection B1' as ->.
  apply reorder; auto. clear - N. induction lines as [|x l IH]; [constructor|]. cbn [map] in N. inversion N as [|? ? N1 N2]; subst. constructor; auto.
  intro I. apply N1. now apply in_map.
Qed.

(** ** Concrete cases *)

Definition doc_line : line := Line 1 (Simple [ExprStmt (SimpleString [] (u """") (u "@sorted-attributes"))]).
Definition ex_text (e : expr) : option str := match e with SimpleString _ _ raw => Some raw | _ => None end.
Definition set_line (id : N) (x : string) (v : expr) : line := Line id (Simple [Assign [Name (u x)] v]).
Definition num (s : string) : expr := Number (u s).
Definition ex_body (ls : list line) : class_def := ClassDef (u "A") [] [] [] (Block (doc_line :: ls)).

Example C64_example :
  sorted_attributes ex_text (ex_body [set_line 2 "b" (num "1"); Line 3 (Compound 7); set_line 4 "a" (num "2"); set_line 5 "b" (num "3")]) =
  Ok (Some (ex_body [set_line 4 "a" (num "2"); set_line 2 "b" (num "1"); set_line 5 "b" (num "3"); Line 3 (Compound 7)])).
Proof. vm_compute. reflexivity. Qed.

Example C64_example_reported : let c := ex_body [set_line 2 "b" (num "1"); set_line 4 "a" (num "2")] in
  marked ex_text c /\ NoDup (map ln_id [doc_line; set_line 2 "b" (num "1"); set_line 4 "a" (num "2")]) /\ ~ in_order [u "b"; u "a"].
Proof.
  split; [apply marked_iff; exists [], []; reflexivity|]. split; [repeat constructor; simpl; intuition discriminate|].
  intro H. inversion H as [|? ? _ F]; subst. inversion F as [|? ? K]; subst. vm_compute in K. discriminate.
Qed.

(** Names and numbers: what such assignments do. *)
Definition assign_step (l : line) (s : list (str * str)) : option (list (str * str)) :=
  match ln_content l with
  | Simple [Assign [Name x] (Number n)] => Some (dset x n s)
  | Simple [Assign [Name x] (Name y)] => match dget y s with Some n => Some (dset x n s) | None => None end
  | _ => Some s
  end.

(** "Sorting changes nothing but the order of the attributes": refuted, [b = 1; a = b] fails after sorting. *)
Theorem C64_meaning_refuted : ~ (forall text c new lines lines' x,
  d_body c = Block lines -> NoDup (map ln_id lines) ->
  sorted_attributes text c = Ok (Some new) -> d_body new = Block lines' ->
  match execute assign_step lines [], execute assign_step lines' [] with
  | Some s, Some s' => dget x s = dget x s'
  | None, None => True
  | _, _ => False
  end).
Proof.
  intro H.
  specialize (H ex_text (ex_body [set_line 2 "b" (num "1"); set_line 3 "a" (Name (u "b"))])
                (ex_body [set_line 3 "a" (Name (u "b")); set_line 2 "b" (num "1")])
                [doc_line; set_line 2 "b" (num "1"); set_line 3 "a" (Name (u "b"))]
                [doc_line; set_line 3 "a" (Name (u "b")); set_line 2 "b" (num "1")] (u "a") eq_refl).
  assert (N : NoDup (map ln_id [doc_line; set_line 2 "b" (num "1"); set_line 3 "a" (Name (u "b"))]))
    by (repeat constructor; simpl; intuition discriminate).
  specialize (H N). vm_compute in H. apply H; reflexivity.
Qed.

(** The other assignments: a target that is not a name makes the rule fail, for a tuple even if it is the only one. *)
Theorem C64_crash_refuted : ~ (forall text c, marked text c -> exists r, sorted_attributes text c = Ok r).
Proof.
  intro H. destruct (H ex_text (ex_body [Line 2 (Simple [Assign [Tuple [(false, Name (u "a")); (false, Name (u "b"))]] (num "1")])])) as (r & E).
  - apply marked_iff. exists [], []. reflexivity.
  - vm_compute in E. discriminate.
Qed.

(** Lines that set two different places. *)
Definition slot_step (l : line) (s : option expr * option expr) : option (option expr * option expr) :=
  match ln_content l with
  | Simple [Assign [Name x] v] =>
      Some (if str_eqb x (u "a") then (Some v, snd s) else if str_eqb x (u "b") then (fst s, Some v) else s)
  | _ => Some s
  end.

Example C64_meaning_example :
  let lines := [doc_line; set_line 2 "b" (num "1"); set_line 3 "a" (num "2")] in
  let lines' := [doc_line; set_line 3 "a" (num "2"); set_line 2 "b" (num "1")] in
  sorted_attributes ex_text (ClassDef (u "A") [] [] [] (Block lines)) = Ok (Some (ClassDef (u "A") [] [] [] (Block lines'))) /\
  (forall a b, precedes a b lines -> precedes b a lines' -> commute slot_step a b) /\
  execute slot_step lines (None, None) = Some (Some (num "2"), Some (num "1")).
Proof.
  split; [vm_compute; reflexivity|]. split; [|vm_compute; reflexivity].
  intros a b (x & y & z & E) _.
  assert (Ia : In a [doc_line; set_line 2 "b" (num "1")]).
  { destruct x as [|x1 [|x2 [|x3 x]]]; simpl in E; injection E; intros; subst; simpl; auto.
    - destruct y; discriminate.
    - destruct x; discriminate. }
  assert (Ib : In b [set_line 2 "b" (num "1"); set_line 3 "a" (num "2")]).
  { destruct x as [|x1 [|x2 [|x3 x]]]; simpl in E; injection E; intros; subst; try (destruct x; discriminate).
    - destruct y as [|y1 [|y2 y]]; simpl in *; match goal with H : _ = _ |- _ => injection H; intros; subst end; simpl; auto. destruct y; discriminate.
    - destruct y as [|y1 y]; simpl in *; match goal with H : _ = _ |- _ => injection H; intros; subst end; simpl; auto. destruct y; discriminate.
    - destruct y; discriminate. }
  intro s. destruct Ia as [<-|[<-|[]]], Ib as [<-|[<-|[]]]; reflexivity.
Qed.

(** ** When the rule fails *)

Definition assigns_to (l : line) (t : expr) : Prop := exists v, ln_content l = Simple [Assign [t] v].
Definition with_node (t : expr) : Prop := (exists a b, t = Attribute a b) \/ (exists a b, t = Subscript a b).
Definition without_value (t : expr) : Prop := (forall s, t <> Name s) /\ ~ with_node t.

Lemma attribute_line_iff : forall l t, attribute_line l = Some t <-> assigns_to l t.
Proof.
  intros l t. unfold attribute_line, assigns_to. destruct (ln_content l) as [[|[[|t1 [|t2 ts]] v|e|n] [|y b]]|n]; split; intro H;
    try discriminate; try (destruct H as (v0 & H); congruence). injection H as ->. eauto.
Qed.

Lemma key_of_cases : forall l t, assigns_to l t ->
  (without_value t /\ key_of l = Err AttributeError) \/ (with_node t /\ key_of l = Ok KNode) \/ (exists s, t = Name s /\ key_of l = Ok (KText s)).
Proof.
  intros l t A. apply attribute_line_iff in A. unfold key_of, without_value, with_node. rewrite A. destruct t; eauto 7;
    left; (split; [|reflexivity]); (split; [discriminate|]); intros [(a & b & X)|(a & b & X)]; discriminate.
Qed.

Lemma with_node_not : forall t, with_node t -> ~ without_value t.
Proof. intros t H [_ N]. auto. Qed.

Lemma keys_spec : forall ls, (forall l, In l ls -> exists t, assigns_to l t) ->
  match map_res key_of ls with
  | Ok keys => (forall l t, In l ls -> assigns_to l t -> ~ without_value t) /\
      match all_texts (combine keys ls) with
      | Some _ => forall l t, In l ls -> assigns_to l t -> ~ with_node t
      | None => exists l t, In l ls /\ assigns_to l t /\ with_node t
      end
  | Err e => e = AttributeError /\ exists l t, In l ls /\ assigns_to l t /\ without_value t
  end.
Proof.
  induction ls as [|l ls IH]; intro H; cbn [map_res].
  - split; [|cbn]; intros l t [].
  - assert (IH' := IH (fun x I => H x (or_intror I))). clear IH. destruct (H l (or_introl eq_refl)) as (t & A).
    assert (U : forall t', assigns_to l t' -> t' = t) by (intros t' A'; apply attribute_line_iff in A, A'; congruence).
    destruct (key_of_cases A) as [(W & ->)|[(W & ->)|(s & -> & ->)]]; cbn [bind].
    + split; auto. exists l, t. simpl. auto.
    + destruct (map_res key_of ls) as [keys|e]; cbn [bind].
      * split; [intros x tx [<-|I] Ax; [rewrite (U _ Ax); now apply with_node_not|now apply (proj1 IH' x)]|]. cbn [combine all_texts key_text]. exists l, t. simpl. auto.
      * destruct IH' as (-> & x & tx & I & Ax & Wx). split; auto. exists x, tx. simpl. auto.
    + destruct (map_res key_of ls) as [keys|e]; cbn [bind].
      * split; [intros x tx [<-|I] Ax; [rewrite (U _ Ax); intros [Nn _]; now apply (Nn s)|now apply (proj1 IH' x)]|]. cbn [combine all_texts key_text].
        destruct IH' as [_ IH']. destruct (all_texts (combine keys ls)).
        -- intros x tx [<-|I] Ax; [rewrite (U _ Ax); intros [(a & b & X)|(a & b & X)]; discriminate|now apply (IH' x)].
        -- destruct IH' as (x & tx & I & Ax & Wx). exists x, tx. simpl. auto.
      * destruct IH' as (-> & x & tx & I & Ax & Wx). split; auto. exists x, tx. simpl. auto.
Qed.

Lemma filter_precedes : forall A (f : A -> bool) l, (exists x y r, filter f l = x :: y :: r) <-> exists a b, precedes a b l /\ f a = true /\ f b = true.
Proof.
  intros A f l. split.
  - induction l as [|z l IH]; intros (x & y & r & E); [discriminate|]. cbn [filter] in E. destruct (f z) eqn:Z.
    + injection E as <- E. assert (I : In y (filter f l)) by (rewrite E; simpl; auto). apply filter_In in I. destruct I as [I Fy].
      apply in_split in I. destruct I as (l1 & l2 & ->). exists z, y. split; [exists [], l1, l2; reflexivity|auto].
    + destruct (IH (ex_intro _ x (ex_intro _ y (ex_intro _ r E)))) as (a & b & (p & q & s & ->) & Fa & Fb). exists a, b. split; [exists (z :: p), q, s; reflexivity|auto].
  - intros (a & b & (p & q & s & ->) & Fa & Fb). rewrite filter_app. cbn [filter]. rewrite Fa, filter_app. cbn [filter]. rewrite Fb.
    destruct (filter f p) as [|x [|y r]], (filter f q) as [|x' r']; cbn; eauto.
Qed.

(** For a class that asks for sorting: an assignment to something without .value (a tuple, a list) gives an AttributeError;
    if there is none, one to an attribute or a subscript gives a TypeError, unless it is the only assignment. *)
Theorem C64_raises : forall text c lines e, marked text c -> d_body c = Block lines ->
  (sorted_attributes text c = Err e <->
   (e = AttributeError /\ exists l t, In l lines /\ assigns_to l t /\ without_value t) \/
   (e = TypeError /\ (forall l t, In l lines -> assigns_to l t -> ~ without_value t) /\
    (exists l t, In l lines /\ assigns_to l t /\ with_node t) /\
    (exists l1 l2, precedes l1 l2 lines /\ assignment l1 /\ assignment l2))).
Proof.
  intros text c lines e M B. destruct (some_marked M) as (doc & D & K). unfold sorted_attributes. rewrite D, K, B.
  destruct (partition_lines false lines) as [[pre assigns] post] eqn:P. destruct (partition_false _ P) as (Ea & _ & _).
  assert (H : forall l, In l assigns -> exists t, assigns_to l t).
  { intros l I. rewrite Ea in I. apply filter_In in I. destruct I as [_ I]. apply is_attr_iff in I. destruct I as (t & v & I). exists t, v. exact I. }
  assert (Back : forall l t, assigns_to l t -> In l lines -> In l assigns).
  { intros l t (v & A) I. rewrite Ea. apply filter_In. split; auto. apply is_attr_iff. exists t, v. exact A. }
  assert (Sub : forall l, In l assigns -> In l lines) by (intros l I; rewrite Ea in I; now apply filter_In in I).
  assert (Two : (exists x y r, assigns = x :: y :: r) <-> (exists l1 l2, precedes l1 l2 lines /\ assignment l1 /\ assignment l2)).
  { rewrite Ea, filter_precedes. split; intros (a & b & X & Y & Z); exists a, b; rewrite ?is_attr_iff in *; auto. }
  assert (S := keys_spec assigns H). unfold sort_lines. destruct (map_res key_of assigns) as [keys|e1]; cbn [bind].
  - destruct S as [S1 S2].
    assert (N1 : ~ exists l t, In l lines /\ assigns_to l t /\ without_value t).
    { intros (l & t & I & A & W). exact (S1 l t (Back _ _ A I) A W). }
    assert (S1' : forall l t, In l lines -> assigns_to l t -> ~ without_value t) by (intros l t I A; exact (S1 l t (Back _ _ A I) A)).
    destruct assigns as [|x [|y r]].
    + cbn [bind]. split; [destruct (list_eqb _ _ _); discriminate|]. intros [(_ & X)|(_ & _ & _ & X)]; [contradiction|]. apply Two in X. destruct X as (? & ? & ? & X). discriminate.
    + cbn [bind]. split; [destruct (list_eqb _ _ _); discriminate|]. intros [(_ & X)|(_ & _ & _ & X)]; [contradiction|]. apply Two in X. destruct X as (? & ? & ? & X). discriminate.
    + destruct (all_texts (combine keys (x :: y :: r))) as [kls|]; cbn [bind].
      * split; [destruct (list_eqb _ _ _); discriminate|]. intros [(_ & X)|(_ & _ & (l & t & I & A & W) & _)]; [contradiction|]. exfalso. exact (S2 l t (Back _ _ A I) A W).
      * split.
        -- intro X. injection X as <-. right. split; auto. split; auto. split; [|apply Two; eauto]. destruct S2 as (l & t & I & A & W). eauto 6.
        -- intros [(_ & X)|(-> & _)]; [contradiction|reflexivity].
  - destruct S as (-> & l & t & I & A & W). split.
    + intro X. injection X as <-. left. split; auto. exists l, t. auto.
    + intros [(-> & _)|(_ & X & _)]; auto. exfalso. apply (X l t); auto.
Qed.

Example C64_raises_example :
  sorted_attributes ex_text (ex_body [Line 2 (Simple [Assign [Attribute (Name (u "a")) (u "b")] (num "1")]); set_line 3 "a" (num "2")]) = Err TypeError /\
  sorted_attributes ex_text (ex_body [Line 2 (Simple [Assign [Attribute (Name (u "a")) (u "b")] (num "1")])]) = Ok None /\
  sorted_attributes ex_text (ex_body [Line 2 (Simple [Assign [Attribute (Name (u "a")) (u "b")] (num "1")]); Line 3 (Simple [Assign [Tuple []] (num "1")])]) = Err AttributeError.
Proof. vm_compute. auto. Qed.
