(** * Which configurations are accepted; the shape of merged options *)
From Coq Require Import String List NArith ZArith Bool Arith Lia Permutation Sorted.
From Verif Require Import Base PyStr Regex Ftypes Paths RuleNameSpec RuleNameFacts RuleNameProps Config ConfigSpec ConfigFacts ConfigMentions.
Import ListNotations.
Set Implicit Arguments.

Definition ok {A} (r : res A) : Prop := exists a, r = Ok a.

Lemma ok_Ok : forall A (a : A), ok (Ok a).
Proof. intros. exists a. reflexivity. Qed.
Lemma not_ok_Err : forall A e, ~ ok (@Err A e).
Proof. intros A e (a & H). discriminate. Qed.
#[global] Hint Resolve ok_Ok : core.

Lemma ok_bind : forall A B (r : res A) (f : A -> res B), ok (bind r f) <-> exists a, r = Ok a /\ ok (f a).
Proof.
  intros A B [a|e] f; simpl; split.
  - eauto.
  - intros (x & H & Hx). injection H as <-. exact Hx.
  - intros (x & H). discriminate.
  - intros (x & H & _). discriminate.
Qed.

Lemma ok_bind_ind : forall A B (r : res A) (f : A -> res B) (P : Prop),
  (forall a, r = Ok a -> (ok (f a) <-> P)) -> (ok (bind r f) <-> ok r /\ P).
Proof.
  intros A B r f P H. rewrite ok_bind. split.
  - intros (a & Ha & Hf). split; [exists a; auto|]. apply (H a Ha). exact Hf.
  - intros ((a & Ha) & HP). exists a. split; auto. apply (H a Ha). exact HP.
Qed.

Lemma ok_bind_const : forall A B (r : res A) (f : A -> res B),
  (forall a, ok (f a)) -> (ok (bind r f) <-> ok r).
Proof.
  intros A B r f H. rewrite (@ok_bind_ind _ _ r f True); [tauto|]. intros a _. split; auto.
Qed.

Lemma parse_toml_iff : forall v d, ok (parse_rule_toml v d) <-> is_rule_name v.
Proof.
  intros v d. unfold ok, parse_rule_toml, is_rule_name. split.
  - destruct v; intros (q & H); try discriminate. apply parse_rule_ok in H.
    destruct H as (l & mm & n & s0 & Hr & [->| ->] & _); exists l, mm, n, s0; auto.
  - intros (l & mm & n & s0 & Hr & [->| ->]);
      exists (QRule ((if l then u "." else []) ++ mm) n (if l then Some (u ".") else None) (if l then Some d else None));
      apply parse_rule_ok; exists l, mm, n, s0; auto.
Qed.

Lemma fold_ok_iff : forall A S (f : S -> A -> res S) (P : A -> Prop),
  (forall s x, ok (f s x) <-> P x) -> forall l s, ok (fold_res f l s) <-> (forall x, In x l -> P x).
Proof.
  intros A S f P H. induction l as [|x l IH]; intro s; cbn [fold_res].
  - split; auto. intros _ x [].
  - rewrite (@ok_bind_ind _ _ _ _ (forall y, In y l -> P y)).
    + rewrite H. simpl. split.
      * intros [H1 H2] y [<-|Hy]; auto.
      * intro H1. split; auto.
    + intros s' _. apply IH.
Qed.

Lemma enable_iff : forall dir l s, ok (fold_res (add_enable dir) l s) <-> (forall v, In v l -> is_rule_name v).
Proof.
  intro dir. apply fold_ok_iff. intros s x. unfold add_enable.
  rewrite ok_bind_const by auto. apply parse_toml_iff.
Qed.

Lemma disable_iff : forall dir l s, ok (fold_res (add_disable dir) l s) <-> (forall v, In v l -> is_rule_name v).
Proof.
  intro dir. apply fold_ok_iff. intros s x. unfold add_disable.
  rewrite ok_bind_const by auto. apply parse_toml_iff.
Qed.

Lemma option_scalar_iff : forall v, option_scalar v = true <-> scalar v.
Proof. intros []; simpl; split; intro; auto; try discriminate; contradiction. Qed.

Lemma as_options_iff : forall d, ok (as_options (dget (u "options") d)) <-> valid_options d.
Proof.
  intro d. unfold valid_options, as_options. destruct (dget (u "options") d) as [v|].
  2: { split; auto. }
  assert (K : forall m, ok (fold_res options_rule m []) <->
    forall kv, In kv m -> exists e, snd kv = TTab e /\ forall k x, In (k, x) e -> scalar x).
  { intro m. apply fold_ok_iff. intros s kv. unfold options_rule. destruct (snd kv) as [| | | | | |e].
    1-6: (split; [intro H; destruct (not_ok_Err H) | intros (e & H & _); discriminate]).
    rewrite ok_bind_const by auto. rewrite (fold_ok_iff options_entry (fun kv => scalar (snd kv))).
    - split.
      + intro H. exists e. split; auto. intros k x Hx. apply (H (k, x) Hx).
      + intros (e' & He & H) [k x] Hx. injection He as <-. apply (H k x Hx).
    - intros acc [k x]. unfold options_entry. cbn [fst snd]. rewrite <- option_scalar_iff.
      destruct (option_scalar x); split; auto; try discriminate. intro H. destruct (not_ok_Err H). }
  destruct v as [| | | | | |m].
  1-6: (split; [intro H; destruct (not_ok_Err H) | intros [H|(m & H & _)]; discriminate]).
  rewrite K. split.
  - intro H. right. exists m. split; auto. intros rule v Hv. apply (H (rule, v) Hv).
  - intros [H|(m' & Hm & H)]; [discriminate|]. injection Hm as <-. intros [r v] Hv. apply (H r v Hv).
Qed.

Lemma set_python_iff : forall E d s, ok (set_python E (dget (u "python-version") d) s) <->
  (forall v, given "python-version" d = Some v -> exists t, v = TStr t /\ e_version_ok E t = true).
Proof.
  intros E d s. unfold set_python, given. destruct (dget (u "python-version") d) as [x|].
  2: { split; auto. discriminate. }
  destruct (truthy x).
  2: { split; auto. discriminate. }
  split.
  - intros Ho v Hv. injection Hv as <-. destruct x; try (destruct (not_ok_Err Ho)).
    exists s0. split; auto. destruct (e_version_ok E s0); auto. destruct (not_ok_Err Ho).
  - intro H. destruct (H x eq_refl) as (t & -> & Ht). rewrite Ht. auto.
Qed.

Lemma set_formatter_iff : forall E d s, ok (set_formatter E (dget (u "formatter") d) s) <->
  (forall v, given "formatter" d = Some v -> exists t, v = TStr t /\ In t (e_styles E)).
Proof.
  intros E d s. unfold set_formatter, given. destruct (dget (u "formatter") d) as [x|].
  2: { split; auto. discriminate. }
  destruct (truthy x).
  2: { split; auto. discriminate. }
  assert (K : forall t, existsb (str_eqb t) (e_styles E) = true <-> In t (e_styles E)).
  { intro t. rewrite existsb_exists. split.
    - intros (y & Hy & Ey). apply str_eqb_eq in Ey. now subst.
    - intro Hy. exists t. split; auto. apply str_eqb_refl. }
  split.
  - intros Ho v Hv. injection Hv as <-. destruct x; try (destruct (not_ok_Err Ho)).
    exists s0. split; auto. apply K. destruct (existsb _ _); auto. destruct (not_ok_Err Ho).
  - intro H. destruct (H x eq_refl) as (t & -> & Ht). apply K in Ht. rewrite Ht. auto.
Qed.

Lemma step_iff : forall E s l, valid_options (snd l) -> (ok (step E s l) <-> valid_content E (snd l)).
Proof.
  intros E s [dir d] Hop. unfold step, valid_content. cbn [fst snd] in *.
  rewrite (@ok_bind_ind _ _ _ _ ((forall v, In v (elements "disable" d) -> is_rule_name v) /\
     (forall v, given "python-version" d = Some v -> exists t, v = TStr t /\ e_version_ok E t = true) /\
     (forall v, given "formatter" d = Some v -> exists t, v = TStr t /\ In t (e_styles E)))).
  - rewrite enable_iff. split.
    + intros (H1 & H2 & H3 & H4). split; auto. intros v [Hv|Hv]; auto.
    + intros (H1 & H3 & H4). repeat split; auto.
  - intros s1 _. rewrite (@ok_bind_ind _ _ _ _ (
     (forall v, given "python-version" d = Some v -> exists t, v = TStr t /\ e_version_ok E t = true) /\
     (forall v, given "formatter" d = Some v -> exists t, v = TStr t /\ In t (e_styles E)))).
    + rewrite disable_iff. tauto.
    + intros s2 _. apply as_options_iff in Hop. destruct Hop as (op & Hop). rewrite Hop. cbn [bind].
      rewrite (@ok_bind_ind _ _ _ _ (forall v, given "formatter" d = Some v -> exists t, v = TStr t /\ In t (e_styles E))).
      * rewrite set_python_iff. tauto.
      * intros s4 _. apply set_formatter_iff.
Qed.

Lemma types_iff : forall (d : table) (K : list toml -> list toml -> dict rule_options -> res mstate) P,
  (forall en dis op, as_seq (dget (u "enable") d) = Ok en -> as_seq (dget (u "disable") d) = Ok dis ->
     as_options (dget (u "options") d) = Ok op -> (ok (K en dis op) <-> P)) ->
  (ok (let! en := as_seq (dget (u "enable") d) in
       let! dis := as_seq (dget (u "disable") d) in
       let! op := as_options (dget (u "options") d) in K en dis op) <-> valid_types d /\ P).
Proof.
  intros d K P H. unfold valid_types. rewrite <- !as_seq_iff, <- as_options_iff. fold (ok (as_seq (dget (u "enable") d))).
  fold (ok (as_seq (dget (u "disable") d))).
  rewrite (@ok_bind_ind _ _ _ _ (ok (as_seq (dget (u "disable") d)) /\ ok (as_options (dget (u "options") d)) /\ P)).
  - tauto.
  - intros en He. rewrite (@ok_bind_ind _ _ _ _ (ok (as_options (dget (u "options") d)) /\ P)); [tauto|].
    intros dis Hd. rewrite (@ok_bind_ind _ _ _ _ (P)); [tauto|]. intros op Ho. apply H; auto.
Qed.

Lemma table_iff : forall E file dir sub d s en dis op,
  as_seq (dget (u "enable") d) = Ok en -> as_seq (dget (u "disable") d) = Ok dis ->
  as_options (dget (u "options") d) = Ok op ->
  (ok (process_subpath E file dir sub en dis op (dget (u "python-version") d) (dget (u "formatter") d) s)
   <-> (above (resolve sub) file -> valid_content E d)).
Proof.
  intros E file dir sub d s en dis op He Hd Ho. rewrite (table_step E file dir sub d s He Hd Ho).
  rewrite above_prefix. destruct (is_prefix (resolve sub) file).
  - rewrite step_iff.
    + cbn [snd]. tauto.
    + apply as_options_iff. exists op. exact Ho.
  - split; auto. discriminate.
Qed.

Lemma override_iff : forall E file dir s o,
  ok (process_override E file dir s o) <-> valid_override E file dir o.
Proof.
  intros E file dir s o. unfold process_override, valid_override.
  destruct o as [| | | | | |t].
  1-6: (split; [intro H; destruct (not_ok_Err H) | intros (t & H & _); discriminate]).
  destruct (dget (u "path") t) as [sub|] eqn:Ep.
  2: { split; [intro H; destruct (not_ok_Err H)|]. intros (t' & Ht & (p & _ & Hp) & _). congruence. }
  destruct sub as [p| | | | | |].
  2-7: (split; [intro H; match type of H with ok (if ?b then _ else _) => destruct b end; destruct (not_ok_Err H)
               | intros (t' & Ht & (p & _ & Hp) & _); congruence]).
  destruct p as [|c p].
  { split; [intro H; destruct (not_ok_Err H)|]. intros (t' & Ht & (p & Hn & Hp) & _). congruence. }
  cbn [truthy]. rewrite process_table_eq.
  assert (Hap : override_applies dir file (TTab t) <-> above (resolve (joinpath dir (c :: p))) file).
  { split.
    - intros (t' & p' & Ht & Hp & Ha). congruence.
    - intro Ha. exists t, (c :: p). auto. }
  rewrite ok_bind_const by (intros [? ?]; auto).
  assert (K : ok (let! en := as_seq (dget (u "enable") t) in
       let! dis := as_seq (dget (u "disable") t) in
       let! op := as_options (dget (u "options") t) in
       process_subpath E file dir (joinpath dir (c :: p)) en dis op
               (dget (u "python-version") t) (dget (u "formatter") t) s) <->
     valid_types t /\ (above (resolve (joinpath dir (c :: p))) file -> valid_content E t)).
  { apply types_iff. intros en dis op He Hd Ho. apply table_iff; auto. }
  split.
  - intro H. exists t. split; auto. split; [exists (c :: p); split; [discriminate|auto]|].
    rewrite Hap. apply K.
    apply ok_bind in H. destruct H as (en & -> & H).
    apply ok_bind in H. destruct H as (dis & -> & H).
    apply ok_bind in H. destruct H as (op & -> & H).
    apply ok_bind in H. destruct H as (s1 & H & _). simpl. exists s1. exact H.
  - intros (t' & Ht & _ & Hv). injection Ht as <-. rewrite Hap in Hv. apply K in Hv.
    apply ok_bind in Hv. destruct Hv as (en & -> & H).
    apply ok_bind in H. destruct H as (dis & -> & H).
    apply ok_bind in H. destruct H as (op & -> & H).
    destruct H as (s1 & H). simpl. rewrite H. apply ok_Ok.
Qed.

Lemma root_import_iff : forall root c cur,
  ok (root_import_of root (rc_dir c) (dget (u "enable-root-import") (rc_data c)) cur) <-> valid_root_import root c.
Proof.
  intros root c cur. unfold root_import_of, valid_root_import, given, truthy_opt.
  destruct (dget (u "enable-root-import") (rc_data c)) as [v|].
  2: { split; auto. discriminate. }
  destruct (truthy v).
  2: { split; auto. discriminate. }
  destruct (path_eqb root (rc_dir c)) eqn:Ep; cbn [negb].
  2: { split; [intro H; destruct (not_ok_Err H)|]. intro H. destruct (H v eq_refl) as [Hd _].
       rewrite Hd, path_eqb_refl in Ep. discriminate. }
  apply path_eqb_eq in Ep.
  assert (K : forall s, existsb (str_eqb (u "..")) (parts s) = true <-> In (u "..") (parts s)).
  { intro s. rewrite existsb_exists. split.
    - intros (y & Hy & Ey). apply str_eqb_eq in Ey. now rewrite Ey.
    - intro Hy. exists (u ".."). split; auto. }
  split.
  - intros Ho w Hw. injection Hw as <-. split; auto. intros s ->.
    destruct (is_absolute s); [destruct (not_ok_Err Ho)|]. split; auto. intro Hi. apply K in Hi.
    rewrite Hi in Ho. destruct (not_ok_Err Ho).
  - intro H. destruct (H v eq_refl) as [_ H2]. destruct v; auto. destruct (H2 s eq_refl) as [A B].
    rewrite A. rewrite <- K in B. destruct (existsb _ _); [congruence|]. auto.
Qed.

Lemma format_iff : forall d cur, ok (format_of d cur) <-> valid_format d.
Proof.
  intros d cur. unfold format_of, valid_format. destruct (given "output-format" d) as [v|].
  2: { split; auto. discriminate. }
  unfold parse_output_format. split.
  - intros Ho w Hw. injection Hw as <-. destruct v; try (destruct (not_ok_Err Ho)).
    destruct (str_eqb s (u "custom")) eqn:E1; [apply str_eqb_eq in E1; subst; auto|].
    destruct (str_eqb s (u "fixit")) eqn:E2; [apply str_eqb_eq in E2; subst; auto|].
    destruct (str_eqb s (u "vscode")) eqn:E3; [apply str_eqb_eq in E3; subst; auto|].
    destruct (not_ok_Err Ho).
  - intro H. destruct (H v eq_refl) as [->|[->| ->]]; vm_compute; eauto.
Qed.

Lemma merge_one_iff : forall E file g c,
  ok (merge_one E file g c) <-> valid_raw E file (root_after (g_root g) c) c.
Proof.
  intros E file g c. rewrite merge_one_eq. cbn zeta. unfold valid_raw.
  set (d := rc_data c). set (dir := rc_dir c).
  rewrite (@ok_bind_ind _ _ _ _ (valid_format d /\ valid_types d /\ (above (resolve dir) file -> valid_content E d) /\
    array_or_absent "overrides" d /\ (forall o, In o (elements "overrides" d) -> valid_override E file dir o))).
  { subst d dir. rewrite root_import_iff. tauto. }
  intros im _. rewrite (@ok_bind_ind _ _ _ _ (valid_types d /\ (above (resolve dir) file -> valid_content E d) /\
    array_or_absent "overrides" d /\ (forall o, In o (elements "overrides" d) -> valid_override E file dir o))).
  { rewrite format_iff. tauto. }
  intros fm _. unfold valid_types. rewrite <- !as_seq_iff, <- as_options_iff.
  fold (ok (as_seq (dget (u "enable") d))). fold (ok (as_seq (dget (u "disable") d))).
  fold (ok (as_seq (dget (u "overrides") d))).
  rewrite (@ok_bind_ind _ _ _ _ (ok (as_seq (dget (u "disable") d)) /\ ok (as_options (dget (u "options") d)) /\
    (above (resolve dir) file -> valid_content E d) /\
    ok (as_seq (dget (u "overrides") d)) /\ (forall o, In o (elements "overrides" d) -> valid_override E file dir o))).
  { tauto. }
  intros en He. rewrite (@ok_bind_ind _ _ _ _ (ok (as_options (dget (u "options") d)) /\
    (above (resolve dir) file -> valid_content E d) /\
    ok (as_seq (dget (u "overrides") d)) /\ (forall o, In o (elements "overrides" d) -> valid_override E file dir o))).
  { tauto. }
  intros dis Hd. rewrite (@ok_bind_ind _ _ _ _ (
    (above (resolve dir) file -> valid_content E d) /\
    ok (as_seq (dget (u "overrides") d)) /\ (forall o, In o (elements "overrides" d) -> valid_override E file dir o))).
  { tauto. }
  intros op Ho. rewrite (@ok_bind_ind _ _ _ _ (
    ok (as_seq (dget (u "overrides") d)) /\ (forall o, In o (elements "overrides" d) -> valid_override E file dir o))).
  { rewrite (table_iff E file dir dir d (g_m g) He Hd Ho). tauto. }
  intros s1 _. rewrite (@ok_bind_ind _ _ _ _ (forall o, In o (elements "overrides" d) -> valid_override E file dir o)).
  { tauto. }
  intros ov Hov. apply as_seq_ok in Hov. subst ov. rewrite ok_bind_const by auto.
  apply fold_ok_iff. intros s o. apply override_iff.
Qed.

Lemma merge_fold_iff : forall E file cs g,
  ok (fold_res (merge_one E file) cs g) <-> valid_configs E file (g_root g) cs.
Proof.
  induction cs as [|c cs IH]; intro g; cbn [fold_res valid_configs].
  - split; auto.
  - rewrite (@ok_bind_ind _ _ _ _ (valid_configs E file (Some (root_after (g_root g) c)) cs)).
    + rewrite merge_one_iff. tauto.
    + intros g1 H1. rewrite IH. apply merge_one_ok in H1. destruct H1 as (_ & -> & _). tauto.
Qed.

(** ** Options *)

Lemma fold_entries : forall e acc o, fold_res options_entry e acc = Ok o -> NoDup (dkeys (acc ++ e)) -> o = acc ++ e.
Proof.
  induction e as [|[k v] e IH]; intros acc o H Hn; cbn [fold_res] in H.
  - injection H as <-. now rewrite app_nil_r.
  - apply bind_ok in H. destruct H as (a1 & H1 & H2). unfold options_entry in H1. cbn [fst snd] in H1.
    destruct (option_scalar v); [|discriminate]. injection H1 as <-.
    assert (Hd : dset k v acc = acc ++ [(k, v)]).
    { assert (Hk : ~ In k (dkeys acc)).
      { unfold dkeys in *. rewrite map_app in Hn. simpl in Hn. apply NoDup_remove_2 in Hn.
        intro Hi. apply Hn. apply in_app_iff. auto. }
      clear -Hk. induction acc as [|[k1 v1] acc IH]; simpl; auto.
      unfold dkeys in *. simpl in Hk. destruct (str_eqb k k1) eqn:E.
      - apply str_eqb_eq in E. subst. tauto.
      - f_equal. apply IH. tauto. }
    rewrite Hd in H2. apply IH in H2.
    + rewrite <- app_assoc in H2. exact H2.
    + rewrite <- app_assoc. exact Hn.
Qed.

(** What one table contributes to the options. *)
Definition raw_options_for (rule : str) (m : list (str * toml)) : option (dict toml) :=
  match dget rule m with Some (TTab e) => Some e | _ => None end.

Lemma fold_rules : forall m acc o, fold_res options_rule m acc = Ok o ->
  NoDup (dkeys m) -> (forall r e, In (r, TTab e) m -> NoDup (dkeys e)) ->
  NoDup (dkeys acc) ->
  NoDup (dkeys o) /\
  forall r, dget r o = match raw_options_for r m with Some e => Some e | None => dget r acc end.
Proof.
  induction m as [|[k v] m IH]; intros acc o H Hn He Ha; cbn [fold_res] in H.
  - injection H as <-. auto.
  - apply bind_ok in H. destruct H as (a1 & H1 & H2). unfold options_rule in H1. cbn [fst snd] in H1.
    destruct v as [| | | | | |e]; try discriminate.
    apply bind_ok in H1. destruct H1 as (oe & Hoe & H1). injection H1 as <-.
    assert (oe = e).
    { change e with ([] ++ e). apply fold_entries with (acc := []); auto.
      simpl. apply (He k e). simpl. auto. }
    subst oe. unfold dkeys in Hn. simpl in Hn. inversion Hn; subst.
    apply IH in H2; auto.
    + destruct H2 as [A B]. split; auto. intro r. rewrite B. unfold raw_options_for. simpl.
      destruct (str_eqb r k) eqn:E.
      * apply str_eqb_eq in E. subst r.
        assert (Hk : dget k m = None) by (apply dget_none; exact H1). rewrite Hk. apply dget_dset_eq.
      * apply str_eqb_neq in E. rewrite dget_dset_neq by auto. reflexivity.
    + intros r e' Hi. apply (He r e'). simpl. auto.
    + now apply dset_nodup.
Qed.

Lemma dget_perm_rev : forall A k (d : dict A), NoDup (dkeys d) -> dget k (rev d) = dget k d.
Proof.
  intros A k d Hn. destruct (dget k d) as [v|] eqn:E.
  - apply dget_in_nodup.
    + unfold dkeys in *. rewrite map_rev. apply NoDup_rev. exact Hn.
    + apply in_rev. rewrite rev_involutive. now apply dget_in.
  - apply dget_none. apply dget_none in E. unfold dkeys in *. rewrite map_rev. now rewrite <- in_rev.
Qed.

Lemma as_options_get : forall d op, as_options (dget (u "options") d) = Ok op -> distinct_options d ->
  NoDup (dkeys op) /\ forall r, dget r op = options_for r d.
Proof.
  intros d op H Hd. unfold as_options in H. unfold options_for.
  destruct (dget (u "options") d) as [[| | | | | |m]|] eqn:E; try discriminate.
  - destruct (Hd m E) as [A B].
    apply fold_rules in H; auto; [|constructor].
    destruct H as [H1 H2]. split; auto. intro r. rewrite H2. unfold raw_options_for.
    destruct (dget r m) as [[]|]; reflexivity.
  - injection H as <-. split; [constructor|]. reflexivity.
Qed.

Lemma steps_options : forall E ls s s', fold_res (step E) ls s = Ok s' ->
  (forall l, In l ls -> distinct_options (snd l)) ->
  forall r, dget r (s_options s') =
    match last_some (map (fun l => options_for r (snd l)) ls) with
    | Some e => Some e | None => dget r (s_options s) end.
Proof.
  induction ls as [|l ls IH]; intros s s' H Hd r; cbn [fold_res map last_some] in *.
  - injection H as <-. reflexivity.
  - apply bind_ok in H. destruct H as (s1 & H1 & H2).
    destruct (step_ok _ _ _ H1) as (_ & _ & _ & op & Hop & Ho).
    rewrite (IH _ _ H2) by (intros; apply Hd; simpl; auto).
    destruct (last_some _); auto. rewrite Ho, dupdate_get.
    destruct (@as_options_get (snd l) op Hop) as [A B]; [apply Hd; simpl; auto|].
    rewrite dget_perm_rev by auto. rewrite B. destruct (options_for r (snd l)); reflexivity.
Qed.
