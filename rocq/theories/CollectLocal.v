(** * C17, C20: local packages are imported anew by every entry *)
From Coq Require Import String List NArith ZArith Bool Arith Lia.
From Verif Require Import Base PyStr Regex Ftypes Paths Config ConfigSpec ConfigFacts
  Collect CollectSpec CollectFacts CollectSelect CollectProps.
Import ListNotations.

Lemma dset_values : forall A (k : str) (x : A) d n y, In (n, y) (dset k x d) -> y = x \/ exists n', In (n', y) d.
Proof.
  induction d as [|[k' z] d IH]; cbn [dset]; intros n y H.
  - destruct H as [H|[]]. injection H as _ <-. auto.
  - destruct (str_eqb k k').
    + destruct H as [H|H]; [injection H as _ <-; auto|]. right. exists n. simpl. auto.
    + destruct H as [H|H]; [right; exists n; simpl; auto|]. destruct (IH _ _ H) as [->|(n' & I)]; auto. right. exists n'. simpl. auto.
Qed.

Lemma dupdate_values : forall A (e d : dict A) n y, In (n, y) (dupdate d e) -> exists n', In (n', y) d \/ In (n', y) e.
Proof.
  unfold dupdate. induction e as [|[k x] e IH]; cbn [fold_left]; intros d n y H; [eauto|].
  destruct (IH _ _ _ H) as (n' & [I|I]).
  - cbn [fst snd] in I. destruct (dset_values _ _ _ _ _ _ I) as [->|(n2 & I2)]; [exists k; simpl; auto|eauto].
  - exists n'. simpl. auto.
Qed.

Definition of_generation (gen : option nat) (k : cls) : Prop := snd k = gen \/ snd k = None.

Lemma walk_generation : forall gen m d, walk_module gen m = Ok d -> forall n k, In (n, k) d -> of_generation gen k.
Proof.
  intro gen. induction m as [attrs subs IH] using pymod_ind'. intros d H. rewrite walk_eq in H.
  assert (K : forall n b m, In (n, b, Ok m) (match subs with None => [] | Some l => l end) ->
    forall d, walk_module gen m = Ok d -> forall n k, In (n, k) d -> of_generation gen k).
  { intros n b m Hi. destruct subs as [l|]; [|contradiction]. apply (IH n b m l); auto. }
  clear IH. assert (M : forall n k, In (n, k) (dupdate [] (members gen attrs)) -> of_generation gen k).
  { intros n k I. destruct (dupdate_values _ _ _ _ _ I) as (n' & [[]|J]). unfold members in J. apply in_flat_map in J.
    destruct J as ([n2 v] & _ & J). cbn [fst snd] in J. destruct v as [id [|]| |]; simpl in J; try contradiction;
    destruct J as [J|[]]; injection J as <- <-; unfold of_generation; auto. }
  revert H M. generalize (dupdate [] (members gen attrs)). revert K. generalize (match subs with None => [] | Some l => l end).
  induction l as [|[[n b] r] l IHl]; intros K d0 H M; cbn [walk_subs] in H.
  - injection H as <-. exact M.
  - assert (K' : forall n b m, In (n, b, Ok m) l -> forall d, walk_module gen m = Ok d -> forall n k, In (n, k) d -> of_generation gen k)
      by (intros n0 b0 m0 I0; eapply K; simpl; eauto).
    destruct b; [eapply IHl; eauto|]. destruct r as [sub|e]; [|discriminate].
    destruct (walk_module gen sub) as [d1|e] eqn:E; [|discriminate]. cbn [bind] in H. eapply IHl; [exact K'|exact H|].
    intros n0 k I. destruct (dupdate_values _ _ _ _ _ I) as (n' & [J|J]); [eauto|].
    eapply (K n false sub); simpl; eauto.
Qed.

Lemma dget_value : forall A (d : dict A) n k, dget n d = Some k -> In (n, k) d.
Proof.
  induction d as [|[n' x] d IH]; cbn [dget]; intros n k H; [discriminate|].
  destruct (str_eqb n n') eqn:E; [|right; auto]. apply str_eqb_eq in E. injection H as ->. subst. left. reflexivity.
Qed.

(** A class found by a lookup is global, or was created by this very lookup. *)
Lemma find_rules_generation : forall W q s ks k, fst (find_rules W q s) = Ok ks -> In k ks ->
  snd k = None \/ (is_local q = true /\ snd k = Some (ps_gen s)).
Proof.
  intros W q s ks k H I. destruct (find_rules_eq W q s) as [E _]. rewrite E in H.
  destruct (outcome W q s) as [m|e]; cbn [bind] in H; [|destruct e; discriminate].
  destruct (walk_module (generation q s) m) as [d|e] eqn:Ew; cbn [bind] in H; [|destruct e; discriminate].
  assert (G : exists n, In (n, k) d).
  { unfold select in H. destruct (q_name q) as [[|c n]|].
    - cbn [wrap] in H. injection H as <-. apply in_flat_map in I. destruct I as (n & _ & I). destruct (dget n d) as [k'|] eqn:D; [|destruct I].
      destruct I as [->|[]]. apply dget_value in D. eauto.
    - destruct (dget (c :: n) d) as [k'|] eqn:D; cbn [wrap] in H; [|discriminate]. injection H as <-. destruct I as [->|[]]. apply dget_value in D. eauto.
    - cbn [wrap] in H. injection H as <-. apply in_flat_map in I. destruct I as (n & _ & I). destruct (dget n d) as [k'|] eqn:D; [|destruct I].
      destruct I as [->|[]]. apply dget_value in D. eauto. }
  destruct G as (n & G). destruct (walk_generation _ _ _ Ew _ _ G) as [R|R]; auto.
  unfold generation in R. destruct (is_local q); auto.
Qed.

Lemma findings_generation : forall W qs s fs s', findings W qs s = (fs, s') ->
  ps_gen s <= ps_gen s' /\
  forall id g, found fs (id, Some g) -> ps_gen s <= g < ps_gen s'.
Proof.
  induction qs as [|q qs IH]; cbn [findings]; intros s fs s' H.
  - injection H as <- <-. split; auto. intros id g (q & ks & [] & _).
  - pose proof (find_rules_gen W q s) as G. pose proof (find_rules_generation W q s) as FG.
    destruct (find_rules W q s) as [r s1]. cbn [fst snd] in *.
    destruct (findings W qs s1) as [fs2 s2] eqn:E. injection H as <- <-. destruct (IH _ _ _ E) as [L R].
    assert (M : ps_gen s <= ps_gen s1) by (rewrite G; destruct r; auto; destruct (is_local q); lia).
    split; [lia|]. intros id g (q' & ks & [I|I] & J).
    + injection I as -> ->. destruct (FG _ _ eq_refl J) as [N|[Lo N]]; [discriminate|]. cbn [snd] in N. injection N as ->. rewrite G, Lo in *. lia.
    + specialize (R id g (ex_intro _ q' (ex_intro _ ks (conj I J)))). lia.
Qed.

(** Whatever is disabled: a class that an enabled entry has created by a local import stays enabled unless tags or the
    Python version exclude it. So disabling rules of local packages never has an effect on them. *)
Theorem C17_local_ineffective : forall W c s ks d s' fe s1 id g,
  fair_sets W -> collect_rules W c s = (Ok (ks, d), s') ->
  findings W (c_enable c) (with_root_import W c s) = (fe, s1) ->
  found fe (id, Some g) -> tags_ok W c (id, Some g) -> version_ok W c (id, Some g) ->
  In (id, Some g) ks.
Proof.
  intros W c s ks d s' fe s1 id g F H E Fo T V. destruct (findings W (c_disable c) s1) as [fd s2] eqn:D.
  destruct (C14_selection _ _ _ _ _ _ _ _ _ _ F H E D) as [_ S]. apply S. split; auto. split; [|auto].
  intros [Fd _]. destruct (findings_generation _ _ _ _ _ E) as [_ A]. destruct (findings_generation _ _ _ _ _ D) as [_ B].
  specialize (A _ _ Fo). specialize (B _ _ Fd). lia.
Qed.

(** Two entries that find the same local class statement: two classes, both are run, so that every violation is reported
    twice. *)
Theorem C17_twice_refuted : exists W c s ks d s',
  fair_sets W /\ collect_rules W c s = (Ok (ks, d), s') /\
  c_enable c = [rule ".r" None; rule ".r" (Some "Foo"%string)] /\ ~ NoDup (map fst ks).
Proof.
  exists W0, (conf [rule ".r" None; rule ".r" (Some "Foo"%string)] [] no_tags None), S0. do 3 eexists.
  split; [intro l; reflexivity|]. split; [vm_compute; reflexivity|]. split; [reflexivity|].
  cbn. intro N. repeat match goal with H : NoDup _ |- _ => inversion H; clear H; subst end. simpl in *. intuition.
Qed.

(** Example for the hypotheses of C17_local_ineffective: Foo (class statement 3), enabled by ".r", disabled by ".r:Foo". *)
Example C17_ineffective_example :
  exists fe s1, findings W0 (c_enable (conf [rule ".r" None] [rule ".r" (Some "Foo"%string)] no_tags None))
                  (with_root_import W0 (conf [rule ".r" None] [rule ".r" (Some "Foo"%string)] no_tags None) S0) = (fe, s1) /\
    found fe (3%N, Some 0) /\ tags_ok W0 (conf [rule ".r" None] [rule ".r" (Some "Foo"%string)] no_tags None) (3%N, Some 0).
Proof.
  do 2 eexists. split; [vm_compute; reflexivity|]. split; [|split; [intros x _ []|left; reflexivity]].
  exists (QRule (u ".r") None (Some (u ".")) (Some [u "proj"])). eexists. split; [left; vm_compute; reflexivity|]. vm_compute. auto.
Qed.

(** Exactly: of the modules there were before, those whose name does not begin with the text "fixit.local" stay. *)
Theorem C20_exact : forall W q s k, is_local q = true -> In k (ps_modules s) ->
  (In k (ps_modules (snd (find_rules W q s))) <-> forall rest, k <> u "fixit.local" ++ rest).
Proof.
  intros W q s k L I. destruct (find_rules_modules W q s L) as (added & ->). unfold purge_local. rewrite filter_In, negb_true_iff, in_app_iff. split.
  - intros [_ E] rest ->. assert (T : startswith fixit_local (u "fixit.local" ++ rest) = true) by (apply startswith_spec; exists rest; reflexivity). congruence.
  - intro N. split; auto. destruct (startswith fixit_local k) eqn:E; auto. apply startswith_spec in E. destruct E as (rest & ->). exfalso. apply (N rest). reflexivity.
Qed.
