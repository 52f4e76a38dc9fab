(** * Facts about importing rules later in a process *)
From Coq Require Import String List NArith ZArith Bool Arith Lia Permutation.
From Verif Require Import Base PyStr Ftypes Paths Config Collect CollectSpec CollectFacts CollectSelect Session SessionSpec.
Import ListNotations.

(** ** The classes of later local lookups *)

Definition later (d : nat) (k : cls) : cls := (fst k, match snd k with Some g => Some (g + d) | None => None end).
Definition dmap {A B} (f : A -> B) (d : dict A) : dict B := map (fun kv => (fst kv, f (snd kv))) d.

Lemma imported_top : forall z name, imported z name <-> dget (top name) (z_loaded z) <> None.
Proof.
  intros z name.
  assert (T : forall first, ~ In 46%N first -> (name = first \/ exists rest, name = first ++ 46%N :: rest) -> top name = first).
  { intros first N [->|(rest & ->)]; unfold top; [now rewrite split_no_sep|now rewrite split_app_sep]. }
  split.
  - intros (first & N & E & D). now rewrite (T first N E).
  - intro D. exists (top name). assert (X : forall l, exists a, ~ In 46%N a /\ (l = a \/ exists rest, l = a ++ 46%N :: rest)).
    { induction l as [|c l (a & N & E)]; [exists []; auto|]. destruct (N.eq_dec c 46) as [->|Nc]; [exists []; split; auto; right; exists l; reflexivity|].
      exists (c :: a). split; [intros [->|I]; auto|]. destruct E as [->|(rest & ->)]; [auto|right; exists rest; reflexivity]. }
    destruct (X name) as (a & N & E). rewrite (T a N E) in *. auto.
Qed.

Lemma later_inj : forall d a b, later d a = later d b -> a = b.
Proof.
  intros d [i [g|]] [j [h|]] H; unfold later in H; cbn [fst snd] in H; injection H; intros; subst; try discriminate; auto.
  f_equal. f_equal. lia.
Qed.

Lemma dmap_dset : forall A B (f : A -> B) k x d, dset k (f x) (dmap f d) = dmap f (dset k x d).
Proof. intros A B f k x d. induction d as [|[k' v] d IH]; [reflexivity|]. cbn. destruct (str_eqb k k'); cbn; [reflexivity|]. f_equal. exact IH. Qed.

Lemma dmap_dupdate : forall A B (f : A -> B) e d, dupdate (dmap f d) (dmap f e) = dmap f (dupdate d e).
Proof. intros A B f e. unfold dupdate. induction e as [|[k v] e IH]; intros d; [reflexivity|]. cbn [dmap map fold_left fst snd]. rewrite dmap_dset. apply IH. Qed.

Lemma dmap_dget : forall A B (f : A -> B) k d, dget k (dmap f d) = option_map f (dget k d).
Proof. intros A B f k d. induction d as [|[k' v] d IH]; [reflexivity|]. cbn. destruct (str_eqb k k'); [reflexivity|exact IH]. Qed.

Lemma dmap_keys : forall A B (f : A -> B) d, dkeys (dmap f d) = dkeys d.
Proof. intros A B f d. unfold dkeys, dmap. rewrite map_map. reflexivity. Qed.

Definition later_gen (d : nat) (g : option nat) : option nat := match g with Some g => Some (g + d) | None => None end.
Definition rmap {A B} (f : A -> B) (r : res A) : res B := match r with Ok x => Ok (f x) | Err e => Err e end.

Lemma members_later : forall d g attrs, members (later_gen d g) attrs = dmap (later d) (members g attrs).
Proof.
  intros d g attrs. unfold members. generalize (sorted (fun a b => str_leb (fst a) (fst b)) attrs). intro l.
  induction l as [|[n o] l IH]; [reflexivity|]. cbn [flat_map fst snd]. rewrite IH. unfold dmap. rewrite map_app. f_equal.
  destruct o as [id [|]| |]; reflexivity.
Qed.

Lemma walk_later : forall d g m, walk_module (later_gen d g) m = rmap (dmap (later d)) (walk_module g m).
Proof.
  intros d g. induction m as [attrs subs IH] using pymod_ind'. rewrite !walk_eq.
  assert (K : forall n b m, In (n, b, Ok m) (match subs with None => [] | Some l => l end) -> walk_module (later_gen d g) m = rmap (dmap (later d)) (walk_module g m)).
  { intros n b m Hi. destruct subs as [l|]; [|contradiction]. apply (IH n b m l); auto. }
  clear IH. rewrite members_later. change (@nil (str * cls)) with (dmap (later d) []) at 1. rewrite dmap_dupdate.
  generalize (dupdate [] (members g attrs)). revert K. generalize (match subs with None => [] | Some l => l end).
  induction l as [|[[n b] r] l IHl]; intros K d0; cbn [walk_subs]; [reflexivity|].
  destruct b; [apply IHl; intros; eapply K; simpl; eauto|]. destruct r as [m|e]; [|reflexivity].
  rewrite (K n false m (or_introl eq_refl)). destruct (walk_module g m) as [x|e]; [|reflexivity]. cbn [rmap bind].
  rewrite dmap_dupdate. apply IHl. intros; eapply K; simpl; eauto.
Qed.

Lemma select_later : forall d q x, select q (dmap (later d) x) = rmap (map (later d)) (select q x).
Proof.
  intros d q x. unfold select. rewrite dmap_keys.
  assert (A : forall l, flat_map (fun name => match dget name (dmap (later d) x) with Some k => [k] | None => [] end) l =
                        map (later d) (flat_map (fun name => match dget name x with Some k => [k] | None => [] end) l)).
  { induction l as [|n l IH]; [reflexivity|]. cbn [flat_map]. rewrite map_app, IH, dmap_dget. destruct (dget n x); reflexivity. }
  destruct (q_name q) as [[|c n]|]; cbn [rmap]; rewrite ?A; auto. rewrite dmap_dget. destruct (dget (c :: n) x); reflexivity.
Qed.

(** Looking up an entry later, in a world where importing gives the same *)
Lemma find_later : forall d W W' q s s',
  outcome W' q s' = outcome W q s -> ps_path s' = ps_path s -> ps_gen s' = ps_gen s + d ->
  fst (find_rules W' q s') = rmap (map (later d)) (fst (find_rules W q s)) /\
  ps_gen (snd (find_rules W' q s')) = ps_gen (snd (find_rules W q s)) + d /\
  ps_path (snd (find_rules W' q s')) = ps_path (snd (find_rules W q s)).
Proof.
  intros d W W' q s s' O P G.
  assert (A : fst (find_rules W' q s') = rmap (map (later d)) (fst (find_rules W q s))).
  { rewrite (proj1 (find_rules_eq W' q s')), (proj1 (find_rules_eq W q s)), O.
    destruct (outcome W q s) as [m|e]; cbn [bind]; [|destruct e; reflexivity].
    assert (Gq : generation q s' = later_gen d (generation q s)) by (unfold generation; rewrite G; destruct (is_local q); reflexivity).
    rewrite Gq, walk_later. destruct (walk_module (generation q s) m) as [x|e]; cbn [rmap bind]; [|destruct e; reflexivity].
    rewrite select_later. destruct (select q x) as [ks|e]; [reflexivity|destruct e; reflexivity]. }
  split; auto. split.
  - rewrite !find_rules_gen, A. destruct (fst (find_rules W q s)); cbn [rmap]; [destruct (is_local q)|]; lia.
  - now rewrite !find_rules_path.
Qed.

Definition later_finding (d : nat) (f : finding) : finding := (fst f, rmap (map (later d)) (snd f)).

Lemma findings_later : forall d W W' sp qs,
  (forall q s s', In q qs -> ps_path s = sp -> ps_path s' = sp -> outcome W' q s' = outcome W q s) ->
  forall s s', ps_path s = sp -> ps_path s' = sp -> ps_gen s' = ps_gen s + d ->
  fst (findings W' qs s') = map (later_finding d) (fst (findings W qs s)) /\
  ps_gen (snd (findings W' qs s')) = ps_gen (snd (findings W qs s)) + d /\
  ps_path (snd (findings W qs s)) = sp /\ ps_path (snd (findings W' qs s')) = sp.
Proof.
  intros d W W' sp. induction qs as [|q qs IH]; intros O s s' P P' G; [cbn; auto|]. cbn [findings].
  destruct (find_later d W W' q s s') as (A & B & C); [apply O; simpl; auto|congruence|auto|].
  pose proof (find_rules_path W q s) as Q. 
  destruct (find_rules W q s) as [r s1], (find_rules W' q s') as [r' s1']. cbn [fst snd] in *. subst r'.
  destruct (IH (fun q s s' I => O q s s' (or_intror I)) s1 s1') as (A1 & B1 & C1 & D1); [congruence|congruence|auto|].
  destruct (findings W qs s1) as [fs s2], (findings W' qs s1') as [fs' s2']. cbn [fst snd] in *. subst fs'. auto.
Qed.

Lemma found_later : forall d fs k, found (map (later_finding d) fs) k <-> exists k0, k = later d k0 /\ found fs k0.
Proof.
  intros d fs k. split.
  - intros (q & ks & I & Ik). apply in_map_iff in I. destruct I as ([q0 [ks0|e]] & E & I); [|discriminate].
    injection E as <- <-. apply in_map_iff in Ik. destruct Ik as (k0 & <- & Ik). exists k0. split; auto. exists q0, ks0. auto.
  - intros (k0 & -> & q & ks & I & Ik). exists q, (map (later d) ks). split; [|now apply in_map].
    apply in_map_iff. exists (q, Ok ks). auto.
Qed.

Lemma named_later : forall d fs k, named (map (later_finding d) fs) k <-> exists k0, k = later d k0 /\ named fs k0.
Proof.
  intros d fs k. split.
  - intros (q & ks & n & I & Ik & N). apply in_map_iff in I. destruct I as ([q0 [ks0|e]] & E & I); [|discriminate].
    injection E as <- <-. apply in_map_iff in Ik. destruct Ik as (k0 & <- & Ik). exists k0. split; auto. exists q0, ks0, n. auto.
  - intros (k0 & -> & q & ks & n & I & Ik & N). exists q, (map (later d) ks), n. split; [|split; [now apply in_map|auto]].
    apply in_map_iff. exists (q, Ok ks). auto.
Qed.

(** ** What is remembered *)

Lemma learn_get : forall sp names loaded t, dget t (learn sp names loaded) =
  match dget t loaded with Some x => Some x | None => if existsb (fun n => str_eqb t (top n)) names then Some sp else None end.
Proof.
  intros sp. induction names as [|n names IH]; intros loaded t; cbn [learn fold_left existsb]; [now destruct (dget t loaded)|].
  fold (learn sp). change (fold_left _ names ?l) with (learn sp names l). rewrite IH. clear IH.
  destruct (dget (top n) loaded) as [x|] eqn:E.
  - destruct (dget t loaded) as [y|] eqn:E'; auto. destruct (str_eqb t (top n)) eqn:S; auto. apply str_eqb_eq in S. subst. congruence.
  - destruct (str_eqb t (top n)) eqn:S.
    + apply str_eqb_eq in S. subst. rewrite dget_dset_eq, E. reflexivity.
    + rewrite dget_dset_neq; [|intros ->; rewrite str_eqb_refl in S; discriminate]. reflexivity.
Qed.

Definition remember_more (a b : dict (list str)) : Prop := forall t x, dget t a = Some x -> dget t b = Some x.

Lemma enable_gen : forall W qs c, ps_gen (cs_py c) <= ps_gen (cs_py (fold_left (enable_one W) qs c)).
Proof.
  intros W. induction qs as [|q qs IH]; intro c; cbn [fold_left]; [lia|]. eapply Nat.le_trans; [|apply IH].
  unfold enable_one. pose proof (find_rules_gen W q (cs_py c)) as G. destruct (find_rules W q (cs_py c)) as [[ks|e] s1]; cbn [fst snd cs_py] in *; [destruct (is_local q)|]; lia.
Qed.

Lemma disable_gen : forall W qs c, ps_gen (cs_py c) <= ps_gen (cs_py (fold_left (disable_one W) qs c)).
Proof.
  intros W. induction qs as [|q qs IH]; intro c; cbn [fold_left]; [lia|]. eapply Nat.le_trans; [|apply IH].
  unfold disable_one. pose proof (find_rules_gen W q (cs_py c)) as G. destruct (find_rules W q (cs_py c)) as [[ks|e] s1]; cbn [fst snd cs_py] in *; [destruct (is_local q)|]; lia.
Qed.

Lemma collect_gen : forall W cfg s, ps_gen s <= ps_gen (snd (collect_rules W cfg s)).
Proof.
  intros W cfg s. unfold collect_rules.
  set (ap := match import_dir W cfg with None => _ | Some _ => _ end).
  assert (A : ps_gen (snd ap) = ps_gen s).
  { unfold ap. destruct (import_dir W cfg) as [d|]; [|reflexivity]. destruct (enter_path d (ps_path s)). reflexivity. }
  destruct ap as [app py0]. cbn [snd] in A.
  set (c1 := fold_left (enable_one W) (c_enable cfg) _). set (c2 := fold_left (disable_one W) (c_disable cfg) c1).
  assert (B : ps_gen s <= ps_gen (cs_py c2)).
  { rewrite <- A. eapply Nat.le_trans; [|apply disable_gen]. apply (enable_gen W (c_enable cfg) (CState [] [] [] py0)). }
  destruct (filter_tags W (c_tags cfg) (cs_all c2) (cs_disabled c2)) as [all d].
  match goal with |- context [match ?r with Ok _ => _ | Err _ => _ end] => destruct r end; cbn [snd]; auto. destruct app; auto.
Qed.

Lemma import_path_eq : forall W cfg z, import_path W cfg z = match import_dir W cfg with None => z_path z | Some d => snd (enter_path d (z_path z)) end.
Proof.
  intros W cfg z. unfold import_path, with_root_import, import_dir, on_path, enter_path. destruct (c_import cfg); cbn [ps_path]; auto;
    match goal with |- context [existsb ?f ?l] => destruct (existsb f l) end; reflexivity.
Qed.

Lemma with_root_path : forall W cfg sp ms g, ps_path (with_root_import W cfg (PyState sp ms g)) = ps_path (with_root_import W cfg (PyState sp [] 0)) /\
  ps_gen (with_root_import W cfg (PyState sp ms g)) = g.
Proof.
  intros W cfg sp ms g. unfold with_root_import, on_path. destruct (c_import cfg); cbn [ps_path]; auto;
    match goal with |- context [existsb ?f ?l] => destruct (existsb f l) end; auto.
Qed.

Lemma with_root_remembering : forall l W cfg s, with_root_import (remembering l W) cfg s = with_root_import W cfg s.
Proof. reflexivity. Qed.

(** sys.path after collect_rules: as it was, if nothing was raised or nothing had been added; otherwise with something at the end. *)
Lemma collect_path_any : forall W c s, exists ext, ps_path (snd (collect_rules W c s)) = ps_path s ++ ext /\
  (c_import c = RIFalse \/ (exists r, fst (collect_rules W c s) = Ok r) -> ext = []).
Proof.
  intros W c s. destruct (collect_rules W c s) as [r s'] eqn:H. cbn [fst snd]. destruct r as [r|e].
  { exists []. rewrite app_nil_r. split; auto. eapply collect_path_ok; eauto. }
  enough (exists ext, ps_path s' = ps_path s ++ ext /\ (c_import c = RIFalse -> ext = [])) as (ext & A & B).
  { exists ext. split; auto. intros [X|(r & X)]; [auto|discriminate]. }
  unfold collect_rules in H.
  set (x := match import_dir W c with None => _ | Some p => _ end) in H. destruct x as [app py0] eqn:X. subst x.
  set (c1 := fold_left (enable_one W) (c_enable c) (CState [] [] [] py0)) in H.
  set (c2 := fold_left (disable_one W) (c_disable c) c1) in H.
  assert (P : ps_path (cs_py c2) = ps_path py0). { unfold c2. rewrite disable_path. unfold c1. rewrite enable_path. reflexivity. }
  destruct (filter_tags W (c_tags c) (cs_all c2) (cs_disabled c2)) as [all d].
  match type of H with (match ?r with Ok _ => _ | Err _ => _ end = _) => destruct r as [x|e'] end; [discriminate|].
  injection H as _ <-. rewrite P. clear P. unfold import_dir in X. destruct (c_import c); unfold enter_path in X.
  - injection X as <- <-. exists []. rewrite app_nil_r. auto.
  - destruct (existsb _ _); injection X as <- <-; cbn [ps_path]; eexists; (split; [|discriminate]); [symmetry; apply app_nil_r|reflexivity].
  - destruct (existsb _ _); injection X as <- <-; cbn [ps_path]; eexists; (split; [|discriminate]); [symmetry; apply app_nil_r|reflexivity].
Qed.

Lemma after_collect_facts : forall W cfg z,
  let z' := after_collect W cfg z in
  (exists ext, z_path z' = z_path z ++ ext /\
     (c_import cfg = RIFalse \/ (exists r, fst (collect_rules (remembering (z_loaded z) W) cfg (PyState (z_path z) [] (z_gen z))) = Ok r) -> ext = [])) /\
  z_gen z <= z_gen z' /\ remember_more (z_loaded z) (z_loaded z') /\
  forall t x, dget t (z_loaded z') = Some x -> dget t (z_loaded z) = Some x \/ x = import_path W cfg z.
Proof.
  intros W cfg z. unfold after_collect.
  pose proof (collect_gen (remembering (z_loaded z) W) cfg (PyState (z_path z) [] (z_gen z))) as G.
  pose proof (collect_path_any (remembering (z_loaded z) W) cfg (PyState (z_path z) [] (z_gen z))) as P.
  destruct (collect_rules (remembering (z_loaded z) W) cfg (PyState (z_path z) [] (z_gen z))) as [r0 s] eqn:E. cbn [fst snd] in *.
  cbn [z_path z_gen z_loaded ps_path ps_gen] in *. split; auto. split; auto. split.
  - intros t x D. rewrite learn_get, D. reflexivity.
  - intros t x D. rewrite learn_get in D. destruct (dget t (z_loaded z)) as [y|]; [auto|right].
    destruct (existsb _ _); [|discriminate]. rewrite import_path_eq. congruence.
Qed.

(** The selection later is the selection now, if the modules that are named mean the same. *)
Section Selection.
  Context (W : world) (cfg : config) (z0 z : session).
  Context (path_eq : z_path z = z_path z0) (gen_le : z_gen z0 <= z_gen z) (more : remember_more (z_loaded z0) (z_loaded z)).
  Context (known : forall q t x, In q (c_enable cfg ++ c_disable cfg) -> is_local q = false -> t = top (q_module q) ->
    dget t (z_loaded z0) = None -> dget t (z_loaded z) = Some x ->
    snd (w_import W x (q_module q)) = snd (w_import W (import_path W cfg z0) (q_module q))).

  Let d := z_gen z - z_gen z0.
  Let now (y : session) := with_root_import W cfg (PyState (z_path y) [] (z_gen y)).

  Lemma outcome_later : forall q s s', In q (c_enable cfg ++ c_disable cfg) -> ps_path s = import_path W cfg z0 -> ps_path s' = import_path W cfg z0 ->
    outcome (remembering (z_loaded z) W) q s' = outcome (remembering (z_loaded z0) W) q s.
  Proof.
    intros q s s' I P P'. unfold outcome. rewrite P, P'. destruct (is_local q) eqn:L; [reflexivity|]. cbn [remembering w_import].
    destruct (dget (top (q_module q)) (z_loaded z0)) as [x|] eqn:D0; [now rewrite (more _ _ D0)|].
    destruct (dget (top (q_module q)) (z_loaded z)) as [x|] eqn:D; [|reflexivity]. now apply (known q (top (q_module q)) x).
  Qed.

  Lemma findings_both : forall fe s fd s', 
    findings (remembering (z_loaded z0) W) (c_enable cfg) (now z0) = (fe, s) ->
    findings (remembering (z_loaded z0) W) (c_disable cfg) s = (fd, s') ->
    exists s1 s1', findings (remembering (z_loaded z) W) (c_enable cfg) (now z) = (map (later_finding d) fe, s1) /\
      findings (remembering (z_loaded z) W) (c_disable cfg) s1 = (map (later_finding d) fd, s1').
  Proof.
    intros fe s fd s' E1 E2.
    destruct (findings_later d (remembering (z_loaded z0) W) (remembering (z_loaded z) W) (import_path W cfg z0) (c_enable cfg)) with (s := now z0) (s' := now z) as (A & B & C & D).
    - intros q a b I. apply outcome_later. apply in_or_app. auto.
    - unfold now, import_path. apply with_root_path.
    - unfold now, import_path. rewrite path_eq. apply with_root_path.
    - unfold now. rewrite !(proj2 (with_root_path _ _ _ _ _)). unfold d. lia.
    - rewrite E1 in A, B, C. destruct (findings (remembering (z_loaded z) W) (c_enable cfg) (now z)) as [fe' s1] eqn:E1'. cbn [fst snd] in *. subst fe'.
      destruct (findings_later d (remembering (z_loaded z0) W) (remembering (z_loaded z) W) (import_path W cfg z0) (c_disable cfg)) with (s := s) (s' := s1) as (A' & _); auto.
      + intros q a b I. apply outcome_later. apply in_or_app. auto.
      + rewrite E2 in A'. cbn [fst] in A'. destruct (findings (remembering (z_loaded z) W) (c_disable cfg) s1) as [fd' s1'] eqn:E2'. cbn [fst] in A'. subst fd'.
        exists s1, s1'. auto.
  Qed.
End Selection.
