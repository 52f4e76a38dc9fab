(** * Facts about rule collection *)
From Coq Require Import String List NArith ZArith Bool Arith Lia Permutation Sorted.
From Verif Require Import Base PyStr Regex Ftypes Paths Config ConfigSpec ConfigFacts Collect CollectSpec.
Import ListNotations.
Set Implicit Arguments.

Lemma cls_eqb_eq : forall a b, cls_eqb a b = true <-> a = b.
Proof.
  intros [i g] [j h]. unfold cls_eqb. simpl. rewrite andb_true_iff, N.eqb_eq. split.
  - intros [-> H]. destruct g, h; try discriminate; auto. apply Nat.eqb_eq in H. now subst.
  - intro H. injection H as -> ->. split; auto. destruct h; auto. apply Nat.eqb_refl.
Qed.

Lemma cls_eqb_refl : forall a, cls_eqb a a = true.
Proof. intro. now apply cls_eqb_eq. Qed.

Lemma cls_eqb_neq : forall a b, cls_eqb a b = false <-> a <> b.
Proof. intros. rewrite <- cls_eqb_eq. destruct (cls_eqb a b); split; congruence. Qed.

Lemma kmem_iff : forall k l, kmem k l = true <-> In k l.
Proof.
  intros k l. unfold kmem. rewrite existsb_exists. split.
  - intros (x & Hx & E). apply cls_eqb_eq in E. now subst.
  - intro H. exists k. split; auto. apply cls_eqb_refl.
Qed.

Lemma kminus_iff : forall k a b, In k (kminus a b) <-> In k a /\ ~ In k b.
Proof.
  intros. unfold kminus. rewrite filter_In, negb_true_iff, <- not_true_iff_false, kmem_iff. tauto.
Qed.

Lemma kadd_iff : forall k x s, In k (sadd cls_eqb x s) <-> k = x \/ In k s.
Proof.
  intros k x s. unfold sadd. destruct (smem cls_eqb x s) eqn:E.
  - unfold smem in E. apply (kmem_iff x s) in E. split; auto. intros [->|H]; auto.
  - rewrite in_app_iff. simpl. intuition.
Qed.

Lemma kunion_iff : forall b a k, In k (kunion a b) <-> In k a \/ In k b.
Proof.
  unfold kunion. induction b as [|x b IH]; intros a k; cbn [fold_left].
  - simpl. tauto.
  - rewrite IH, kadd_iff. simpl. intuition.
Qed.

Lemma kadd_nodup : forall x s, NoDup s -> NoDup (sadd cls_eqb x s).
Proof.
  intros x s H. unfold sadd. destruct (smem cls_eqb x s) eqn:E; auto.
  eapply Permutation_NoDup; [apply Permutation_cons_append|]. constructor; auto.
  intro Hi. apply (kmem_iff x s) in Hi. unfold smem in E. unfold kmem in Hi. congruence.
Qed.

Lemma kunion_nodup : forall b a, NoDup a -> NoDup (kunion a b).
Proof.
  unfold kunion. induction b as [|x b IH]; intros a H; cbn [fold_left]; auto.
  apply IH. now apply kadd_nodup.
Qed.

Lemma kminus_nodup : forall a b, NoDup a -> NoDup (kminus a b).
Proof. intros. unfold kminus. now apply NoDup_filter. Qed.

(** ** Reasons *)

Lemma rget_rset : forall k x r d, rget k (rset x r d) = if cls_eqb k x then Some r else rget k d.
Proof.
  intros k x r d. induction d as [|[y s] d IH]; cbn [rset rget].
  - reflexivity.
  - destruct (cls_eqb x y) eqn:E; cbn [rget].
    + apply cls_eqb_eq in E. subst y. destruct (cls_eqb k x); auto.
    + rewrite IH. destruct (cls_eqb k y) eqn:E2; auto.
      apply cls_eqb_eq in E2. subst y. rewrite cls_eqb_neq in E.
      destruct (cls_eqb k x) eqn:E3; auto. apply cls_eqb_eq in E3. congruence.
Qed.

Lemma rget_rupdate : forall ks r d k, rget k (rupdate d ks r) = if kmem k ks then Some r else rget k d.
Proof.
  unfold rupdate. induction ks as [|x ks IH]; intros r d k; cbn [fold_left]; auto.
  rewrite IH, rget_rset. unfold kmem. cbn [existsb]. destruct (cls_eqb k x); cbn [orb]; auto.
  destruct (existsb (cls_eqb k) ks); auto.
Qed.

Lemma rkeys_iff : forall k d, In k (rkeys d) <-> rget k d <> None.
Proof.
  intros k d. unfold rkeys. induction d as [|[y r] d IH]; cbn [map rget].
  - simpl. tauto.
  - simpl. destruct (cls_eqb k y) eqn:E.
    + apply cls_eqb_eq in E. subst. split; [congruence|auto].
    + rewrite cls_eqb_neq in E. rewrite <- IH. intuition congruence.
Qed.

(** ** walk_module *)

Fixpoint walk_subs (gen : option nat) (l : list (str * bool * res pymod)) (rules : dict cls) : res (dict cls) :=
  match l with
  | [] => Ok rules
  | (_, true, _) :: l' => walk_subs gen l' rules
  | (_, false, Err e) :: l' => Err e
  | (_, false, Ok sub) :: l' => let! d := walk_module gen sub in walk_subs gen l' (dupdate rules d)
  end.

Lemma walk_eq : forall gen attrs subs,
  walk_module gen (PyMod attrs subs) =
  walk_subs gen (match subs with None => [] | Some l => l end) (dupdate [] (members gen attrs)).
Proof.
  intros gen attrs [l|]; [|reflexivity]. cbn [walk_module].
  generalize (dupdate [] (members gen attrs)).
  induction l as [|[[n b] r] l IH]; intro d; [reflexivity|].
  destruct b; cbn [walk_subs].
  - rewrite <- IH. reflexivity.
  - destruct r as [sub|e]; [|reflexivity]. destruct (walk_module gen sub) as [d1|e]; cbn [bind]; [|reflexivity].
    rewrite <- IH. reflexivity.
Qed.

Lemma dget_perm : forall A (l1 l2 : dict A) k, Permutation l1 l2 -> NoDup (dkeys l1) -> dget k l1 = dget k l2.
Proof.
  intros A l1 l2 k P N. destruct (dget k l1) as [v|] eqn:E.
  - symmetry. apply dget_in_nodup.
    + unfold dkeys in *. eapply Permutation_NoDup; [apply Permutation_map, P | exact N].
    + eapply Permutation_in; [exact P|]. now apply dget_in.
  - symmetry. apply dget_none. apply dget_none in E. unfold dkeys in *. intro Hi. apply E.
    eapply Permutation_in; [apply Permutation_sym, Permutation_map, P | exact Hi].
Qed.

Definition memb gen (nv : str * pyobj) : list (str * cls) :=
  match rule_of gen (snd nv) with Some c => [(fst nv, c)] | None => [] end.

Lemma memb_keys : forall gen l k, In k (dkeys (flat_map (memb gen) l)) -> In k (dkeys l).
Proof.
  intros gen l k. unfold dkeys. induction l as [|[n v] l IH]; cbn [flat_map map]; auto.
  rewrite map_app, in_app_iff. intros [H|H].
  - unfold memb in H. cbn [fst snd] in H. destruct (rule_of gen v); simpl in H; [|contradiction].
    destruct H as [H|[]]. left. exact H.
  - simpl. auto.
Qed.

Lemma memb_nodup : forall gen l, NoDup (dkeys l) -> NoDup (dkeys (flat_map (memb gen) l)).
Proof.
  intros gen l. induction l as [|[n v] l IH]; cbn [flat_map]; intro H; [constructor|].
  unfold dkeys in H. simpl in H. inversion H; subst. unfold memb at 1. cbn [fst snd].
  destruct (rule_of gen v); cbn [app]; auto. unfold dkeys. cbn [map fst]. constructor.
  - intro Hi. apply H2. apply memb_keys in Hi. exact Hi.
  - apply IH. exact H3.
Qed.

Lemma memb_get : forall gen l k, NoDup (dkeys l) ->
  dget k (flat_map (memb gen) l) = match dget k l with Some o => rule_of gen o | None => None end.
Proof.
  intros gen l k. induction l as [|[n v] l IH]; cbn [flat_map dget]; intro H; [reflexivity|].
  unfold dkeys in H. simpl in H. inversion H; subst. unfold memb at 1. cbn [fst snd].
  destruct (str_eqb k n) eqn:E.
  - apply str_eqb_eq in E. subst n.
    destruct (rule_of gen v); cbn [app dget]; [now rewrite str_eqb_refl|].
    apply dget_none. intro Hi. apply memb_keys in Hi. contradiction.
  - destruct (rule_of gen v); cbn [app dget]; rewrite ?E; now apply IH.
Qed.

Lemma members_get : forall gen attrs subs name, NoDup (dkeys attrs) ->
  dget name (dupdate [] (members gen attrs)) = binds gen (PyMod attrs subs) name.
Proof.
  intros gen attrs subs name H. rewrite dupdate_get. cbn [dget].
  unfold members. fold (memb gen).
  change (fun nv : str * pyobj => match rule_of gen (snd nv) with Some c => [(fst nv, c)] | None => [] end) with (memb gen).
  set (l := sorted _ attrs).
  assert (P : Permutation attrs l) by apply sorted_perm.
  assert (N : NoDup (dkeys l)).
  { unfold dkeys. eapply Permutation_NoDup; [apply Permutation_map, P | exact H]. }
  assert (R : dget name (rev (flat_map (memb gen) l)) = dget name (flat_map (memb gen) l)).
  { symmetry. apply dget_perm; [apply Permutation_rev | now apply memb_nodup]. }
  rewrite R, memb_get by auto. rewrite <- (dget_perm name P H).
  unfold binds. cbn [attributes]. destruct (dget name attrs) as [[id [|]| |]|]; reflexivity.
Qed.

Lemma dupdate_keys : forall A (e d : dict A) x, In x (dkeys (dupdate d e)) <-> In x (dkeys d) \/ In x (dkeys e).
Proof.
  unfold dupdate. induction e as [|[k v] e IH]; intros d x; cbn [fold_left fst snd].
  - unfold dkeys. simpl. tauto.
  - rewrite IH, dkeys_dset. unfold dkeys. simpl. intuition.
Qed.

Section PymodInd.
  Variable P : pymod -> Prop.
  Hypothesis H : forall attrs subs,
    (forall n b m l, subs = Some l -> In (n, b, Ok m) l -> P m) -> P (PyMod attrs subs).
  Fixpoint pymod_ind' (m : pymod) : P m.
  Proof.
    destruct m as [attrs [l|]]; apply H.
    - intros n b m l' E. injection E as <-.
      induction l as [|[[n1 b1] [m1|e1]] l IH]; intro Hi.
      + contradiction.
      + destruct Hi as [Hi|Hi]; [|apply IH; exact Hi]. injection Hi as _ _ <-. apply pymod_ind'.
      + destruct Hi as [Hi|Hi]; [discriminate|apply IH; exact Hi].
    - intros n b m l E. discriminate.
  Defined.
End PymodInd.

(** The rules collected from a module: [loads] describes success, [provides] the content *)
Lemma walk_subs_spec : forall gen l,
  (forall n b m, In (n, b, Ok m) l ->
     (forall d, walk_module gen m = Ok d -> exists ms, loads m ms /\ NoDup (dkeys d) /\
        (distinct_attrs ms -> forall name, dget name d = provides gen ms name))) ->
  forall d0 d, walk_subs gen l d0 = Ok d -> NoDup (dkeys d0) ->
  exists ms, loads_subs l ms /\ NoDup (dkeys d) /\
    (distinct_attrs ms -> forall name, dget name d =
       match provides gen ms name with Some c => Some c | None => dget name d0 end).
Proof.
  intros gen l. induction l as [|[[n b] r] l IH]; intros Hm d0 d H N0; cbn [walk_subs] in H.
  - injection H as <-. exists []. split; [constructor|]. split; auto.
  - destruct b.
    + destruct (IH (fun n' b' m' Hi => Hm n' b' m' (or_intror Hi)) d0 d H N0) as (ms & A & B & C).
      exists ms. split; [now constructor|]. auto.
    + destruct r as [m|e]; [|discriminate].
      apply bind_ok in H. destruct H as (d1 & H1 & H2).
      destruct (Hm n false m (or_introl eq_refl) d1 H1) as (ms1 & A1 & B1 & C1).
      assert (N1 : NoDup (dkeys (dupdate d0 d1))) by now apply dupdate_nodup.
      destruct (IH (fun n' b' m' Hi => Hm n' b' m' (or_intror Hi)) _ d H2 N1) as (ms2 & A2 & B2 & C2).
      exists (ms1 ++ ms2). split; [now constructor|]. split; auto.
      intros Hd name. rewrite C2 by (intros x Hx; apply Hd; apply in_app_iff; auto).
      unfold provides. rewrite map_app, last_some_app.
      destruct (last_some (map (fun m0 => binds gen m0 name) ms2)); auto.
      rewrite dupdate_get.
      assert (R : dget name (rev d1) = dget name d1).
      { symmetry. apply dget_perm; [apply Permutation_rev | exact B1]. }
      rewrite R, C1 by (intros x Hx; apply Hd; apply in_app_iff; auto). reflexivity.
Qed.

Lemma walk_spec : forall gen m d, walk_module gen m = Ok d ->
  exists ms, loads m ms /\ NoDup (dkeys d) /\
    (distinct_attrs ms -> forall name, dget name d = provides gen ms name).
Proof.
  intros gen. induction m as [attrs subs IH] using pymod_ind'. intros d H. rewrite walk_eq in H.
  destruct (@walk_subs_spec gen (match subs with None => [] | Some l => l end)) with
    (d0 := dupdate [] (members gen attrs)) (d := d) as (ms & A & B & C); auto.
  - intros n b m Hi d1 H1. destruct subs as [l|]; [|contradiction]. apply (IH n b m l); auto.
  - apply dupdate_nodup. constructor.
  - exists (PyMod attrs subs :: ms). split; [now constructor|]. split; auto.
    intros Hd name. rewrite C by (intros x Hx; apply Hd; simpl; auto).
    unfold provides. cbn [map last_some]. destruct (last_some _); auto.
    apply members_get. apply (Hd (PyMod attrs subs)). simpl. auto.
Qed.

Lemma loads_walk : forall gen m ms, loads m ms -> exists d, walk_module gen m = Ok d.
Proof.
  intros gen. induction m as [attrs subs IH] using pymod_ind'. intros ms H. inversion H as [a0 s0 ms0 Hs Ea Es]; subst.
  rewrite walk_eq. clear H. revert Hs. generalize (dupdate [] (members gen attrs)).
  assert (K : forall n b m, In (n, b, Ok m) (match subs with None => [] | Some l => l end) ->
    forall ms, loads m ms -> exists d, walk_module gen m = Ok d).
  { intros n b m Hi. destruct subs as [l|]; [|contradiction]. apply (IH n b m l); auto. }
  clear IH. revert ms0. revert K. generalize (match subs with None => [] | Some l => l end). clear subs.
  induction l as [|[[n b] r] l IHl]; intros K ms0 d0 Hs; cbn [walk_subs]; [eauto|].
  destruct b.
  - inversion Hs; subst. apply IHl with ms0; auto. intros; eapply K; simpl; eauto.
  - inversion Hs; subst. destruct (K n false m (or_introl eq_refl) ms1) as (d1 & Hd1); auto.
    rewrite Hd1. cbn [bind]. apply IHl with ms2; auto. intros; eapply K; simpl; eauto.
Qed.

Lemma loads_unique : forall m ms1 ms2, loads m ms1 -> loads m ms2 -> ms1 = ms2.
Proof.
  induction m as [attrs subs IH] using pymod_ind'. intros ms1 ms2 H1 H2.
  inversion H1 as [a0 s0 ms H0 Ea Es]; subst. inversion H2 as [a0 s0 ms0 H3 Ea Es]; subst. f_equal. clear H1 H2.
  assert (K : forall n b m, In (n, b, Ok m) (match subs with None => [] | Some l => l end) ->
    forall a b, loads m a -> loads m b -> a = b).
  { intros n b m Hi. destruct subs as [l|]; [|contradiction]. apply (IH n b m l); auto. }
  clear IH. revert ms ms0 H0 H3. revert K. generalize (match subs with None => [] | Some l => l end). clear subs.
  induction l as [|[[n b] r] l IHl]; intros K ms ms0 A B; inversion A; subst; inversion B; subst; auto.
  - apply IHl; auto. intros; eapply K; simpl; eauto.
  - f_equal; [eapply K; simpl; eauto|]. apply IHl; auto. intros; eapply K; simpl; eauto.
Qed.

(** ** find_rules *)

Lemma import_rules_eq : forall W q s,
  fst (import_rules W q s) = (let! m := outcome W q s in walk_module (generation q s) m) /\
  ps_path (snd (import_rules W q s)) = ps_path s.
Proof.
  intros W q s. unfold import_rules, outcome, generation, is_local.
  destruct (q_local q) as [[|c l]|].
  - destruct (w_import W (ps_path s) (q_module q)) as [a r]. auto.
  - destruct (q_root q) as [r|]; auto. destruct (w_local W (ps_path s) r (q_module q)) as [a m]. auto.
  - destruct (w_import W (ps_path s) (q_module q)) as [a r]. auto.
Qed.

Definition select (q : qrule) (rules : dict cls) : res (list cls) :=
  match q_name q with
  | Some (c :: n) => match dget (c :: n) rules with Some k => Ok [k] | None => Err CollectionError end
  | _ => Ok (flat_map (fun name => match dget name rules with Some k => [k] | None => [] end)
               (sorted str_leb (dkeys rules)))
  end.

Definition wrap {A} (r : res A) : res A := match r with Err ImportError => Err CollectionError | _ => r end.

Lemma find_rules_eq : forall W q s,
  fst (find_rules W q s) = wrap (let! m := outcome W q s in let! d := walk_module (generation q s) m in select q d) /\
  ps_path (snd (find_rules W q s)) = ps_path s.
Proof.
  intros W q s. destruct (import_rules_eq W q s) as [A B]. unfold find_rules.
  destruct (import_rules W q s) as [r s']. cbn [fst snd] in *. subst r.
  split; [|match goal with |- ps_path (match ?f with _ => _ end) = _ => destruct f end;
           destruct (q_local q) as [[|]|]; exact B].
  destruct (outcome W q s) as [m|e]; cbn [bind]; [|destruct e; reflexivity].
  destruct (walk_module (generation q s) m) as [d|e]; cbn [bind]; [|destruct e; reflexivity]. reflexivity.
Qed.

Lemma walk_gen_err : forall g1 g2 m e, walk_module g1 m = Err e -> walk_module g2 m = Err e.
Proof.
  intros g1 g2. induction m as [attrs subs IH] using pymod_ind'. intros e H. rewrite walk_eq in *.
  assert (K : forall n b m, In (n, b, Ok m) (match subs with None => [] | Some l => l end) ->
     (forall e, walk_module g1 m = Err e -> walk_module g2 m = Err e) /\
     (forall d, walk_module g1 m = Ok d -> exists d', walk_module g2 m = Ok d')).
  { intros n b m Hi. destruct subs as [l|]; [|contradiction]. split; [apply (IH n b m l); auto|].
    intros d Hd. apply walk_spec in Hd. destruct Hd as (ms & Hl & _). apply (loads_walk g2 Hl). }
  clear IH. revert H. generalize (dupdate [] (members g1 attrs)) (dupdate [] (members g2 attrs)).
  revert K. generalize (match subs with None => [] | Some l => l end).
  induction l as [|[[n b] r] l IHl]; intros K d1 d2 H; cbn [walk_subs] in *; [discriminate|].
  destruct b.
  - apply IHl with d1; auto. intros; eapply K; simpl; eauto.
  - destruct r as [m|e1]; [|exact H]. destruct (K n false m (or_introl eq_refl)) as [K1 K2].
    destruct (walk_module g1 m) as [x|e1]; cbn [bind] in H.
    + destruct (K2 x eq_refl) as (y & ->). cbn [bind]. apply IHl with (dupdate d1 x); auto.
      intros; eapply K; simpl; eauto.
    + rewrite (K1 e1 eq_refl). exact H.
Qed.

(** Whether and how a lookup fails depends on sys.path only. *)
Lemma find_rules_err : forall W q s1 s2 e, ps_path s1 = ps_path s2 ->
  fst (find_rules W q s1) = Err e -> fst (find_rules W q s2) = Err e.
Proof.
  intros W q s1 s2 e Hp H. destruct (find_rules_eq W q s1) as [A1 _]. destruct (find_rules_eq W q s2) as [A2 _].
  rewrite A1 in H. rewrite A2. clear A1 A2.
  assert (Ho : outcome W q s1 = outcome W q s2) by (unfold outcome; now rewrite Hp).
  rewrite Ho in H. destruct (outcome W q s2) as [m|e1]; cbn [bind] in *; auto.
  destruct (walk_module (generation q s1) m) as [d1|e1] eqn:E1; cbn [bind] in H.
  - pose proof (walk_spec (generation q s1) m E1) as (ms & Hl & N1 & C1).
    destruct (loads_walk (generation q s2) Hl) as (d2 & E2). rewrite E2. cbn [bind].
    unfold select in *. destruct (q_name q) as [[|c n]|]; try discriminate.
    destruct (dget (c :: n) d1) as [k|] eqn:Ek; [discriminate|].
    assert (Hk : dget (c :: n) d2 = None).
    { destruct (dget (c :: n) d2) as [k2|] eqn:Ek2; auto. exfalso.
      (* the keys do not depend on the generation *)
      assert (Kk : forall m d1 d2, walk_module (generation q s1) m = Ok d1 -> walk_module (generation q s2) m = Ok d2 ->
                 forall x, In x (dkeys d2) -> In x (dkeys d1)).
      { clear. generalize (generation q s1) (generation q s2). intros g1 g2.
        induction m as [attrs subs IH] using pymod_ind'. intros d1 d2. rewrite !walk_eq.
        assert (M : forall x, In x (dkeys (dupdate [] (members g2 attrs))) -> In x (dkeys (dupdate [] (members g1 attrs)))).
        { intros x. rewrite !dupdate_keys. intros [[]|H]. right. unfold members, dkeys in *.
          rewrite in_map_iff in *. destruct H as ([n c] & <- & H). apply in_flat_map in H.
          destruct H as ([n' v] & Hi & H). cbn [fst snd] in *.
          destruct v as [id [|]| |]; simpl in H; try contradiction; destruct H as [H|[]]; injection H as <- <-.
          - exists (n', (id, g1)). split; auto. apply in_flat_map. exists (n', ORule id true). split; auto. simpl. auto.
          - exists (n', (id, None)). split; auto. apply in_flat_map. exists (n', ORule id false). split; auto. simpl. auto. }
        assert (K : forall n b m, In (n, b, Ok m) (match subs with None => [] | Some l => l end) ->
          forall d1 d2, walk_module g1 m = Ok d1 -> walk_module g2 m = Ok d2 -> forall x, In x (dkeys d2) -> In x (dkeys d1)).
        { intros n b m Hi. destruct subs as [l|]; [|contradiction]. apply (IH n b m l); auto. }
        clear IH. revert M. generalize (dupdate [] (members g1 attrs)) (dupdate [] (members g2 attrs)).
        revert K. generalize (match subs with None => [] | Some l => l end).
        induction l as [|[[n b] r] l IHl]; intros K a1 a2 M H1 H2; cbn [walk_subs] in *.
        - injection H1 as <-. injection H2 as <-. exact M.
        - destruct b.
          + apply IHl with a1 a2; auto. intros; eapply K; simpl; eauto.
          + destruct r as [m|e1]; [|discriminate].
            apply bind_ok in H1. destruct H1 as (x1 & X1 & H1). apply bind_ok in H2. destruct H2 as (x2 & X2 & H2).
            apply IHl with (dupdate a1 x1) (dupdate a2 x2); auto.
            * intros; eapply K; simpl; eauto.
            * intros x. rewrite !dupdate_keys. intros [Hx|Hx]; auto. right.
              eapply (K n false m); simpl; eauto. }
      assert (Hin : In (c :: n) (dkeys d2)).
      { destruct (in_dec str_eq_dec (c :: n) (dkeys d2)) as [Hi|Hi]; auto. apply dget_none in Hi. congruence. }
      apply (Kk m d1 d2 E1 E2) in Hin. apply dget_none in Ek. contradiction. }
    rewrite Hk. exact H.
  - rewrite (walk_gen_err (generation q s1) (generation q s2) m E1). exact H.
Qed.
