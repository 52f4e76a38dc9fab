(** * Facts about collect_rules and validate_config *)
From Coq Require Import String List NArith ZArith Bool Arith Lia Permutation Sorted.
From Verif Require Import Base PyStr Regex Ftypes Paths Config ConfigSpec ConfigFacts Collect CollectSpec CollectFacts TagsProps.
Import ListNotations.
Set Implicit Arguments.

(** ** The state after a lookup *)

Lemma find_rules_path : forall W q s, ps_path (snd (find_rules W q s)) = ps_path s.
Proof. intros. apply find_rules_eq. Qed.

Lemma import_rules_gen : forall W q s, ps_gen (snd (import_rules W q s)) = ps_gen s.
Proof.
  intros W q s. unfold import_rules.
  destruct (q_local q) as [[|c l]|].
  - destruct (w_import W (ps_path s) (q_module q)) as [a r]. auto.
  - destruct (q_root q) as [r|]; auto. destruct (w_local W (ps_path s) r (q_module q)) as [a m]. auto.
  - destruct (w_import W (ps_path s) (q_module q)) as [a r]. auto.
Qed.

Lemma find_rules_gen : forall W q s,
  ps_gen (snd (find_rules W q s)) =
  match fst (find_rules W q s) with
  | Ok _ => if is_local q then S (ps_gen s) else ps_gen s
  | Err _ => ps_gen s
  end.
Proof.
  intros W q s. pose proof (import_rules_gen W q s) as G. unfold find_rules, is_local.
  destruct (import_rules W q s) as [r s']. cbn [fst snd] in *.
  match goal with |- ps_gen (match ?f with _ => _ end) = _ => destruct f as [ks|e] end.
  - destruct (q_local q) as [[|c l]|]; cbn [ps_gen]; congruence.
  - destruct e; auto.
Qed.

(** What is found, and the next generation, depend on sys.path and the generation only. *)
Definition same_env (a b : pystate) : Prop := ps_path a = ps_path b /\ ps_gen a = ps_gen b.

Lemma find_rules_same : forall W q a b, same_env a b ->
  fst (find_rules W q a) = fst (find_rules W q b) /\
  same_env (snd (find_rules W q a)) (snd (find_rules W q b)).
Proof.
  intros W q a b [Hp Hg].
  assert (H : fst (find_rules W q a) = fst (find_rules W q b)).
  { destruct (find_rules_eq W q a) as [-> _]. destruct (find_rules_eq W q b) as [-> _].
    unfold outcome, generation. now rewrite Hp, Hg. }
  split; auto. split.
  - now rewrite !find_rules_path.
  - rewrite !find_rules_gen, H, Hg. reflexivity.
Qed.

Lemma find_rules_fail_same : forall W q s e, fst (find_rules W q s) = Err e -> same_env (snd (find_rules W q s)) s.
Proof.
  intros W q s e H. split; [apply find_rules_path|]. rewrite find_rules_gen, H. reflexivity.
Qed.

Lemma findings_path : forall W qs s, ps_path (snd (findings W qs s)) = ps_path s.
Proof.
  intros W. induction qs as [|q qs IH]; intro s; cbn [findings]; auto.
  pose proof (find_rules_path W q s) as P. destruct (find_rules W q s) as [r s1].
  specialize (IH s1). destruct (findings W qs s1) as [fs s2]. cbn [snd] in *. congruence.
Qed.

(** ** The enable loop *)

Lemma enable_loop : forall W qs c,
  let (fs, py) := findings W qs (cs_py c) in
  let c' := fold_left (enable_one W) qs c in
  cs_py c' = py /\ cs_disabled c' = cs_disabled c /\
  (forall k, In k (cs_all c') <-> In k (cs_all c) \/ found fs k) /\
  (forall k, In k (cs_named c') <-> In k (cs_named c) \/ named fs k) /\
  (NoDup (cs_all c) -> NoDup (cs_all c')).
Proof.
  intros W. induction qs as [|q qs IH]; intro c; cbn [findings fold_left].
  - repeat split; auto.
    + intros [H|(q & ks & [] & _)]; auto.
    + intros [H|(q & ks & n & [] & _)]; auto.
  - specialize (IH (enable_one W c q)). unfold enable_one in *.
    destruct (find_rules W q (cs_py c)) as [r s1] eqn:E. destruct r as [ks|e]; cbn [cs_py cs_all cs_named cs_disabled] in IH.
    + destruct (findings W qs s1) as [fs s2]. destruct IH as (A & B & C & D & F).
      repeat split; auto.
      * intro H. apply C in H. rewrite kunion_iff in H. destruct H as [[H|H]|(q' & ks' & H1 & H2)].
        -- auto.
        -- right. exists q, ks. simpl. auto.
        -- right. exists q', ks'. simpl. auto.
      * intro H. apply C. rewrite kunion_iff. destruct H as [H|(q' & ks' & [H1|H1] & H2)]; auto.
        -- injection H1 as <- <-. auto.
        -- right. exists q', ks'. auto.
      * intro H. apply D in H. destruct H as [H|(q' & ks' & n & H1 & H2 & H3)].
        -- unfold has_name in H. destruct (q_name q) as [[|x n]|] eqn:Eq; auto.
           rewrite kunion_iff in H. destruct H as [H|H]; auto.
           right. exists q, ks, (x :: n). simpl. repeat split; auto. discriminate.
        -- right. exists q', ks', n. simpl. tauto.
      * intro H. apply D. unfold has_name. destruct H as [H|(q' & ks' & n & [H1|H1] & H2 & H3 & H4)].
        -- left. destruct (q_name q) as [[|x n]|]; auto. rewrite kunion_iff. auto.
        -- injection H1 as <- <-. left. rewrite H3. destruct n; [congruence|]. rewrite kunion_iff. auto.
        -- right. exists q', ks', n. auto.
      * intro H. apply F. now apply kunion_nodup.
    + destruct (findings W qs s1) as [fs s2]. destruct IH as (A & B & C & D & F).
      repeat split; auto.
      * intro H. apply C in H. destruct H as [H|(q' & ks' & H1 & H2)]; auto.
        right. exists q', ks'. simpl. auto.
      * intro H. apply C. destruct H as [H|(q' & ks' & [H1|H1] & H2)]; auto.
        -- discriminate.
        -- right. exists q', ks'. auto.
      * intro H. apply D in H. destruct H as [H|(q' & ks' & n & H1 & H2)]; auto.
        right. exists q', ks', n. simpl. auto.
      * intro H. apply D. destruct H as [H|(q' & ks' & n & [H1|H1] & H2)]; auto.
        -- discriminate.
        -- right. exists q', ks', n. auto.
Qed.

(** ** The disable loop *)

Definition disjoint (all : list cls) (d : reasons) : Prop := forall k, In k all -> rget k d = None.

Lemma disable_loop : forall W qs c,
  disjoint (cs_all c) (cs_disabled c) ->
  (forall k r, rget k (cs_disabled c) = Some r -> r = RDisabled) ->
  let (fs, py) := findings W qs (cs_py c) in
  let c' := fold_left (disable_one W) qs c in
  cs_py c' = py /\ cs_named c' = cs_named c /\
  (forall k, In k (cs_all c') <-> In k (cs_all c) /\ ~ (found fs k /\ ~ In k (cs_named c))) /\
  (forall k, rget k (cs_disabled c') = Some RDisabled <->
             rget k (cs_disabled c) = Some RDisabled \/ (found fs k /\ ~ In k (cs_named c))) /\
  (forall k r, rget k (cs_disabled c') = Some r -> r = RDisabled) /\
  disjoint (cs_all c') (cs_disabled c') /\
  (NoDup (cs_all c) -> NoDup (cs_all c')).
Proof.
  intros W. induction qs as [|q qs IH]; intros c Hd Hr; cbn [findings fold_left].
  - repeat split; auto; try tauto.
    + intros [(q & ks & [] & _) _].
    + intros [H|[(q & ks & [] & _) _]]; auto.
  - specialize (IH (disable_one W c q)). unfold disable_one in *.
    destruct (find_rules W q (cs_py c)) as [r s1] eqn:E. destruct r as [ks|e]; cbn [cs_py cs_all cs_named cs_disabled] in IH.
    + set (d := rupdate (cs_disabled c) (filter (fun k => negb (kmem k (cs_named c))) ks) RDisabled) in *.
      assert (G : forall k, rget k d = if kmem k (filter (fun k => negb (kmem k (cs_named c))) ks) then Some RDisabled
                                       else rget k (cs_disabled c)) by (intro; apply rget_rupdate).
      assert (M : forall k, kmem k (filter (fun k => negb (kmem k (cs_named c))) ks) = true <->
                            In k ks /\ ~ In k (cs_named c)).
      { intro k. rewrite kmem_iff, filter_In, negb_true_iff, <- not_true_iff_false, kmem_iff. tauto. }
      assert (R : forall k r, rget k d = Some r -> r = RDisabled).
      { intros k r. rewrite G. destruct (kmem k _); [congruence|apply Hr]. }
      assert (D1 : disjoint (kminus (cs_all c) (rkeys d)) d).
      { intros k Hk. apply kminus_iff in Hk. destruct Hk as [_ Hk]. rewrite rkeys_iff in Hk.
        destruct (rget k d); auto. exfalso. apply Hk. discriminate. }
      specialize (IH D1 R).
      destruct (findings W qs s1) as [fs s2]. destruct IH as (A & B & C & D & F & I & J).
      assert (Fi : forall k, found ((q, Ok ks) :: fs) k <-> In k ks \/ found fs k).
      { intro k. split.
        - intros (q' & ks' & [H|H] & Hk).
          + injection H as <- <-. auto.
          + right. exists q', ks'. auto.
        - intros [H|(q' & ks' & H & Hk)].
          + exists q, ks. simpl. auto.
          + exists q', ks'. simpl. auto. }
      split; [exact A|]. split; [exact B|]. split; [|split; [|split; [exact F|split; [exact I|]]]].
      * intro k. rewrite C, kminus_iff, rkeys_iff, Fi. split.
        -- intros [[Ha Hn] Hf]. split; auto. intros [[Hk|Hk] Hm]; [|tauto].
           apply Hn. rewrite G. assert (Ht : kmem k (filter (fun k => negb (kmem k (cs_named c))) ks) = true) by (apply M; auto).
           rewrite Ht. discriminate.
        -- intros [Ha Hf]. split; [split; auto|tauto]. intro Hn. apply Hn. rewrite G.
           destruct (kmem k _) eqn:Ek; [|now apply Hd]. apply M in Ek. tauto.
      * intro k. rewrite D, G, Fi. destruct (kmem k _) eqn:Ek.
        -- apply M in Ek. tauto.
        -- assert (~ (In k ks /\ ~ In k (cs_named c))) by (rewrite <- M; congruence). tauto.
      * intro N. apply J. now apply kminus_nodup.
    + specialize (IH Hd Hr). destruct (findings W qs s1) as [fs s2]. destruct IH as (A & B & C & D & F & I & J).
      assert (Fi : forall k, found ((q, Err e) :: fs) k <-> found fs k).
      { intro k. split.
        - intros (q' & ks' & [H|H] & Hk); [discriminate|]. exists q', ks'. auto.
        - intros (q' & ks' & H & Hk). exists q', ks'. simpl. auto. }
      split; [exact A|]. split; [exact B|]. split; [|split; [|split; [exact F|split; [exact I|exact J]]]].
      * intro k. rewrite Fi. apply C.
      * intro k. rewrite Fi. apply D.
Qed.

(** ** The filters *)

Lemma iter_iff : forall W l k, fair_sets W -> In k (w_iter W l) <-> In k l.
Proof.
  intros W l k F. split; intro H; (eapply Permutation_in; [|exact H]); [apply F | apply Permutation_sym, F].
Qed.

Lemma tags_ok_iff : forall W c k, tags_ok W c k <-> tags_bool (c_tags c) = false \/ tags_contains (c_tags c) (TagColl (w_tags W (fst k))) = true.
Proof.
  intros W c k. unfold tags_ok. rewrite C21_contains. unfold tags_bool. split; [auto|]. intros [H|H]; [|exact H].
  destruct (t_include (c_tags c)); [|discriminate]. destruct (t_exclude (c_tags c)); [|discriminate]. split; [intros x _ []|auto].
Qed.

Lemma filter_tags_spec : forall W t all d, fair_sets W -> disjoint all d ->
  let (all', d') := filter_tags W t all d in
  let okt := fun k => tags_bool t = false \/ tags_contains t (TagColl (w_tags W (fst k))) = true in
  (forall k, In k all' <-> In k all /\ okt k) /\
  (forall k r, rget k d' = Some r <-> rget k d = Some r \/ (r = RTags /\ In k all /\ ~ okt k)) /\
  disjoint all' d' /\ (NoDup all -> NoDup all').
Proof.
  intros W t all d F Hd. unfold filter_tags. destruct (tags_bool t) eqn:Et.
  - set (bad := filter (fun k => negb (tags_contains t (TagColl (w_tags W (fst k))))) (w_iter W all)).
    assert (M : forall k, kmem k bad = true <-> In k all /\ ~ (true = false \/ tags_contains t (TagColl (w_tags W (fst k))) = true)).
    { intro k. unfold bad. rewrite kmem_iff, filter_In, iter_iff, negb_true_iff, <- not_true_iff_false by auto. intuition congruence. }
    assert (G : forall k, rget k (rupdate d bad RTags) = if kmem k bad then Some RTags else rget k d) by (intro; apply rget_rupdate).
    split; [|split; [|split]].
    + intro k. rewrite kminus_iff, rkeys_iff, G. destruct (kmem k bad) eqn:E.
      * apply M in E. split; [intros [_ H]; exfalso; apply H; discriminate | tauto].
      * split.
        -- intros [Ha _]. split; auto. destruct (tags_contains t (TagColl (w_tags W (fst k)))) eqn:Ec; auto.
           exfalso. assert (kmem k bad = true); [|congruence]. apply M. split; auto. intros [H|H]; congruence.
        -- intros [Ha _]. split; [exact Ha|]. rewrite (Hd k Ha). congruence.
    + intros k r. rewrite G. destruct (kmem k bad) eqn:E.
      * apply M in E. destruct E as [Ha Hn]. split.
        -- intro H. injection H as <-. right. auto.
        -- intros [H|[-> _]]; auto. rewrite (Hd k Ha) in H. discriminate.
      * split; [auto|]. intros [H|(_ & Ha & Hn)]; auto. assert (kmem k bad = true); [|congruence]. apply M. auto.
    + intros k Hk. apply kminus_iff in Hk. destruct Hk as [_ Hk]. rewrite rkeys_iff in Hk.
      destruct (rget k _); auto. exfalso. apply Hk. discriminate.
    + apply kminus_nodup.
  - repeat split; auto; try tauto.
Qed.

Lemma version_loop : forall W v (l acc bad : list cls),
  fold_res (fun acc (k : cls) => let! b := w_matches W v (w_version W (fst k)) in
                         Ok (if b : bool then acc else acc ++ [k])) l acc = Ok bad ->
  (forall k, In k l -> exists b, w_matches W v (w_version W (fst k)) = Ok b) /\
  forall k, In k bad <-> In k acc \/ (In k l /\ w_matches W v (w_version W (fst k)) = Ok false).
Proof.
  intros W v. induction l as [|x l IH]; intros acc bad H; cbn [fold_res] in H.
  - injection H as <-. split; [intros k []|]. intro k. simpl. tauto.
  - apply bind_ok in H. destruct H as (acc1 & H1 & H2). apply bind_ok in H1. destruct H1 as (b & Hb & H1).
    injection H1 as <-. destruct (IH _ _ H2) as [A B]. split.
    + intros k [<-|Hk]; eauto.
    + intro k. rewrite B. destruct b.
      * simpl. split; [tauto|]. intros [H|[[<-|H] Hm]]; auto. congruence.
      * rewrite in_app_iff. simpl. split; [intuition congruence|]. intros [H|[[<-|H] Hm]]; auto.
Qed.

Lemma filter_version_spec : forall W v all d all' d', fair_sets W -> disjoint all d ->
  filter_version W v all d = Ok (all', d') ->
  let okv := fun k : cls => forall x, v = Some x -> w_matches W x (w_version W (fst k)) = Ok true in
  (forall k, In k all' <-> In k all /\ okv k) /\
  (forall k r, rget k d' = Some r <-> rget k d = Some r \/ (r = RVersion /\ In k all /\ ~ okv k)) /\
  disjoint all' d' /\ (NoDup all -> NoDup all').
Proof.
  intros W v all d all' d' F Hd H. unfold filter_version in H. destruct v as [v|].
  - apply bind_ok in H. destruct H as (bad & Hb & H). injection H as <- <-.
    apply version_loop in Hb. destruct Hb as [T B].
    assert (M : forall k, kmem k bad = true <-> In k all /\ ~ (forall x, Some v = Some x -> w_matches W x (w_version W (fst k)) = Ok true)).
    { intro k. rewrite kmem_iff, B, iter_iff by auto. simpl. split.
      - intros [[]|[Ha Hm]]. split; auto. intro Hx. rewrite (Hx v eq_refl) in Hm. discriminate.
      - intros [Ha Hn]. right. split; auto. destruct (T k) as (b & Hb); [now apply iter_iff|].
        destruct b; auto. exfalso. apply Hn. intros x Hx. injection Hx as <-. auto. }
    assert (G : forall k, rget k (rupdate d bad RVersion) = if kmem k bad then Some RVersion else rget k d) by (intro; apply rget_rupdate).
    split; [|split; [|split]].
    + intro k. rewrite kminus_iff, rkeys_iff, G. destruct (kmem k bad) eqn:E.
      * apply M in E. split; [intros [_ H]; exfalso; apply H; discriminate | tauto].
      * split.
        -- intros [Ha _]. split; auto. intros x Hx. injection Hx as <-.
           destruct (T k) as (b & Hb); [now apply iter_iff|]. destruct b; auto.
           exfalso. assert (kmem k bad = true); [|congruence]. apply kmem_iff, B. right. split; auto. now apply iter_iff.
        -- intros [Ha _]. split; [exact Ha|]. rewrite (Hd k Ha). congruence.
    + intros k r. rewrite G. destruct (kmem k bad) eqn:E.
      * apply M in E. destruct E as [Ha Hn]. split.
        -- intro H. injection H as <-. right. auto.
        -- intros [H|[-> _]]; auto. rewrite (Hd k Ha) in H. discriminate.
      * split; [auto|]. intros [H|(_ & Ha & Hn)]; auto. assert (kmem k bad = true); [|congruence]. apply M. auto.
    + intros k Hk. apply kminus_iff in Hk. destruct Hk as [_ Hk]. rewrite rkeys_iff in Hk.
      destruct (rget k _); auto. exfalso. apply Hk. discriminate.
    + apply kminus_nodup.
  - injection H as <- <-. repeat split; auto; try tauto.
    + intros x Hx. discriminate.
    + intros [H|(_ & _ & H)]; auto. exfalso. apply H. intros x Hx. discriminate.
Qed.

(** ** collect_rules *)

Lemma collect_spec : forall W c s ks d s',
  fair_sets W -> collect_rules W c s = (Ok (ks, d), s') ->
  let (fe, s1) := findings W (c_enable c) (with_root_import W c s) in
  let (fd, s2) := findings W (c_disable c) s1 in
  let off := fun k => found fd k /\ ~ named fe k in
  (forall k, In k ks <-> found fe k /\ ~ off k /\ tags_ok W c k /\ version_ok W c k) /\
  NoDup ks /\
  (forall k r, rget k d = Some r <->
     match r with
     | RDisabled => off k
     | RTags => found fe k /\ ~ off k /\ ~ tags_ok W c k
     | RVersion => found fe k /\ ~ off k /\ tags_ok W c k /\ ~ version_ok W c k
     end) /\
  (forall k, In k ks -> rget k d = None).
Proof.
  intros W c s ks d s' F H. unfold collect_rules in H.
  assert (Hpy : snd (match import_dir W c with
    | None => (None, s)
    | Some p => let (b, sp) := enter_path p (ps_path s) in
                ((if b : bool then Some p else None), PyState sp (ps_modules s) (ps_gen s))
    end) = with_root_import W c s).
  { unfold with_root_import, on_path, enter_path, import_dir. destruct (c_import c) as [| |below]; auto;
    (destruct (existsb _ (ps_path s)); [now destruct s|reflexivity]). }
  destruct (match import_dir W c with
    | None => (None, s)
    | Some p => let (b, sp) := enter_path p (ps_path s) in
                ((if b : bool then Some p else None), PyState sp (ps_modules s) (ps_gen s))
    end) as [app py0]. cbn [snd] in Hpy. subst py0.
  pose proof (enable_loop W (c_enable c) (CState [] [] [] (with_root_import W c s))) as E. cbn [cs_py] in E.
  destruct (findings W (c_enable c) (with_root_import W c s)) as [fe s1].
  set (c1 := fold_left (enable_one W) (c_enable c) (CState [] [] [] (with_root_import W c s))) in *.
  cbn [cs_all cs_named cs_disabled] in E. destruct E as (E1 & E2 & E3 & E4 & E5).
  assert (Hd0 : disjoint (cs_all c1) (cs_disabled c1)) by (intros k _; now rewrite E2).
  assert (Hr0 : forall k r, rget k (cs_disabled c1) = Some r -> r = RDisabled) by (intros k r; rewrite E2; discriminate).
  pose proof (@disable_loop W (c_disable c) c1 Hd0 Hr0) as D. rewrite E1 in D.
  destruct (findings W (c_disable c) s1) as [fd s2].
  set (c2 := fold_left (disable_one W) (c_disable c) c1) in *.
  destruct D as (D1 & D2 & D3 & D4 & D5 & D6 & D7).
  pose proof (@filter_tags_spec W (c_tags c) (cs_all c2) (cs_disabled c2) F D6) as T.
  destruct (filter_tags W (c_tags c) (cs_all c2) (cs_disabled c2)) as [all3 d3].
  destruct T as (T1 & T2 & T3 & T4).
  match type of H with (match ?r with Ok _ => _ | Err _ => _ end = _) => destruct r as [rr|e] eqn:V end; [|discriminate].
  injection H as Hrr _. subst rr.
  apply bind_ok in V. destruct V as ([all4 d4] & V1 & V2).
  apply bind_ok in V2. destruct V2 as (news & _ & V2). injection V2 as <- <-.
  pose proof (@filter_version_spec W (c_python c) all3 d3 all4 d4 F T3 V1) as (V3 & V4 & V5 & V6).
  assert (O : forall k, (found fd k /\ ~ In k (cs_named c1)) <-> (found fd k /\ ~ named fe k)).
  { intro k. rewrite E4. simpl. tauto. }
  assert (All2 : forall k, In k (cs_all c2) <-> found fe k /\ ~ (found fd k /\ ~ named fe k)).
  { intro k. rewrite D3, E3, O. simpl. tauto. }
  assert (Dis2 : forall k, rget k (cs_disabled c2) = Some RDisabled <-> found fd k /\ ~ named fe k).
  { intro k. rewrite D4, E2, O. simpl. intuition discriminate. }
  split; [|split; [|split]].
  - intro k. rewrite iter_iff, V3, T1, All2, tags_ok_iff by auto. unfold version_ok. tauto.
  - eapply Permutation_NoDup; [apply Permutation_sym, F|]. apply V6, T4, D7, E5. constructor.
  - intros k r. rewrite V4, T2, T1, All2. pose proof (tags_ok_iff W c k) as To. unfold version_ok. destruct r.
    + rewrite Dis2. intuition discriminate.
    + split.
      * intros [[H|H]|[H _]]; [apply D5 in H; discriminate | tauto | discriminate].
      * tauto.
    + split.
      * intros [[H|[H _]]|H]; [apply D5 in H; discriminate | discriminate | tauto].
      * tauto.
  - intros k Hk. apply V5. now apply iter_iff in Hk.
Qed.

(** ** Failing entries *)

Definition same_cstate (a b : cstate) : Prop :=
  cs_all a = cs_all b /\ cs_named a = cs_named b /\ cs_disabled a = cs_disabled b /\ same_env (cs_py a) (cs_py b).

Lemma same_refl : forall a, same_cstate a a.
Proof. intro a. repeat split; auto. Qed.

Lemma enable_same : forall W q a b, same_cstate a b -> same_cstate (enable_one W a q) (enable_one W b q).
Proof.
  intros W q a b (A & B & C & D). unfold enable_one. destruct (find_rules_same W q D) as [E G].
  destruct (find_rules W q (cs_py a)) as [r p], (find_rules W q (cs_py b)) as [r' p']. cbn [fst snd] in *. subst r'.
  destruct r as [ks|e]; unfold same_cstate; cbn [cs_all cs_named cs_disabled cs_py]; rewrite ?A, ?B, ?C; auto.
Qed.

Lemma disable_same : forall W q a b, same_cstate a b -> same_cstate (disable_one W a q) (disable_one W b q).
Proof.
  intros W q a b (A & B & C & D). unfold disable_one. destruct (find_rules_same W q D) as [E G].
  destruct (find_rules W q (cs_py a)) as [r p], (find_rules W q (cs_py b)) as [r' p']. cbn [fst snd] in *. subst r'.
  destruct r as [ks|e]; unfold same_cstate; cbn [cs_all cs_named cs_disabled cs_py]; rewrite ?A, ?B, ?C; auto.
Qed.

Lemma fold_same : forall (f : cstate -> qrule -> cstate), (forall q a b, same_cstate a b -> same_cstate (f a q) (f b q)) ->
  forall l a b, same_cstate a b -> same_cstate (fold_left f l a) (fold_left f l b).
Proof. intros f H. induction l as [|q l IH]; intros a b S; cbn [fold_left]; auto. Qed.

Lemma enable_path : forall W l a, ps_path (cs_py (fold_left (enable_one W) l a)) = ps_path (cs_py a).
Proof.
  intros W. induction l as [|q l IH]; intro a; cbn [fold_left]; auto. rewrite IH. unfold enable_one.
  pose proof (find_rules_path W q (cs_py a)) as P. destruct (find_rules W q (cs_py a)) as [[ks|e] p]; auto.
Qed.

Lemma disable_path : forall W l a, ps_path (cs_py (fold_left (disable_one W) l a)) = ps_path (cs_py a).
Proof.
  intros W. induction l as [|q l IH]; intro a; cbn [fold_left]; auto. rewrite IH. unfold disable_one.
  pose proof (find_rules_path W q (cs_py a)) as P. destruct (find_rules W q (cs_py a)) as [[ks|e] p]; auto.
Qed.

Lemma enable_fail : forall W q a e, fst (find_rules W q (cs_py a)) = Err e -> same_cstate (enable_one W a q) a.
Proof.
  intros W q a e H. pose proof (@find_rules_fail_same W q (cs_py a) e H) as S. unfold enable_one.
  destruct (find_rules W q (cs_py a)) as [r p]. cbn [fst snd] in *. subst r. repeat split; auto; apply S.
Qed.

Lemma disable_fail : forall W q a e, fst (find_rules W q (cs_py a)) = Err e -> same_cstate (disable_one W a q) a.
Proof.
  intros W q a e H. pose proof (@find_rules_fail_same W q (cs_py a) e H) as S. unfold disable_one.
  destruct (find_rules W q (cs_py a)) as [r p]. cbn [fst snd] in *. subst r. repeat split; auto; apply S.
Qed.

Lemma loads_ok_false : forall W q s, loads_ok W (ps_path s) q = false -> exists e, fst (find_rules W q s) = Err e.
Proof.
  intros W q s H. unfold loads_ok in H. destruct (fst (find_rules W q (PyState (ps_path s) [] 0))) as [|e] eqn:E; [discriminate|].
  exists e. eapply find_rules_err; [|exact E]. reflexivity.
Qed.

Lemma enable_filter : forall W l a, same_cstate (fold_left (enable_one W) l a)
  (fold_left (enable_one W) (filter (loads_ok W (ps_path (cs_py a))) l) a).
Proof.
  intros W. induction l as [|q l IH]; intro a; cbn [fold_left filter]; [apply same_refl|].
  pose proof (IH (enable_one W a q)) as I.
  pose proof (enable_path W [q] a) as P. cbn [fold_left] in P. rewrite P in I.
  destruct (loads_ok W (ps_path (cs_py a)) q) eqn:E; [exact I|].
  apply loads_ok_false in E. destruct E as (e & E).
  pose proof (enable_fail W q a E) as S.
  pose proof (fold_same (enable_one W) (@enable_same W) (filter (loads_ok W (ps_path (cs_py a))) l) S) as T.
  destruct I as (A & B & C & [D D']), T as (A2 & B2 & C2 & [D2 D2']). repeat split; congruence.
Qed.

Lemma disable_filter : forall W l a, same_cstate (fold_left (disable_one W) l a)
  (fold_left (disable_one W) (filter (loads_ok W (ps_path (cs_py a))) l) a).
Proof.
  intros W. induction l as [|q l IH]; intro a; cbn [fold_left filter]; [apply same_refl|].
  pose proof (IH (disable_one W a q)) as I.
  pose proof (disable_path W [q] a) as P. cbn [fold_left] in P. rewrite P in I.
  destruct (loads_ok W (ps_path (cs_py a)) q) eqn:E; [exact I|].
  apply loads_ok_false in E. destruct E as (e & E).
  pose proof (disable_fail W q a E) as S.
  pose proof (fold_same (disable_one W) (@disable_same W) (filter (loads_ok W (ps_path (cs_py a))) l) S) as T.
  destruct I as (A & B & C & [D D']), T as (A2 & B2 & C2 & [D2 D2']). repeat split; congruence.
Qed.

Lemma collect_without_failing : forall W c s,
  fst (collect_rules W c s) = fst (collect_rules W (without_failing W c s) s) /\
  ps_path (snd (collect_rules W c s)) = ps_path (snd (collect_rules W (without_failing W c s) s)).
Proof.
  intros W c s. unfold collect_rules.
  change (import_dir W (without_failing W c s)) with (import_dir W c).
  assert (Hpy : snd (match import_dir W c with
    | None => (None, s)
    | Some p => let (b, sp) := enter_path p (ps_path s) in
                ((if b : bool then Some p else None), PyState sp (ps_modules s) (ps_gen s))
    end) = with_root_import W c s).
  { unfold with_root_import, on_path, enter_path, import_dir. destruct (c_import c) as [| |below]; auto;
    (destruct (existsb _ (ps_path s)); [now destruct s|reflexivity]). }
  destruct (match import_dir W c with
    | None => (None, s)
    | Some p => let (b, sp) := enter_path p (ps_path s) in
                ((if b : bool then Some p else None), PyState sp (ps_modules s) (ps_gen s))
    end) as [app py0]. cbn [snd] in Hpy. subst py0.
  set (c0 := CState [] [] [] (with_root_import W c s)).
  pose proof (enable_filter W (c_enable c) c0) as E.
  set (c1 := fold_left (enable_one W) (c_enable c) c0) in *.
  pose proof (disable_filter W (c_disable c) c1) as D.
  assert (P : ps_path (cs_py c1) = ps_path (cs_py c0)) by apply enable_path. rewrite P in D.
  pose proof (fold_same (disable_one W) (@disable_same W) (filter (loads_ok W (ps_path (cs_py c0))) (c_disable c)) E) as D'.
  change (c_enable (without_failing W c s)) with (filter (loads_ok W (ps_path (cs_py c0))) (c_enable c)).
  change (c_disable (without_failing W c s)) with (filter (loads_ok W (ps_path (cs_py c0))) (c_disable c)).
  set (a := fold_left (disable_one W) (c_disable c) c1) in *.
  set (b := fold_left (disable_one W) _ (fold_left (enable_one W) _ c0)) in *.
  change (c_tags (without_failing W c s)) with (c_tags c). change (c_python (without_failing W c s)) with (c_python c).
  assert (S : cs_all a = cs_all b /\ cs_disabled a = cs_disabled b /\ ps_path (cs_py a) = ps_path (cs_py b)).
  { destruct D as (A1 & _ & C1 & [D1 _]), D' as (A2 & _ & C2 & [D2 _]). repeat split; congruence. }
  destruct S as (S1 & S2 & S3). rewrite S1, S2.
  destruct (filter_tags W (c_tags c) (cs_all b) (cs_disabled b)) as [all d].
  match goal with |- context [match ?r with Ok _ => _ | Err _ => _ end] => destruct r end; cbn [fst snd]; auto.
  split; auto. destruct app; cbn [ps_path]; congruence.
Qed.

(** ** sys.path *)

Lemma remove_first_append : forall p l, existsb (str_eqb p) l = false -> remove_first p (l ++ [p]) = l.
Proof.
  intros p l. induction l as [|x l IH]; cbn [existsb app]; intro H; unfold remove_first in *.
  - rewrite str_eqb_refl. reflexivity.
  - apply orb_false_iff in H. destruct H as [H1 H2]. rewrite H1. f_equal. now apply IH.
Qed.

Lemma collect_path_ok : forall W c s r s', collect_rules W c s = (Ok r, s') -> ps_path s' = ps_path s.
Proof.
  intros W c s r s' H. unfold collect_rules in H.
  set (x := match import_dir W c with None => _ | Some p => _ end) in H.
  destruct x as [app py0] eqn:X. subst x.
  set (c1 := fold_left (enable_one W) (c_enable c) (CState [] [] [] py0)) in H.
  set (c2 := fold_left (disable_one W) (c_disable c) c1) in H.
  assert (P : ps_path (cs_py c2) = ps_path py0).
  { unfold c2. rewrite disable_path. unfold c1. rewrite enable_path. reflexivity. }
  destruct (filter_tags W (c_tags c) (cs_all c2) (cs_disabled c2)) as [all d].
  match type of H with (match ?r with Ok _ => _ | Err _ => _ end = _) => destruct r as [x|e] end; [|discriminate].
  injection H as _ <-. destruct (import_dir W c) as [p|].
  - unfold enter_path in X. destruct (existsb (str_eqb p) (ps_path s)) eqn:E; injection X as <- <-.
    + exact P.
    + cbn [ps_path] in *. rewrite P. now apply remove_first_append.
  - injection X as <- <-. exact P.
Qed.

(** ** sys.modules *)

Lemma find_rules_modules : forall W q s, is_local q = true ->
  exists added, ps_modules (snd (find_rules W q s)) = purge_local (added ++ ps_modules s).
Proof.
  intros W q s L. unfold find_rules.
  assert (I : exists added, ps_modules (snd (import_rules W q s)) = purge_local (added ++ ps_modules s)).
  { unfold import_rules, is_local in *. destruct (q_local q) as [[|c l]|]; try discriminate.
    destruct (q_root q) as [r|].
    - destruct (w_local W (ps_path s) r (q_module q)) as [added m]. exists (added ++ [fixit_local]). rewrite <- app_assoc. reflexivity.
    - exists [fixit_local]. reflexivity. }
  destruct (import_rules W q s) as [r s']. cbn [snd] in *. destruct I as (added & I). exists added. rewrite <- I.
  match goal with |- ps_modules (match ?f with _ => _ end) = _ => destruct f end; destruct (q_local q) as [[|]|]; reflexivity.
Qed.

(** ** validate_config *)

Lemma loads_ok_iff : forall W q s, loads_ok W (ps_path s) q = true <-> exists ks, fst (find_rules W q s) = Ok ks.
Proof.
  intros W q s. split.
  - intro H. destruct (fst (find_rules W q s)) as [ks|e] eqn:E; eauto.
    unfold loads_ok in H. apply (@find_rules_err W q s (PyState (ps_path s) [] 0) e eq_refl) in E. rewrite E in H. discriminate.
  - intros (ks & H). destruct (loads_ok W (ps_path s) q) eqn:E; auto. apply loads_ok_false in E. destruct E as (e & E). congruence.
Qed.

Lemma validate_rule_eq : forall W root ctx msgs py rule,
  fst (validate_rule W root ctx (msgs, py) rule) = msgs ++ verdict W root (ps_path py) ctx rule /\
  ps_path (snd (validate_rule W root ctx (msgs, py) rule)) = ps_path py.
Proof.
  intros W root ctx msgs py rule. unfold validate_rule, verdict.
  destruct (parse_rule_toml rule root) as [q|e]; [|auto].
  pose proof (find_rules_path W q py) as P. 
  pose proof (@find_rules_err W q py (PyState (ps_path py) [] 0)) as E1.
  pose proof (@find_rules_err W q (PyState (ps_path py) [] 0) py) as E2.
  destruct (find_rules W q py) as [[ks|e] py']; cbn [fst snd] in *.
  - destruct (fst (find_rules W q (PyState (ps_path py) [] 0))) as [ks'|e'] eqn:E.
    + rewrite app_nil_r. auto.
    + specialize (E2 e' eq_refl eq_refl). discriminate.
  - rewrite (E1 e eq_refl eq_refl). auto.
Qed.

Lemma validate_rules_fold : forall W root ctx l msgs py,
  fst (fold_left (validate_rule W root ctx) l (msgs, py)) = msgs ++ flat_map (verdict W root (ps_path py) ctx) l /\
  ps_path (snd (fold_left (validate_rule W root ctx) l (msgs, py))) = ps_path py.
Proof.
  intros W root ctx. induction l as [|r l IH]; intros msgs py; cbn [fold_left flat_map].
  - rewrite app_nil_r. auto.
  - destruct (validate_rule_eq W root ctx msgs py r) as [A B].
    destruct (validate_rule W root ctx (msgs, py) r) as [m p]. cbn [fst snd] in *.
    destruct (IH m p) as [C D]. rewrite C, D, A, B, app_assoc. auto.
Qed.

Definition judge (W : world) (root : path) (sp : list str) (e : str * toml) : list message :=
  verdict W root sp (fst e) (snd e).

Lemma flat_map_pair : forall W root sp ctx l,
  flat_map (judge W root sp) (map (pair ctx) l) = flat_map (verdict W root sp ctx) l.
Proof. intros. induction l as [|x l IH]; cbn [map flat_map]; auto. now rewrite IH. Qed.

Lemma validate_rules_eq : forall W root key ctx d msgs py, array_or_absent key d ->
  exists py', validate_rules W root (dget (u key) d) ctx (msgs, py) =
    ((msgs ++ flat_map (judge W root (ps_path py)) (map (pair ctx) (elements key d)), py'), None) /\ ps_path py' = ps_path py.
Proof.
  intros W root key ctx d msgs py H. unfold validate_rules, elements. rewrite flat_map_pair.
  destruct H as [H|(l & H)]; rewrite H.
  - exists py. rewrite app_nil_r. auto.
  - cbn [iter_toml]. destruct (validate_rules_fold W root ctx l msgs py) as [A B].
    destruct (fold_left (validate_rule W root ctx) l (msgs, py)) as [m p]. cbn [fst snd] in *. subst m. eauto.
Qed.

Definition good_override (o : toml) : Prop :=
  exists t, o = TTab t /\ array_or_absent "enable" t /\ array_or_absent "disable" t /\
    (dget (u "path") t = None \/ exists p, dget (u "path") t = Some (TStr p)).

Lemma validate_override_eq : forall W root o msgs py, good_override o ->
  exists py', validate_override W root (msgs, py) o =
    ((msgs ++ flat_map (judge W root (ps_path py)) (override_entries o), py'), None) /\ ps_path py' = ps_path py.
Proof.
  intros W root o msgs py (t & -> & He & Hd & Hp). unfold validate_override, override_entries.
  rewrite flat_map_app.
  destruct (validate_rules_eq W root (u "override enable") msgs py He) as (p1 & E1 & P1).
  destruct (@validate_rules_eq W root "disable" (u "override disable") t
    (msgs ++ flat_map (judge W root (ps_path py)) (map (pair (u "override enable")) (elements "enable" t))) p1 Hd) as (p2 & E2 & P2).
  rewrite P1 in E2. exists p2. split; [|congruence].
  destruct Hp as [Hp|(p & Hp)]; rewrite Hp, E1, E2, app_assoc; reflexivity.
Qed.

Lemma validate_overrides_eq : forall W root l msgs py, (forall o, In o l -> good_override o) ->
  exists py', validate_overrides W root l (msgs, py) =
    ((msgs ++ flat_map (judge W root (ps_path py)) (flat_map override_entries l), py'), None) /\ ps_path py' = ps_path py.
Proof.
  intros W root. induction l as [|o l IH]; intros msgs py H; cbn [validate_overrides flat_map].
  - exists py. rewrite app_nil_r. auto.
  - destruct (@validate_override_eq W root o msgs py (H o (or_introl eq_refl))) as (p1 & E1 & P1). rewrite E1.
    destruct (IH (msgs ++ flat_map (judge W root (ps_path py)) (override_entries o)) p1) as (p2 & E2 & P2).
    { intros x Hx. apply H. simpl. auto. }
    exists p2. rewrite E2, P1, flat_map_app, app_assoc. split; auto. congruence.
Qed.

Lemma validate_eq : forall W E F p py rc, read_configs E F [p] = Ok [rc] -> well_typed (rc_data rc) ->
  fst (validate_config W E F p py) = flat_map (judge W (parent p) (ps_path py)) (entries (rc_data rc)).
Proof.
  intros W E F p py rc H (He & Hd & Ho & Hg). unfold validate_config, validate_body. rewrite H.
  set (root := parent p). set (d := rc_data rc) in *.
  destruct (@validate_rules_eq W root "enable" (u "global enable") d [] py He) as (p1 & E1 & P1).
  rewrite E1. cbn [app].
  destruct (@validate_rules_eq W root "disable" (u "global disable") d
     (flat_map (judge W root (ps_path py)) (map (pair (u "global enable")) (elements "enable" d))) p1 Hd) as (p2 & E2 & P2).
  rewrite E2. unfold entries. rewrite !flat_map_app. rewrite P1 in *.
  assert (He3 : elements "overrides" d = match dget (u "overrides") d with Some (TArr l) => l | _ => [] end) by reflexivity.
  rewrite He3. destruct Ho as [Ho|(l & Ho)]; rewrite Ho.
  - cbn [fst flat_map]. rewrite !app_nil_r. reflexivity.
  - cbn [iter_toml].
    set (msgs := flat_map _ _ ++ flat_map _ _).
    destruct (@validate_overrides_eq W root l msgs p2) as (p3 & E3 & P3).
    { intros o Hi. apply Hg. unfold elements. rewrite Ho. exact Hi. }
    rewrite E3. cbn [fst]. unfold msgs. rewrite P2, <- app_assoc. reflexivity.
Qed.
