(** * C14: when collecting rules raises *)
From Coq Require Import String List NArith ZArith Bool Arith Lia Permutation.
From Verif Require Import Base PyStr Ftypes Paths Config ConfigSpec ConfigFacts Collect CollectSpec CollectFacts CollectSelect CollectProps TagsProps.
Import ListNotations.

Lemma map_res_total : forall A B (f : A -> res B) l, (exists ys, map_res f l = Ok ys) <-> forall x, In x l -> exists y, f x = Ok y.
Proof.
  intros A B f l. split.
  - intros (ys & H) x I. apply map_res_ok in H. induction H as [|a b l l' Ha _ IH]; [contradiction|]. destruct I as [<-|I]; eauto.
  - induction l as [|x l IH]; intro H; [exists []; reflexivity|]. destruct (H x (or_introl eq_refl)) as (y & Hy).
    destruct IH as (ys & Hys); [intros; apply H; simpl; auto|]. exists (y :: ys). cbn [map_res]. rewrite Hy. cbn [bind]. now rewrite Hys.
Qed.

Lemma version_total : forall W v (l : list cls),
  (forall k, In k l -> exists b, w_matches W v (w_version W (fst k)) = Ok b) -> forall acc,
  exists bad, fold_res (fun acc (k : cls) => let! b := w_matches W v (w_version W (fst k)) in
                         Ok (if b : bool then acc else acc ++ [k])) l acc = Ok bad.
Proof.
  intros W v. induction l as [|x l IH]; intros H acc; cbn [fold_res]; [eauto|].
  destruct (H x (or_introl eq_refl)) as (b & ->). cbn [bind]. apply IH. intros; apply H; simpl; auto.
Qed.

(** Collecting rules raises nothing, whatever fails to import, iff every rule that is enabled and has the right tags has a valid version
    specifier (if a version is asked for), and every rule that is selected can be instantiated. *)
Theorem C14_raises : forall W c s fe s1 fd s2,
  fair_sets W ->
  findings W (c_enable c) (with_root_import W c s) = (fe, s1) -> findings W (c_disable c) s1 = (fd, s2) ->
  (exists r, fst (collect_rules W c s) = Ok r) <->
  (forall k, found fe k -> ~ (found fd k /\ ~ named fe k) -> tags_ok W c k ->
     (forall v, c_python c = Some v -> exists b, w_matches W v (w_version W (fst k)) = Ok b) /\
     (version_ok W c k -> exists x, w_new W (fst k) = Ok x)).
Proof.
  intros W c s fe s1 fd s2 F Hfe Hfd. unfold collect_rules.
  assert (Hpy : snd (match import_dir W c with
    | None => (None, s)
    | Some p => let (b, sp) := enter_path p (ps_path s) in
                ((if b : bool then Some p else None), PyState sp (ps_modules s) (ps_gen s))
    end) = with_root_import W c s).
  { unfold with_root_import, on_path, enter_path, import_dir. destruct (c_import c) as [| |below]; auto;
    (destruct (existsb _ (ps_path s)); [now destruct s|reflexivity]). }
  destruct (match import_dir W c with
    | None => (None, s)
    | Some p => let (b, sp) := enter_path p (ps_path s) in
                ((if b : bool then Some p else None), PyState sp (ps_modules s) (ps_gen s))
    end) as [app py0]. cbn [snd] in Hpy. subst py0.
  pose proof (enable_loop W (c_enable c) (CState [] [] [] (with_root_import W c s))) as E. cbn [cs_py] in E. rewrite Hfe in E.
  set (c1 := fold_left (enable_one W) (c_enable c) (CState [] [] [] (with_root_import W c s))) in *.
  cbn [cs_all cs_named cs_disabled] in E. destruct E as (E1 & E2 & E3 & E4 & E5).
  assert (Hd0 : disjoint (cs_all c1) (cs_disabled c1)) by (intros k _; now rewrite E2).
  assert (Hr0 : forall k r, rget k (cs_disabled c1) = Some r -> r = RDisabled) by (intros k r; rewrite E2; discriminate).
  pose proof (@disable_loop W (c_disable c) c1 Hd0 Hr0) as D. rewrite E1, Hfd in D.
  set (c2 := fold_left (disable_one W) (c_disable c) c1) in *.
  destruct D as (D1 & D2 & D3 & D4 & D5 & D6 & D7).
  pose proof (@filter_tags_spec W (c_tags c) (cs_all c2) (cs_disabled c2) F D6) as T.
  destruct (filter_tags W (c_tags c) (cs_all c2) (cs_disabled c2)) as [all3 d3].
  destruct T as (T1 & T2 & T3 & T4).
  assert (All : forall k, In k all3 <-> found fe k /\ ~ (found fd k /\ ~ named fe k) /\ tags_ok W c k).
  { intro k. rewrite T1, D3, E3, tags_ok_iff. assert (O : (found fd k /\ ~ In k (cs_named c1)) <-> (found fd k /\ ~ named fe k)) by (rewrite E4; simpl; tauto).
    rewrite O. simpl. tauto. }
  match goal with |- (exists r, fst (match ?x with Ok _ => _ | Err _ => _ end) = Ok r) <-> _ => set (m := x) end.
  assert (M : (exists r, fst (match m with Ok _ => (m, match app with None => cs_py c2 | Some p => PyState (remove_first p (ps_path (cs_py c2))) (ps_modules (cs_py c2)) (ps_gen (cs_py c2)) end) | Err _ => (m, cs_py c2) end) = Ok r) <-> exists r, m = Ok r).
  { destruct m as [x|e]; cbn [fst]; split; eauto. }
  rewrite M. clear M. unfold m. clear m. split.
  - intros (r & H) k Fo Of To. apply bind_ok in H. destruct H as ([all4 d4] & V & H). apply bind_ok in H. destruct H as (news & N & H).
    pose proof (@filter_version_spec W (c_python c) all3 d3 all4 d4 F T3 V) as (V3 & _ & _ & _).
    assert (I : In k all3) by (apply All; auto). split.
    + intros v Ev. unfold filter_version in V. rewrite Ev in V. apply bind_ok in V. destruct V as (bad & Vb & _).
      apply version_loop in Vb. apply Vb. now apply iter_iff.
    + intro Vo. assert (I4 : In k all4) by (apply V3; split; auto). assert (X : exists y, w_new W (fst k) = Ok y); [|exact X].
      apply (proj1 (map_res_total _ _ (fun k => w_new W (fst k)) (w_iter W all4)) (ex_intro _ _ N)). now apply iter_iff.
  - intro H.
    assert (V : exists all4 d4, filter_version W (c_python c) all3 d3 = Ok (all4, d4)).
    { unfold filter_version. destruct (c_python c) as [v|] eqn:Ev; [|eauto].
      assert (X : forall k, In k (w_iter W all3) -> exists b, w_matches W v (w_version W (fst k)) = Ok b).
      { intros k I. apply iter_iff in I; auto. apply All in I. destruct I as (A & B & C). destruct (H k A B C) as [X _]. now apply X. }
      pose proof (version_total W v _ X []) as (bad & Vb).
      eexists _, _. etransitivity; [apply f_equal2; [exact Vb|reflexivity]|]. cbn [bind]. reflexivity. }
    destruct V as (all4 & d4 & V). rewrite V. cbn [bind].
    pose proof (@filter_version_spec W (c_python c) all3 d3 all4 d4 F T3 V) as (V3 & _ & _ & _).
    destruct (proj2 (map_res_total _ _ (fun k => w_new W (fst k)) (w_iter W all4))) as (news & ->); [|cbn [bind]; eauto].
    intros k I. apply iter_iff in I; auto. apply V3 in I. destruct I as [I Vo]. apply All in I. destruct I as (A & B & C). destruct (H k A B C) as [_ X]. apply X. exact Vo.
Qed.

(** A world in which it raises, and one in which it does not: see C19_leak_refuted and C14's examples. *)
Example C14_raises_example :
  (exists r, fst (collect_rules W0 (conf [rule "inv" None] [] no_tags None) S0) = Ok r) /\
  ~ (exists r, fst (collect_rules W0 (conf [rule "inv" None] [] no_tags (Some (u "3.10"))) S0) = Ok r) /\
  found (fst (findings W0 (c_enable (conf [rule "inv" None] [] no_tags None)) (with_root_import W0 (conf [rule "inv" None] [] no_tags None) S0))) (9%N, None).
Proof. split; [eexists; vm_compute; reflexivity|]. split; [intros (r & H); vm_compute in H; discriminate|]. eexists _, _. split; [left; vm_compute; reflexivity|]. vm_compute. auto. Qed.
