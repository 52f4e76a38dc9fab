(** * C82: rules collected for several requests at once *)
From Coq Require Import String List NArith ZArith Bool Arith Lia Permutation.
From Verif Require Import Base PyStr Ftypes Paths Config Collect CollectSpec CollectFacts CollectSelect Threads.
Import ListNotations.

(** ** Vocabulary *)

(** Everything that can happen, starting with requests for [cs] and the interpreter in state [py]. *)
Definition happens (W : world) (py : pystate) (cs : list config) (m : many) : Prop := exists l, turns W (start py cs) l = Some m.

(** What a request has put on sys.path and not taken away. *)
Definition holds (q : request) : list str :=
  match q_place q with
  | Inside (Some d) _ _ _ | Removing d _ | Over _ (Some d) => [d]
  | _ => []
  end.

(** The request is importing rules. *)
Definition importing (q : request) : Prop := exists own g en dis, q_place q = Inside own g en dis.

Definition result_of (q : request) : option (res (list cls * reasons)) := match q_place q with Over r _ => Some r | _ => None end.

(** ** Schedules *)

Lemma happens_ind : forall W py cs (P : many -> Prop), P (start py cs) ->
  (forall m i m', happens W py cs m -> P m -> turn W m i = Some m' -> P m') -> forall m, happens W py cs m -> P m.
Proof.
  intros W py cs P H0 HS m (l & H). revert m H. induction l as [|i l IH] using rev_ind; intros m H.
  - injection H as <-. exact H0.
  - assert (A : forall a m0, turns W m0 (a ++ [i]) = match turns W m0 a with Some m1 => turn W m1 i | None => None end).
    { induction a as [|j a IHa]; intro m0; cbn [app turns]; [now destruct (turn W m0 i)|]. destruct (turn W m0 j); auto. }
    rewrite A in H. destruct (turns W (start py cs) l) as [m1|] eqn:E; [|discriminate]. apply (HS m1 i m); auto. exists l. exact E.
Qed.

Lemma turn_inv : forall W m i m', turn W m i = Some m' -> exists a q b py q', m_requests m = a ++ q :: b /\ i = List.length a /\ act W (m_py m) q = Some (py, q') /\ m' = Many py (a ++ q' :: b).
Proof.
  intros W m i m' H. unfold turn in H. destruct (nth_error (m_requests m) i) as [q|] eqn:N; [|discriminate].
  destruct (act W (m_py m) q) as [[py q']|] eqn:A; [|discriminate]. assert (m' = Many py (firstn i (m_requests m) ++ q' :: skipn (S i) (m_requests m))) as -> by congruence. clear H.
  destruct (nth_error_split _ _ N) as (a & b & E & L). exists a, q, b, py, q'. split; auto. split; auto. split; auto. rewrite E, <- L.
  assert (A1 : firstn (List.length a) (a ++ q :: b) = a) by (rewrite firstn_app, Nat.sub_diag, firstn_all; apply app_nil_r).
  assert (A2 : skipn (S (List.length a)) (a ++ q :: b) = b).
  { rewrite skipn_app, skipn_all2 by lia. replace (S (List.length a) - List.length a) with 1 by lia. reflexivity. }
  rewrite A1, A2. reflexivity.
Qed.

Lemma enable_one_path : forall W s q, ps_path (cs_py (enable_one W s q)) = ps_path (cs_py s).
Proof. intros W s q. exact (enable_path W [q] s). Qed.
Lemma disable_one_path : forall W s q, ps_path (cs_py (disable_one W s q)) = ps_path (cs_py s).
Proof. intros W s q. exact (disable_path W [q] s). Qed.

Lemma existsb_in : forall d l, existsb (str_eqb d) l = true <-> In d l.
Proof.
  intros d l. rewrite existsb_exists. split.
  - intros (x & I & E). apply str_eqb_eq in E. now subst.
  - intro I. exists d. split; auto. apply str_eqb_refl.
Qed.

Lemma remove_prefix : forall d a b, ~ In d a -> remove_first d (a ++ b) = a ++ remove_first d b.
Proof.
  intros d a b N. induction a as [|x a IH]; [reflexivity|]. cbn [app remove_first]. fold (remove_first d (a ++ b)).
  destruct (str_eqb d x) eqn:E; [apply str_eqb_eq in E; subst; exfalso; apply N; simpl; auto|]. f_equal. apply IH. intro I. apply N. simpl. auto.
Qed.

Lemma remove_in : forall d l, In d l -> Permutation l (d :: remove_first d l).
Proof.
  intros d l. induction l as [|x l IH]; intro I; [contradiction|]. cbn [remove_first]. fold (remove_first d l).
  destruct (str_eqb d x) eqn:E; [apply str_eqb_eq in E; now subst|]. destruct I as [->|I]; [rewrite str_eqb_refl in E; discriminate|].
  rewrite (IH I) at 1. apply perm_swap.
Qed.

(** Another request is for the same directory. *)
Definition shared_dir (W : world) (cs : list config) (i : nat) (d : str) : Prop :=
  exists j c, j <> i /\ nth_error cs j = Some c /\ import_dir W c = Some d.

(** sys.path and the requests: what there was comes first, then what the requests hold. *)
Definition in_order (W : world) (p0 : list str) (cs : list config) (m : many) : Prop :=
  (exists suf, ps_path (m_py m) = p0 ++ suf /\ Permutation suf (flat_map holds (m_requests m)) /\ forall x, In x suf -> ~ In x p0) /\
  map q_config (m_requests m) = cs /\
  forall i q, nth_error (m_requests m) i = Some q ->
    match q_place q with
    | Testing => True
    | Appending d => import_dir W (q_config q) = Some d /\ ~ In d p0
    | Inside (Some d) _ _ _ | Removing d _ => import_dir W (q_config q) = Some d
    | Over r (Some d) => import_dir W (q_config q) = Some d /\ exists e, r = Err e
    | Inside None _ _ _ => forall d, import_dir W (q_config q) = Some d -> In d p0 \/ shared_dir W cs i d
    | Over _ None => True
    end.

Lemma nth_replace : forall {A} (a b : list A) (x y : A) i z, nth_error (a ++ y :: b) i = Some z ->
  (i = List.length a /\ z = y) \/ (i <> List.length a /\ nth_error (a ++ x :: b) i = Some z).
Proof.
  intros A a b x y i z H. destruct (Nat.eq_dec i (List.length a)) as [->|N].
  - left. rewrite nth_error_app2, Nat.sub_diag in H by auto. injection H as <-. auto.
  - right. split; auto. destruct (Nat.lt_ge_cases i (List.length a)) as [L|L].
    + rewrite nth_error_app1 in * by auto. exact H.
    + rewrite nth_error_app2 in * by auto. destruct (i - List.length a) as [|k] eqn:E; [lia|]. exact H.
Qed.

Lemma holder : forall rs d, In d (flat_map holds rs) -> exists j q, nth_error rs j = Some q /\ In d (holds q).
Proof. intros rs d I. apply in_flat_map in I. destruct I as (q & I & J). destruct (In_nth_error _ _ I) as (j & N). eauto. Qed.

Lemma order_happens : forall W py cs m, happens W py cs m -> in_order W (ps_path py) cs m.
Proof.
  intros W py cs. apply happens_ind.
  - split; [|split].
    + exists []. cbn [start m_py m_requests]. rewrite app_nil_r. split; auto. split; [|intros x []].
      assert (E : flat_map holds (map (fun c => Request c Testing) cs) = []) by (induction cs; auto). rewrite E. constructor.
    + cbn [start m_requests]. rewrite map_map. apply map_id.
    + intros i q N. cbn [start m_requests] in N. apply nth_error_In in N. apply in_map_iff in N. destruct N as (c & <- & _). exact I.
  - intros m i m' _ ((suf & Ep & Pe & Ns) & Ec & Pl) T.
    apply turn_inv in T. destruct T as (a & q & b & py' & q' & E & Ei & A & ->). cbn [m_py m_requests]. rewrite E in *.
    assert (Nq : nth_error (a ++ q :: b) i = Some q) by (subst i; rewrite nth_error_app2, Nat.sub_diag by auto; reflexivity).
    pose proof (Pl i q Nq) as Pq.
    (* it suffices to look at the request that acts *)
    assert (Go : q_config q' = q_config q ->
       (exists suf', ps_path py' = ps_path py ++ suf' /\ Permutation (suf' ++ holds q) (suf ++ holds q') /\ forall x, In x suf' -> ~ In x (ps_path py)) ->
       match q_place q' with
       | Testing => True
       | Appending d => import_dir W (q_config q') = Some d /\ ~ In d (ps_path py)
       | Inside (Some d) _ _ _ | Removing d _ => import_dir W (q_config q') = Some d
       | Over r (Some d) => import_dir W (q_config q') = Some d /\ exists e, r = Err e
       | Inside None _ _ _ => forall d, import_dir W (q_config q') = Some d -> In d (ps_path py) \/ shared_dir W cs i d
       | Over _ None => True
       end -> in_order W (ps_path py) cs (Many py' (a ++ q' :: b))).
    { intros Cq (suf' & Ep' & Pe' & Ns') Pq'. split; [|split]; cbn [m_py m_requests].
      - exists suf'. split; auto. split; auto.
        rewrite flat_map_app in *. cbn [flat_map] in *. apply (Permutation_app_inv_r (holds q)). rewrite Pe', Pe.
        rewrite <- !app_assoc. apply Permutation_app_head. rewrite (Permutation_app_comm (holds q)), <- app_assoc, Permutation_app_comm, <- app_assoc.
        rewrite (Permutation_app_comm (flat_map holds b)), (Permutation_app_comm (holds q')), <- app_assoc. apply Permutation_refl.
      - rewrite map_app in *. cbn [map] in *. now rewrite Cq.
      - intros k z N. destruct (nth_replace a b q q' k z N) as [[Ek ->]|[_ N']]; [subst k; rewrite <- Ei; exact Pq'|exact (Pl k z N')]. }
    destruct q as [c pl]. unfold act in A. cbn [q_config q_place] in *.
    destruct pl as [|d|own g [|x en] [|y dis]|d r|r lk]; cbv zeta in A.
    + injection A as <- <-. apply Go; [reflexivity| |]; cbn [q_place q_config].
      * exists suf. split; auto. split; auto. unfold holds. cbn [q_place]. destruct (import_dir W c) as [d|]; auto.
        destruct (existsb (str_eqb d) (ps_path (m_py m))); auto.
      * destruct (import_dir W c) as [d|] eqn:Ed; [|intros d X; discriminate]. destruct (existsb (str_eqb d) (ps_path (m_py m))) eqn:Ex.
        -- apply existsb_in in Ex. rewrite Ep in Ex. intros d0 X. injection X as <-. apply in_app_iff in Ex. destruct Ex as [Ex|Ex]; auto. right.
           apply (Permutation_in _ Pe) in Ex. destruct (holder _ _ Ex) as (j & q2 & Nj & Hj). pose proof (Pl j q2 Nj) as Pj.
           assert (import_dir W (q_config q2) = Some d).
           { unfold holds in Hj. destruct (q_place q2) as [| |[d'|] g2 e2 d2|d' r2|r2 [d'|]]; try contradiction; destruct Hj as [->|[]]; auto. now destruct Pj. }
           exists j, (q_config q2). split; [|split; auto].
           ++ intros ->. rewrite Nq in Nj. injection Nj as <-. contradiction.
           ++ rewrite <- Ec. now apply map_nth_error.
        -- split; auto. intro X. assert (existsb (str_eqb d) (ps_path (m_py m)) = true) by (apply existsb_in; rewrite Ep; apply in_or_app; auto). congruence.
    + destruct Pq as [Pd Nd]. injection A as <- <-. apply Go; [reflexivity| |exact Pd]. cbn [ps_path]. exists (suf ++ [d]). rewrite Ep, app_assoc. split; auto. split.
      * unfold holds. cbn [q_place]. now rewrite app_nil_r.
      * intros x X. apply in_app_iff in X. destruct X as [X|[<-|[]]]; auto.
    + injection A as <- <-. apply Go; [reflexivity| |].
      * exists suf. split; auto. split; auto. unfold holds. cbn [q_place]. destruct (select W c g), own; apply Permutation_refl.
      * cbn [q_place q_config]. destruct (select W c g), own; eauto.
    + injection A as <- <-. apply Go; [reflexivity| |exact Pq]. exists suf. rewrite disable_one_path. cbn [take cs_py]. auto.
    + injection A as <- <-. apply Go; [reflexivity| |exact Pq]. exists suf. rewrite enable_one_path. cbn [take cs_py]. auto.
    + injection A as <- <-. apply Go; [reflexivity| |exact Pq]. exists suf. rewrite enable_one_path. cbn [take cs_py]. auto.
    + assert (Id : In d suf).
      { apply (Permutation_in _ (Permutation_sym Pe)). rewrite flat_map_app. apply in_or_app. right. unfold holds at 1. cbn. auto. }
      assert (X : existsb (str_eqb d) (ps_path (m_py m)) = true) by (apply existsb_in; rewrite Ep; apply in_or_app; auto). rewrite X in A.
      injection A as <- <-. apply Go; [reflexivity| |exact Logic.I]. cbn [ps_path]. exists (remove_first d suf). split; [|split].
      * rewrite Ep. apply remove_prefix. now apply Ns.
      * unfold holds. cbn [q_place]. rewrite app_nil_r. rewrite (remove_in d suf Id) at 2. apply Permutation_sym, Permutation_cons_append.
      * intros x Y. apply Ns. apply (Permutation_in _ (Permutation_sym (remove_in d suf Id))). simpl. auto.
    + discriminate.
Qed.

(** ** C82 *)

(** At any time sys.path begins with what was on it, and the rest is what requests have put there and not removed. *)
Theorem C82_path : forall W py cs m, happens W py cs m ->
  exists suf, ps_path (m_py m) = ps_path py ++ suf /\ Permutation suf (flat_map holds (m_requests m)) /\ forall x, In x suf -> ~ In x (ps_path py).
Proof. intros W py cs m H. apply (order_happens W py cs m H). Qed.

(** Removing never fails: an exception of a request is one of selecting rules. *)
Theorem C82_removes : forall W py cs m q d r, happens W py cs m -> In q (m_requests m) -> q_place q = Removing d r -> In d (ps_path (m_py m)).
Proof.
  intros W py cs m q d r H I E. destruct (C82_path _ _ _ _ H) as (suf & -> & Pe & _). apply in_or_app. right.
  apply (Permutation_in _ (Permutation_sym Pe)). apply in_flat_map. exists q. split; auto. unfold holds. rewrite E. simpl. auto.
Qed.

(** When all requests have ended without an exception, sys.path is what it was. *)
Theorem C82_restored : forall W py cs m, happens W py cs m ->
  (forall q, In q (m_requests m) -> exists r, result_of q = Some (Ok r)) -> ps_path (m_py m) = ps_path py.
Proof.
  intros W py cs m H Ov. destruct (order_happens _ _ _ _ H) as ((suf & E & Pe & _) & _ & Pl).
  assert (N : flat_map holds (m_requests m) = []).
  { assert (K : forall q, In q (m_requests m) -> holds q = []).
    { intros q I. destruct (In_nth_error _ _ I) as (i & Ni). specialize (Pl i q Ni). destruct (Ov q I) as (r & R). unfold result_of in R. unfold holds.
      destruct (q_place q) as [| |[]| |r' [d|]]; try discriminate; auto. destruct Pl as [_ (e & ->)]. discriminate. }
    clear - K. induction (m_requests m) as [|q l IH]; auto. cbn [flat_map]. rewrite (K q) by (simpl; auto). apply IH. intros z I. apply K. simpl. auto. }
  rewrite N in Pe. apply Permutation_sym, Permutation_nil in Pe. subst suf. now rewrite app_nil_r in E.
Qed.

(** While a request imports rules, its directory is on sys.path if it was there from the beginning, if the request has put it there itself, or
    if no other request is for the same directory. *)
Theorem C82_sees : forall W py cs m i c q d, happens W py cs m -> nth_error cs i = Some c -> nth_error (m_requests m) i = Some q ->
  importing q -> import_dir W c = Some d ->
  In d (ps_path py) \/ In d (holds q) \/ (forall j c', j <> i -> nth_error cs j = Some c' -> import_dir W c' <> Some d) ->
  In d (ps_path (m_py m)).
Proof.
  intros W py cs m i c q d H Nc Nq (own & g & en & dis & Pq) D Or. destruct (order_happens _ _ _ _ H) as ((suf & E & Pe & _) & Ec & Pl).
  rewrite E. apply in_or_app. assert (Cq : q_config q = c).
  { rewrite <- Ec in Nc. rewrite (map_nth_error _ _ _ Nq) in Nc. congruence. }
  assert (Hq : In d (holds q) -> In d suf).
  { intro X. apply (Permutation_in _ (Permutation_sym Pe)). apply in_flat_map. exists q. split; auto. eapply nth_error_In; eauto. }
  destruct Or as [Or|[Or|Or]]; auto. specialize (Pl i q Nq). rewrite Pq, Cq in Pl. destruct own as [d'|].
  - right. apply Hq. unfold holds. rewrite Pq. simpl. left. congruence.
  - destruct (Pl d D) as [X|(j & c' & Nj & Nc' & X)]; auto. exfalso. now apply (Or j c').
Qed.

Lemma turns_app : forall W a b m, turns W m (a ++ b) = match turns W m a with Some m' => turns W m' b | None => None end.
Proof. intros W a. induction a as [|i a IH]; intros b m; cbn [app turns]; auto. destruct (turn W m i); auto. Qed.

Lemma take_keep : forall s, take (keep s) (cs_py s) = s.
Proof. now intros []. Qed.

Lemma import_alone : forall W c own dis en s, turns W (Many (cs_py s) [Request c (Inside own (keep s) en dis)]) (repeat 0 (List.length en + List.length dis)) =
  let s' := fold_left (disable_one W) dis (fold_left (enable_one W) en s) in Some (Many (cs_py s') [Request c (Inside own (keep s') [] [])]).
Proof.
  intros W c own dis en. induction en as [|x en IH].
  - cbn [List.length Nat.add fold_left]. induction dis as [|y dis IH]; intro s; [reflexivity|].
    cbn [List.length repeat turns turn nth_error m_requests act q_place q_config m_py]. rewrite take_keep. cbv zeta. cbn [firstn skipn app fold_left]. apply IH.
  - intro s. cbn [List.length Nat.add repeat turns turn nth_error m_requests act q_place q_config m_py]. rewrite take_keep. cbv zeta. cbn [firstn skipn app fold_left]. apply IH.
Qed.

(** By itself a request does what collect_rules does. *)
Theorem C82_alone : forall W py c, exists n, exists m, turns W (start py [c]) (repeat 0 n) = Some m /\
  m_py m = snd (collect_rules W c py) /\ map result_of (m_requests m) = [Some (fst (collect_rules W c py))].
Proof.
  intros W py c.
  assert (Body : forall own py0, exists n m, turns W (Many py0 [Request c (Inside own (Got [] [] []) (c_enable c) (c_disable c))]) (repeat 0 n) = Some m /\
    let s := fold_left (disable_one W) (c_disable c) (fold_left (enable_one W) (c_enable c) (CState [] [] [] py0)) in
    let r := select W c (keep s) in
    (forall d, own = Some d -> In d (ps_path py0)) ->
    m_py m = match r, own with Ok _, Some d => PyState (remove_first d (ps_path (cs_py s))) (ps_modules (cs_py s)) (ps_gen (cs_py s)) | _, _ => cs_py s end /\
    map result_of (m_requests m) = [Some r]).
  { intros own py0. set (s := fold_left (disable_one W) (c_disable c) (fold_left (enable_one W) (c_enable c) (CState [] [] [] py0))).
    pose proof (import_alone W c own (c_disable c) (c_enable c) (CState [] [] [] py0)) as A. cbv zeta in A. fold s in A. change (keep (CState [] [] [] py0)) with (Got [] [] []) in A. cbn [cs_py] in A.
    assert (Ps : ps_path (cs_py s) = ps_path py0) by (unfold s; now rewrite disable_path, enable_path).
    destruct (select W c (keep s)) as [r|e] eqn:Es; [destruct own as [d|]|].
    - exists (List.length (c_enable c) + List.length (c_disable c) + 2).
      destruct (existsb (str_eqb d) (ps_path (cs_py s))) eqn:Ex.
      + eexists. rewrite repeat_app, turns_app, A. cbn [repeat turns turn nth_error m_requests act q_place q_config m_py firstn skipn app]. rewrite Es.
        cbn [act q_place q_config]. cbv zeta. rewrite Ex. split; [reflexivity|]. auto.
      + eexists. rewrite repeat_app, turns_app, A. cbn [repeat turns turn nth_error m_requests act q_place q_config m_py firstn skipn app]. rewrite Es.
        cbn [act q_place q_config]. cbv zeta. rewrite Ex. split; [reflexivity|]. intro Hd. exfalso. specialize (Hd d eq_refl). rewrite <- Ps in Hd.
        apply existsb_in in Hd. congruence.
    - exists (List.length (c_enable c) + List.length (c_disable c) + 1). eexists. rewrite repeat_app, turns_app, A.
      cbn [repeat turns turn nth_error m_requests act q_place q_config m_py firstn skipn app]. rewrite Es. split; [reflexivity|]. auto.
    - exists (List.length (c_enable c) + List.length (c_disable c) + 1). eexists. rewrite repeat_app, turns_app, A.
      cbn [repeat turns turn nth_error m_requests act q_place q_config m_py firstn skipn app]. rewrite Es. split; [reflexivity|]. auto. }
  assert (Sel : forall s, select W c (keep s) = let '(all, d) := filter_tags W (c_tags c) (cs_all s) (cs_disabled s) in
       let! '(all, d) := filter_version W (c_python c) all d in let ks := w_iter W all in let! _ := map_res (fun k => w_new W (fst k)) ks in Ok (ks, d)) by reflexivity.
  unfold collect_rules. destruct (import_dir W c) as [d|] eqn:Ed; [unfold enter_path; destruct (existsb (str_eqb d) (ps_path py)) eqn:Ex|].
  - destruct (Body None py) as (n & m & A & B). exists (S n), m. cbn [repeat turns start map turn nth_error m_requests act q_place q_config m_py]. rewrite Ed, Ex.
    cbv zeta. cbn [firstn skipn app]. split; [exact A|]. destruct B as [B1 B2]; [discriminate|]. rewrite Sel in B1, B2. 
    replace (PyState (ps_path py) (ps_modules py) (ps_gen py)) with py by now destruct py.
    set (s := fold_left (disable_one W) (c_disable c) (fold_left (enable_one W) (c_enable c) (CState [] [] [] py))) in *.
    destruct (filter_tags W (c_tags c) (cs_all s) (cs_disabled s)) as [all dd]. cbv zeta.
    match goal with |- context [match ?r with Ok _ => (?r, _) | Err _ => _ end] => destruct r eqn:Er end; rewrite ?Er in *; auto.
  - destruct (Body (Some d) (PyState (ps_path py ++ [d]) (ps_modules py) (ps_gen py))) as (n & m & A & B). exists (S (S n)), m.
    cbn [repeat turns start map turn nth_error m_requests act q_place q_config m_py]. rewrite Ed, Ex.
    cbv zeta. cbn [firstn skipn app turn nth_error m_requests act q_place q_config m_py]. cbv zeta. split; [exact A|].
    destruct B as [B1 B2]; [intros d' X; injection X as <-; cbn; apply in_or_app; simpl; auto|]. rewrite Sel in B1, B2.
    set (s := fold_left (disable_one W) (c_disable c) (fold_left (enable_one W) (c_enable c) (CState [] [] [] (PyState (ps_path py ++ [d]) (ps_modules py) (ps_gen py))))) in *.
    destruct (filter_tags W (c_tags c) (cs_all s) (cs_disabled s)) as [all dd]. cbv zeta.
    match goal with |- context [match ?r with Ok _ => (?r, _) | Err _ => _ end] => destruct r eqn:Er end; rewrite ?Er in *; auto.
  - destruct (Body None py) as (n & m & A & B). exists (S n), m. cbn [repeat turns start map turn nth_error m_requests act q_place q_config m_py]. rewrite Ed.
    cbv zeta. cbn [firstn skipn app]. split; [exact A|]. destruct B as [B1 B2]; [discriminate|]. rewrite Sel in B1, B2.
    set (s := fold_left (disable_one W) (c_disable c) (fold_left (enable_one W) (c_enable c) (CState [] [] [] py))) in *.
    destruct (filter_tags W (c_tags c) (cs_all s) (cs_disabled s)) as [all dd]. cbv zeta.
    match goal with |- context [match ?r with Ok _ => (?r, _) | Err _ => _ end] => destruct r eqn:Er end; rewrite ?Er in *; auto.
Qed.

(** ** Requests that do not disturb each other *)

(** The modules that a configuration names are not local, and they mean the same however many directories are appended to sys.path, as long
    as the directory of the configuration is there. *)
Definition unambiguous (W : world) (p0 : list str) (c : config) : Prop :=
  forall q, In q (c_enable c ++ c_disable c) -> is_local q = false /\
    forall suf, (forall d, import_dir W c = Some d -> In d (p0 ++ suf)) ->
      snd (w_import W (p0 ++ suf) (q_module q)) = snd (w_import W (ps_path (with_root_import W c (PyState p0 [] 0))) (q_module q)).

Lemma find_global : forall W q s s', is_local q = false -> snd (w_import W (ps_path s) (q_module q)) = snd (w_import W (ps_path s') (q_module q)) ->
  fst (find_rules W q s) = fst (find_rules W q s').
Proof.
  intros W q s s' L E. unfold find_rules, import_rules. unfold is_local in L. destruct (q_local q) as [[|x l]|]; [| discriminate |];
    destruct (w_import W (ps_path s) (q_module q)) as [a r]; destruct (w_import W (ps_path s') (q_module q)) as [a' r']; cbn [snd] in E; subst r'; reflexivity.
Qed.

Lemma enable_same : forall W q g s s', is_local q = false -> snd (w_import W (ps_path s) (q_module q)) = snd (w_import W (ps_path s') (q_module q)) ->
  keep (enable_one W (take g s) q) = keep (enable_one W (take g s') q).
Proof.
  intros W q g s s' L E. pose proof (find_global W q s s' L E) as F. unfold enable_one, take. cbn [cs_py cs_all cs_named cs_disabled].
  destruct (find_rules W q s) as [r p1], (find_rules W q s') as [r' p2]. cbn [fst] in F. subst r'. now destruct r.
Qed.
Lemma disable_same : forall W q g s s', is_local q = false -> snd (w_import W (ps_path s) (q_module q)) = snd (w_import W (ps_path s') (q_module q)) ->
  keep (disable_one W (take g s) q) = keep (disable_one W (take g s') q).
Proof.
  intros W q g s s' L E. pose proof (find_global W q s s' L E) as F. unfold disable_one, take. cbn [cs_py cs_all cs_named cs_disabled].
  destruct (find_rules W q s) as [r p1], (find_rules W q s') as [r' p2]. cbn [fst] in F. subst r'. now destruct r.
Qed.

Lemma collect_select : forall W c py,
  fst (collect_rules W c py) =
  select W c (keep (fold_left (disable_one W) (c_disable c) (fold_left (enable_one W) (c_enable c) (CState [] [] [] (with_root_import W c py))))).
Proof.
  intros W c py. unfold collect_rules, select.
  assert (E : (match import_dir W c with None => py | Some d => PyState (snd (enter_path d (ps_path py))) (ps_modules py) (ps_gen py) end) = with_root_import W c py).
  { unfold import_dir, with_root_import, on_path, enter_path. destruct (c_import c); auto; destruct (existsb _ _); auto; now destruct py. }
  set (x := match import_dir W c with None => (None, py) | Some d => _ end).
  assert (Ex : snd x = with_root_import W c py). { rewrite <- E. unfold x. destruct (import_dir W c) as [d|]; auto. now destruct (enter_path d (ps_path py)). }
  destruct x as [ap py0]. cbn [snd] in Ex. subst py0. cbn [keep g_all g_disabled].
  set (s := fold_left (disable_one W) _ _). destruct (filter_tags W (c_tags c) (cs_all s) (cs_disabled s)) as [all d]. cbv zeta.
  match goal with |- fst (match ?r with Ok _ => _ | Err _ => _ end) = _ => destruct r eqn:Er end; reflexivity.
Qed.

(** No two requests are for the same directory (unless it was on sys.path from the beginning), and the modules named are unambiguous: then
    every request ends, in every interleaving, with the rules that it would get by itself. *)
Theorem C82_same : forall W py cs m i c q r, happens W py cs m ->
  (forall c, In c cs -> unambiguous W (ps_path py) c) ->
  (forall j k c c' d, j <> k -> nth_error cs j = Some c -> nth_error cs k = Some c' -> import_dir W c = Some d -> import_dir W c' = Some d -> In d (ps_path py)) ->
  nth_error cs i = Some c -> nth_error (m_requests m) i = Some q -> result_of q = Some r -> r = fst (collect_rules W c py).
Proof.
  intros W py cs m i c q r H Un Di Nc Nq Rq.
  enough (K : forall i c q, nth_error cs i = Some c -> nth_error (m_requests m) i = Some q ->
    match q_place q with
    | Inside own g en dis => exists de dd, c_enable c = de ++ en /\ c_disable c = dd ++ dis /\ (en <> [] -> dd = []) /\
        g = keep (fold_left (disable_one W) dd (fold_left (enable_one W) de (CState [] [] [] (with_root_import W c py))))
    | Removing d r => Ok r = fst (collect_rules W c py)
    | Over r _ => r = fst (collect_rules W c py)
    | _ => True
    end).
  { specialize (K i c q Nc Nq). unfold result_of in Rq. destruct (q_place q); try discriminate. congruence. }
  clear i c q r Nc Nq Rq. pattern m. revert m H. apply (happens_ind W py cs).
  - intros i c q Nc Nq. cbn [start m_requests] in Nq. apply nth_error_In in Nq. apply in_map_iff in Nq. destruct Nq as (c' & <- & _). exact Logic.I.
  - intros m k m' H IH T j c z Nc Nz. pose proof T as T0. apply turn_inv in T. destruct T as (a & q & b & py' & q' & E & Ek & A & ->).
    cbn [m_requests] in Nz. destruct (nth_replace a b q q' j z Nz) as [[Ej ->]|[_ Nz']]; [|apply (IH j c z Nc); now rewrite E].
    assert (Nq : nth_error (m_requests m) j = Some q) by (rewrite E, Ej, nth_error_app2, Nat.sub_diag by auto; reflexivity).
    specialize (IH j c q Nc Nq). pose proof (Un c (nth_error_In _ _ Nc)) as Uc.
    assert (Cq : q_config q = c).
    { destruct (order_happens _ _ _ _ H) as (_ & Ec & _). rewrite <- Ec, (map_nth_error _ _ _ Nq) in Nc. congruence. }
    (* an import *)
    assert (Imp : importing q -> forall x, In x (c_enable c ++ c_disable c) -> is_local x = false /\
       snd (w_import W (ps_path (m_py m)) (q_module x)) = snd (w_import W (ps_path (with_root_import W c py)) (q_module x))).
    { intros Im x Ix. destruct (Uc x Ix) as [L U]. split; auto. destruct (C82_path _ _ _ _ H) as (suf & Ep & _). rewrite Ep.
      assert (Pp : ps_path (with_root_import W c py) = ps_path (with_root_import W c (PyState (ps_path py) [] 0))).
      { unfold with_root_import, on_path. cbn [ps_path]. destruct (c_import c); auto; destruct (existsb _ _); reflexivity. }
      rewrite Pp. apply U. intros d D. rewrite <- Ep. apply (C82_sees W py cs m j c q d H Nc Nq Im D).
      assert (Dec : In d (ps_path py) \/ ~ In d (ps_path py)).
      { destruct (existsb (str_eqb d) (ps_path py)) eqn:X; [left; now apply existsb_in|right; intro Y; apply existsb_in in Y; congruence]. }
      destruct Dec as [X|X]; auto. right. right. intros j' c' Nj Nc' D'. apply X. apply (Di j j' c c' d); auto. }
    assert (Paths : forall s, ps_path (cs_py s) = ps_path (with_root_import W c py) -> importing q -> forall x, In x (c_enable c ++ c_disable c) ->
       is_local x = false /\ snd (w_import W (ps_path (m_py m)) (q_module x)) = snd (w_import W (ps_path (cs_py s)) (q_module x))).
    { intros s Es Im x Ix. rewrite Es. now apply Imp. }
    destruct q as [c0 pl]. cbn [q_config] in Cq. subst c0. unfold act in A. cbn [q_config q_place] in *.
    destruct pl as [|d|own g en dis|d r|r lk]; cbv zeta in A.
    + injection A as <- <-. cbn [q_place]. assert (exists de dd, c_enable c = de ++ c_enable c /\ c_disable c = dd ++ c_disable c /\ (c_enable c <> [] -> dd = []) /\
         Got [] [] [] = keep (fold_left (disable_one W) dd (fold_left (enable_one W) de (CState [] [] [] (with_root_import W c py))))) as X by (exists [], []; auto).
      destruct (import_dir W c) as [d|]; auto. destruct (existsb _ _); auto.
    + injection A as <- <-. cbn [q_place]. exists [], []. auto.
    + destruct IH as (de & dd & Ee & Ed & Nn & Eg). assert (Im : importing (Request c (Inside own g en dis))) by (exists own, g, en, dis; reflexivity).
      set (s := fold_left (disable_one W) dd (fold_left (enable_one W) de (CState [] [] [] (with_root_import W c py)))) in *.
      assert (Es : ps_path (cs_py s) = ps_path (with_root_import W c py)) by (unfold s; now rewrite disable_path, enable_path).
      destruct en as [|x en]; [destruct dis as [|y dis]|].
      * injection A as <- <-. cbn [q_place]. assert (R : select W c g = fst (collect_rules W c py)).
        { rewrite collect_select, Eg. unfold s. rewrite app_nil_r in Ee, Ed. now rewrite Ee, Ed. }
        rewrite <- R. destruct (select W c g), own; reflexivity.
      * injection A as <- <-. cbn [q_place]. exists de, (dd ++ [y]). split; auto. split; [rewrite Ed, <- app_assoc; reflexivity|]. split; [intro X; now destruct X|].
        rewrite fold_left_app. cbn [fold_left]. fold s. destruct (Paths s Es Im y) as [L U]; [apply in_or_app; right; rewrite Ed; apply in_or_app; simpl; auto|].
        rewrite (disable_same W y g (m_py m) (cs_py s) L U), Eg, take_keep. reflexivity.
      * assert (dd = []) as -> by (apply Nn; discriminate).
        assert (exists p g', act W (m_py m) (Request c (Inside own g (x :: en) dis)) = Some (p, Request c (Inside own g' en dis)) /\ g' = keep (enable_one W (take g (m_py m)) x)) as (p' & g' & A' & Eg').
        { cbn [act q_place q_config]. cbv zeta. destruct dis; eauto. }
        assert (q' = Request c (Inside own g' en dis)) as ->. { cbn [act q_place q_config] in A'. cbv zeta in A'. destruct dis; congruence. }
        cbn [q_place]. exists (de ++ [x]), []. split; [rewrite Ee, <- app_assoc; reflexivity|]. split; auto. split; auto.
        rewrite fold_left_app. cbn [fold_left]. unfold s in *. cbn [fold_left] in *.
        destruct (Paths _ Es Im x) as [L U]; [apply in_or_app; left; rewrite Ee; apply in_or_app; simpl; auto|].
        rewrite Eg', (enable_same W x g (m_py m) _ L U), Eg, take_keep. reflexivity.
    + assert (X : existsb (str_eqb d) (ps_path (m_py m)) = true).
      { apply existsb_in. apply (C82_removes W py cs m (Request c (Removing d r)) d r H); auto. now apply nth_error_In in Nq. }
      rewrite X in A. injection A as <- <-. cbn [q_place]. exact IH.
    + discriminate.
Qed.

(** ** Every request gets to its end *)

(** How many turns a request still takes at most. *)
Definition turns_left (q : request) : nat :=
  match q_place q with
  | Testing => 4 + List.length (c_enable (q_config q)) + List.length (c_disable (q_config q))
  | Appending _ => 3 + List.length (c_enable (q_config q)) + List.length (c_disable (q_config q))
  | Inside _ _ en dis => 2 + List.length en + List.length dis
  | Removing _ _ => 1
  | Over _ _ => 0
  end.

Lemma act_left : forall W py q py' q', act W py q = Some (py', q') -> q_config q' = q_config q /\ turns_left q' < turns_left q.
Proof.
  intros W py [c pl] py' q' A. unfold act in A. cbn [q_config q_place] in A. unfold turns_left at 2. cbn [q_place q_config].
  destruct pl as [|d|own g [|x en] [|y dis]|d r|r lk]; cbv zeta in A.
  - injection A as <- <-. split; [reflexivity|]. unfold turns_left. cbn [q_place q_config]. destruct (import_dir W c) as [d|]; [destruct (existsb _ _)|]; lia.
  - injection A as <- <-. split; [reflexivity|]. unfold turns_left. cbn [q_place q_config]. lia.
  - injection A as <- <-. split; [reflexivity|]. unfold turns_left. cbn [q_place q_config List.length]. destruct (select W c g); [destruct own|]; lia.
  - injection A as <- <-. split; [reflexivity|]. unfold turns_left. cbn [q_place q_config List.length]. lia.
  - injection A as <- <-. split; [reflexivity|]. unfold turns_left. cbn [q_place q_config List.length]. lia.
  - injection A as <- <-. split; [reflexivity|]. unfold turns_left. cbn [q_place q_config List.length]. lia.
  - destruct (existsb _ _); injection A as <- <-; (split; [reflexivity|]); unfold turns_left; cbn [q_place]; lia.
  - discriminate.
Qed.

Lemma act_stuck : forall W py q, act W py q = None -> exists r, result_of q = Some r.
Proof.
  intros W py [c pl] A. unfold act in A. cbn [q_config q_place] in A.
  destruct pl as [|d|own g [|x en] [|y dis]|d r|r lk]; cbv zeta in A; try discriminate.
  - destruct (existsb _ _); discriminate.
  - exists r. reflexivity.
Qed.

(** A request that is not over can always take its next turn, whatever the others are doing, and the number of turns of a schedule is bounded:
    no request waits for another, and all of them end. *)
Theorem C82_ends : forall W py cs l m, turns W (start py cs) l = Some m ->
  List.length l <= list_sum (map (fun c => 4 + List.length (c_enable c) + List.length (c_disable c)) cs) /\
  forall i q, nth_error (m_requests m) i = Some q -> result_of q = None -> exists m', turns W (start py cs) (l ++ [i]) = Some m'.
Proof.
  intros W py cs l m H. split.
  - assert (G : forall l m0, turns W m0 l = Some m -> List.length l + list_sum (map turns_left (m_requests m)) <= list_sum (map turns_left (m_requests m0))).
    { clear l H. induction l as [|i l IH]; intros m0 H; cbn [turns] in H; [injection H as <-; cbn; lia|].
      destruct (turn W m0 i) as [m1|] eqn:T; [|discriminate]. specialize (IH m1 H). apply turn_inv in T. destruct T as (a & q & b & p & q' & E & _ & A & ->).
      cbn [m_requests] in IH. rewrite E. rewrite map_app, list_sum_app in *. cbn [map] in *. destruct (act_left _ _ _ _ _ A) as [_ L].
      change (list_sum (turns_left q' :: map turns_left b)) with (turns_left q' + list_sum (map turns_left b)) in IH.
      change (list_sum (turns_left q :: map turns_left b)) with (turns_left q + list_sum (map turns_left b)). cbn [List.length]. lia. }
    specialize (G l _ H). assert (E : map turns_left (m_requests (start py cs)) = map (fun c => 4 + List.length (c_enable c) + List.length (c_disable c)) cs).
    { cbn [start m_requests]. rewrite map_map. apply map_ext. reflexivity. }
    rewrite E in G. lia.
  - intros i q N R. rewrite turns_app, H. cbn [turns]. unfold turn. rewrite N. destruct (act W (m_py m) q) as [[p q']|] eqn:A; eauto.
    destruct (act_stuck _ _ _ A) as (r & X). congruence.
Qed.

(** ** Examples *)

(** Modules a.rules and b.rules can be imported if the directories "/a" and "/b" are on sys.path. *)
Definition W2 : world := World
  (fun sp n =>
     if str_eqb n (u "a.rules") && existsb (str_eqb (u "/a")) sp then ([u "a"; u "a.rules"], Ok (PyMod [(u "A", ORule 1 true)] None))
     else if str_eqb n (u "b.rules") && existsb (str_eqb (u "/b")) sp then ([u "b"; u "b.rules"], Ok (PyMod [(u "B", ORule 2 true)] None))
     else if str_eqb n (u "b.more") && existsb (str_eqb (u "/b")) sp then ([u "b"; u "b.more"], Ok (PyMod [(u "C", ORule 3 true)] None))
     else ([], Err ImportError))
  (fun sp root n => ([], Err ImportError))
  (fun _ => []) (fun _ => []) (fun _ _ => Ok true) (fun _ => Ok tt) (fun l => l) (fun p => u "/" ++ join (u "/") p).

Definition conf_in (d m : string) : config :=
  Config [u d; u "x.py"] [u d] RITrue [QRule (u m) None None None] [] [] None no_tags None OFfixit (TStr []).
Definition py2 : pystate := PyState [u "/usr/lib"] [] 0.
Definition turn_of (l : list nat) : list config -> option (list str * list (option (res (list cls * reasons)))) :=
  fun cs => match turns W2 (start py2 cs) l with Some m => Some (ps_path (m_py m), map result_of (m_requests m)) | None => None end.

Lemma W2_unambiguous : forall c, In c [conf_in "a" "a.rules"; conf_in "b" "b.rules"] -> unambiguous W2 (ps_path py2) c.
Proof.
  intros c [<-|[<-|[]]] q [<-|[]]; (split; [reflexivity|]); intros suf D.
  - assert (X : existsb (str_eqb (u "/a")) ([u "/usr/lib"] ++ suf) = true) by (apply existsb_in; apply D; reflexivity).
    cbn [w_import W2 ps_path py2 q_module]. rewrite X. vm_compute. reflexivity.
  - assert (X : existsb (str_eqb (u "/b")) ([u "/usr/lib"] ++ suf) = true) by (apply existsb_in; apply D; reflexivity).
    cbn [w_import W2 ps_path py2 q_module]. rewrite X. vm_compute. reflexivity.
Qed.

(** Two projects, one request each, their steps alternating: both get their rules, and sys.path is restored although the directories are not
    removed in the reverse order. *)
Example C82_example :
  turn_of [0; 1; 0; 1; 1; 0; 1; 0; 0; 1] [conf_in "a" "a.rules"; conf_in "b" "b.rules"] =
    Some ([u "/usr/lib"], [Some (Ok ([(1%N, None)], [])); Some (Ok ([(2%N, None)], []))]) /\
  turn_of [0; 1; 0; 1] [conf_in "a" "a.rules"; conf_in "b" "b.rules"] = Some ([u "/usr/lib"; u "/a"; u "/b"], [None; None]) /\
  (forall c, In c [conf_in "a" "a.rules"; conf_in "b" "b.rules"] -> unambiguous W2 (ps_path py2) c) /\
  (forall j k c c' d, j <> k -> nth_error [conf_in "a" "a.rules"; conf_in "b" "b.rules"] j = Some c ->
     nth_error [conf_in "a" "a.rules"; conf_in "b" "b.rules"] k = Some c' -> import_dir W2 c = Some d -> import_dir W2 c' = Some d -> In d (ps_path py2)).
Proof.
  split; [vm_compute; reflexivity|]. split; [vm_compute; reflexivity|]. split; [exact W2_unambiguous|].
  intros j k c c' d N Hj Hk Dj Dk. exfalso. destruct j as [|[|[|j]]]; try discriminate; destruct k as [|[|[|k]]]; try discriminate; try (now apply N);
    injection Hj as <-; injection Hk as <-; vm_compute in Dj, Dk; congruence.
Qed.

(** Two requests of the same project are another matter. The second finds the directory of the project on sys.path and leaves it to the first,
    which removes it before the second has imported its rules: they are not found, without an exception, although the second request by itself
    would find them. *)
Theorem C82_race_refuted : exists W py cs l m c q r,
  turns W (start py cs) l = Some m /\ (forall c, In c cs -> unambiguous W (ps_path py) c) /\
  nth_error cs 1 = Some c /\ nth_error (m_requests m) 1 = Some q /\ result_of q = Some (Ok ([], r)) /\
  (exists k, fst (collect_rules W c py) = Ok ([k], [])) /\ ps_path (m_py m) = ps_path py.
Proof.
  exists W2, py2, [conf_in "b" "b.rules"; conf_in "b" "b.more"], [0; 0; 1; 0; 0; 0; 1; 1]. do 4 eexists.
  split; [vm_compute; reflexivity|]. split.
  - intros c [<-|[<-|[]]] q [<-|[]]; (split; [reflexivity|]); intros suf D;
      (assert (X : existsb (str_eqb (u "/b")) ([u "/usr/lib"] ++ suf) = true) by (apply existsb_in; apply D; reflexivity));
      cbn [w_import W2 ps_path py2 q_module]; rewrite X; vm_compute; reflexivity.
  - split; [reflexivity|]. split; [reflexivity|]. split; [vm_compute; reflexivity|]. split; [eexists; vm_compute; reflexivity|reflexivity].
Qed.
