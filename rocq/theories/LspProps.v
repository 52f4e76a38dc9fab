(** * The language server: C39-C44 *)
From Coq Require Import String List NArith ZArith Bool Arith Lia.
From Verif Require Import Base PyStr Ftypes Paths Config Suppress Cst Engine Api ApiSpec ApiFacts Lsp LspSpec LspFacts.
Import ListNotations.

(** ** C39: debouncing *)

(** The timers after a history: one per change. *)
Record timers_inv (S : server) (u : uri) (h : list label) (l : list timer) : Prop := {
  ti_versions : map tm_version l = changes u h;
  ti_started : forall i t, nth_error l i = Some t -> (tm_state t = Started <-> In (Start u i) h);
  ti_index : forall i, In (Start u i) h -> i < List.length l;
  ti_waiting : forall i t, nth_error l i = Some t -> tm_state t = Waiting -> Datatypes.S i = List.length l;
  ti_last : forall i t, nth_error l i = Some t -> Datatypes.S i = List.length l ->
    tm_state t <> Cancelled /\ exists t0, last_change u h t0 /\ tm_due t = (t0 + z_interval S)%N }.

Lemma last_change_snoc : forall u h l t, last_change u h t -> (forall v, l <> Change u v) -> last_change u (h ++ [l]) t.
Proof.
  intros u h l t (h1 & v & h2 & -> & C & N) H. exists h1, v, (h2 ++ [l]). split; [now rewrite <- app_assoc|]. split; [auto|].
  rewrite changes_snoc, N. destruct l; auto. destruct (str_eqb u0 u) eqn:E; auto. apply str_eqb_eq in E. subst. exfalso. eapply H; eauto.
Qed.

Lemma timers_reached : forall S F u h q, z_interval S <> 0%N -> reaches S F h q -> timers_inv S u h (d_timers (q_docs q u)).
Proof.
  intros S F u h q Z. revert h q. apply reaches_ind.
  - constructor; cbn; auto; try (intros [|i] t; discriminate). intros i [].
  - intros h l q q' R I E.
    assert (Same : (forall v, l <> Change u v) -> (forall i, l <> Start u i) -> d_timers (q_docs q' u) = d_timers (q_docs q u) ->
                   timers_inv S u (h ++ [l]) (d_timers (q_docs q' u))).
    { intros N1 N2 ->. destruct I as [I1 I2 I3 I4 I5]. constructor.
      - rewrite changes_snoc, I1. destruct l; rewrite ?app_nil_r; auto. destruct (str_eqb u0 u) eqn:Eu; rewrite ?app_nil_r; auto.
        apply str_eqb_eq in Eu. subst. exfalso. eapply N1; eauto.
      - intros i t Ht. rewrite (I2 i t Ht), in_app_iff. simpl. split; auto. intros [X|[X|[]]]; auto. exfalso. eapply N2; eauto.
      - intros i Hi. apply in_app_iff in Hi. destruct Hi as [Hi|[Hi|[]]]; auto. exfalso. eapply N2; eauto.
      - exact I4.
      - intros i t A B. destruct (I5 i t A B) as (C & t0 & D & G). split; auto. exists t0. split; auto. now apply last_change_snoc. }
    destruct (about u l) eqn:A.
    + pose proof (doc_self _ _ _ _ _ E A) as D. cbv zeta in D. destruct l as [n|F'|u' t|u' v|u'|u' i|u' i]; cbn [about] in A;
        try (apply str_eqb_eq in A; subst u').
      * apply Same; try discriminate. now rewrite D.
      * apply Same; try discriminate. now rewrite D.
      * apply Same; try discriminate. now rewrite D.
      * apply N.eqb_neq in Z. rewrite Z in D. rewrite D. cbn [set_timers d_timers]. unfold debounced. set (l := d_timers (q_docs q u)) in *.
        destruct I as [I1 I2 I3 I4 I5].
        assert (N : forall i, nth_error (update_nth (List.length l - 1) cancel l ++ [Timer v (q_now q + z_interval S) Waiting]) i =
                     if Nat.eqb i (List.length l) then Some (Timer v (q_now q + z_interval S) Waiting)
                     else if Nat.eqb i (List.length l - 1) then option_map cancel (nth_error l i) else nth_error l i).
        { intro i. destruct (Nat.eqb_spec i (List.length l)) as [->|Ni].
          - rewrite nth_error_app2; rewrite length_update; [|lia]. now rewrite Nat.sub_diag.
          - destruct (Nat.lt_ge_cases i (List.length l)).
            + rewrite nth_error_app1 by (rewrite length_update; auto). apply nth_update.
            + rewrite nth_error_app2 by (rewrite length_update; lia). rewrite length_update.
              destruct (i - List.length l) as [|k] eqn:K; [lia|]. cbn [nth_error]. 
              replace (nth_error l i) with (@None timer) by (symmetry; apply nth_error_None; lia).
              destruct (Nat.eqb i (List.length l - 1)); destruct k; reflexivity. }
        assert (Ho : forall i, In (Start u i) (h ++ [Change u v]) <-> In (Start u i) h).
        { intro i. rewrite in_app_iff. simpl. split; [intros [X|[X|[]]]; auto; discriminate|auto]. }
        assert (Ca : forall t, tm_state (cancel t) = Started <-> tm_state t = Started).
        { intro t. unfold cancel. destruct (tm_state t) eqn:T; cbn; try rewrite T; split; auto; discriminate. }
        constructor.
        -- rewrite map_app, changes_snoc, str_eqb_refl. cbn [map tm_version]. f_equal. rewrite map_update; auto.
           intro t. unfold cancel. now destruct (tm_state t).
        -- intros i t. rewrite N, Ho. destruct (Nat.eqb_spec i (List.length l)) as [->|Ni].
           ++ intro X. injection X as <-. cbn. split; [discriminate|]. intro X. apply I3 in X. lia.
           ++ destruct (Nat.eqb i (List.length l - 1)).
              ** destruct (nth_error l i) as [t0|] eqn:T; [|discriminate]. intro X. injection X as <-. rewrite Ca. now apply I2.
              ** apply I2.
        -- intros i X. apply Ho in X. apply I3 in X. rewrite app_length, length_update. simpl. lia.
        -- intros i t. rewrite N, app_length, length_update. cbn [List.length]. destruct (Nat.eqb_spec i (List.length l)) as [->|Ni].
           ++ intros _ _. lia.
           ++ destruct (Nat.eqb_spec i (List.length l - 1)) as [->|N1].
              ** destruct (nth_error l _) as [t0|] eqn:T; [|discriminate]. intro X. injection X as <-. unfold cancel.
                 destruct (tm_state t0) eqn:T0; cbn; try rewrite T0; discriminate.
              ** intros X Y. pose proof (I4 i t X Y). lia.
        -- intros i t. rewrite N, app_length, length_update. cbn [List.length]. intros X Y.
           assert (i = List.length l) by lia. subst i. rewrite Nat.eqb_refl in X. injection X as <-. cbn. split; [discriminate|].
           exists (clock h). split; [exists h, v, []; auto|]. now rewrite (clock_now _ _ _ _ R).
      * apply Same; try discriminate. now rewrite D.
      * cbn [step] in E. cbv zeta in E. set (l := d_timers (q_docs q u)) in *. destruct (nth_error l i) as [[v due []]|] eqn:T; try discriminate.
        rewrite D. cbn [set_timers spawn set_threads d_timers].
        destruct I as [I1 I2 I3 I4 I5]. pose proof (I4 i _ T eq_refl) as Li.
        assert (Ho : forall k, In (Start u k) (h ++ [Start u i]) <-> In (Start u k) h \/ k = i).
        { intro k. rewrite in_app_iff. simpl. split; [intros [X|[X|[]]]; auto; injection X; auto|intros [X| ->]; auto]. }
        constructor.
        -- rewrite changes_snoc, app_nil_r, <- I1. apply map_update. auto.
        -- intros k t. rewrite nth_update, Ho. destruct (Nat.eqb_spec k i) as [->|Nk].
           ++ rewrite T. cbn. intro X. injection X as <-. cbn. tauto.
           ++ intro X. rewrite (I2 k t X). intuition.
        -- intros k X. apply Ho in X. rewrite length_update. destruct X as [X| ->]; [auto|lia].
        -- intros k t. rewrite nth_update, length_update. destruct (Nat.eqb_spec k i) as [->|Nk]; [auto|]. apply I4.
        -- intros k t. rewrite nth_update, length_update. intros X Y. assert (k = i) by lia. subst k. rewrite Nat.eqb_refl, T in X. cbn in X.
           injection X as <-. cbn. split; [discriminate|]. destruct (I5 i _ T Li) as (_ & t0 & A & B). exists t0. split; auto.
           apply last_change_snoc; auto. discriminate.
      * apply Same; try discriminate. rewrite D. destruct (nth_error _ _) as [[j es now]|]; auto. destruct (act _ _ _ _) as [[[e j'] q1]|]; auto.
        destruct e; reflexivity.
    + apply Same.
      * intros v ->. cbn in A. rewrite str_eqb_refl in A. discriminate.
      * intros i ->. cbn in A. rewrite str_eqb_refl in A. discriminate.
      * now rewrite (doc_other _ _ _ _ _ E A).
Qed.

Lemma last_change_unique : forall u h t1 t2, last_change u h t1 -> last_change u h t2 -> t1 = t2.
Proof.
  intros u h. induction h as [|l h IH] using rev_ind; intros t1 t2 (a & v & b & E & C & N) (a' & v' & b' & E' & C' & N').
  - destruct a; discriminate.
  - destruct b as [|x b] using rev_ind; destruct b' as [|x' b'] using rev_ind.
    + apply app_inj_tail in E, E'. destruct E as [-> _], E' as [-> _]. congruence.
    + clear IHb'. rewrite app_comm_cons, app_assoc in E'. apply app_inj_tail in E'. destruct E' as [_ <-].
      apply app_inj_tail in E. destruct E as [_ ->]. rewrite changes_snoc, str_eqb_refl in N'. destruct (changes u b'); discriminate.
    + clear IHb. rewrite app_comm_cons, app_assoc in E. apply app_inj_tail in E. destruct E as [_ <-].
      apply app_inj_tail in E'. destruct E' as [_ ->]. rewrite changes_snoc, str_eqb_refl in N. destruct (changes u b); discriminate.
    + clear IHb IHb'. rewrite app_comm_cons, app_assoc in E, E'. apply app_inj_tail in E, E'. destruct E as [E _], E' as [E' _].
      rewrite changes_snoc in N, N'. apply app_eq_nil in N, N'. eapply IH; [exists a, v, b|exists a', v', b']; intuition.
Qed.

(** With an interval, when can the validation of the i-th change start? Exactly if it is the most
    recent change, has not been started and the interval has passed since. *)
Theorem C39_start : forall S F u h q i, z_interval S <> 0%N -> reaches S F h q ->
  possible S q (Start u i) <->
  Datatypes.S i = List.length (changes u h) /\ ~ In (Start u i) h /\
  exists t, last_change u h t /\ (t + z_interval S <= clock h)%N.
Proof.
  intros S F u h q i Z R. pose proof (timers_reached _ _ u _ _ Z R) as [I1 I2 I3 I4 I5]. set (l := d_timers (q_docs q u)) in *.
  assert (Ln : List.length l = List.length (changes u h)) by (rewrite <- I1; now rewrite map_length).
  unfold possible, step. cbv zeta. fold l. rewrite <- (clock_now _ _ _ _ R). split.
  - destruct (nth_error l i) as [[v due []]|] eqn:T; try congruence. destruct (N.leb_spec due (q_now q)); [|congruence]. intros _.
    pose proof (I4 i _ T eq_refl) as Li. split; [lia|]. split.
    + intro X. apply (I2 i _ T) in X. discriminate.
    + destruct (I5 i _ T Li) as (_ & t0 & A & B). cbn in B. exists t0. split; auto. lia.
  - intros (Li & N & t & L & B). destruct (nth_error l i) as [t1|] eqn:T; [|apply nth_error_None in T; lia].
    destruct (I5 i _ T) as (C & t0 & A & D); [lia|]. pose proof (last_change_unique _ _ _ _ A L). subst t0.
    destruct t1 as [v due st]. cbn in *. destruct st; try congruence.
    + replace (due <=? q_now q)%N with true by (symmetry; apply N.leb_le; lia). discriminate.
    + exfalso. apply N. now apply (I2 i _ T).
Qed.

(** What then starts is the validation of that change. *)
Theorem C39_version : forall S F u h q q' i, z_interval S <> 0%N -> reaches S F h q -> step S q (Start u i) = Some q' ->
  exists v, nth_error (changes u h) i = Some v /\
    d_threads (q_docs q' u) = d_threads (q_docs q u) ++ [Thread (validate_job S u v) [] (validate_job S u v)].
Proof.
  intros S F u h q q' i Z R E. pose proof (timers_reached _ _ u _ _ Z R) as [I1 _ _ _ _].
  assert (A : about u (Start u i) = true) by apply str_eqb_refl. pose proof (doc_self _ _ _ _ _ E A) as D. cbv zeta in D.
  cbn [step] in E. cbv zeta in E. destruct (nth_error (d_timers (q_docs q u)) i) as [t|] eqn:T; [|discriminate].
  exists (tm_version t). split.
  - rewrite <- I1. now rewrite (map_nth_error _ _ _ T).
  - rewrite D. rewrite T. reflexivity.
Qed.

(** Without an interval nothing is delayed: every change is validated at once, by the main thread. *)
Theorem C39_immediate : forall S F h q q' u v, z_interval S = 0%N -> reaches S F h q -> step S q (Change u v) = Some q' ->
  d_threads (q_docs q' u) = d_threads (q_docs q u) ++ [Thread (validate_job S u v) [] (validate_job S u v)] /\
  (over (validate_job S u v) /\ q_main q' = None \/ ~ over (validate_job S u v) /\ q_main q' = Some (u, List.length (d_threads (q_docs q u)))) /\
  forall i, step S q (Start u i) = None.
Proof.
  intros S F h q q' u v Z R E.
  assert (Nt : d_timers (q_docs q u) = []).
  { clear E q'. revert h q R. apply (reaches_ind S F (fun _ q => d_timers (q_docs q u) = [])); [reflexivity|]. intros h l q q' _ IH E.
    destruct (about u l) eqn:A; [|now rewrite (doc_other _ _ _ _ _ E A)].
    rewrite (doc_self _ _ _ _ _ E A). cbv zeta. destruct l; cbn; auto.
    - now rewrite Z.
    - rewrite IH. now destruct i.
    - destruct (nth_error _ _) as [[j es now]|]; auto. destruct (act _ _ _ _) as [[[[] j'] q1]|]; auto. }
  split; [|split].
  - assert (A : about u (Change u v) = true) by apply str_eqb_refl. rewrite (doc_self _ _ _ _ _ E A). cbv zeta. now rewrite Z.
  - cbn [step] in E. destruct (q_main q) eqn:Qm; [discriminate|]. rewrite Z in E. cbn [N.eqb] in E. injection E as <-. unfold on_main.
    destruct (ended (validate_job S u v)) eqn:En; [left; apply ended_over in En|right; apply ended_not_over in En]; auto.
  - intro i. cbn [step]. cbv zeta. rewrite Nt. now destruct i.
Qed.

(** ** C40: documents do not interfere *)

Lemma main_step : forall S q l q', step S q l = Some q' ->
  match l with
  | Tick _ | Files _ | SetText _ _ | Start _ _ => q_main q' = q_main q
  | Change u v => q_main q = None /\ (q_main q' = None \/ z_interval S = 0%N /\ exists i, q_main q' = Some (u, i))
  | Format u => q_main q = None /\ (q_main q' = None \/ exists i, q_main q' = Some (u, i))
  | Act u i => q_main q' = q_main q \/ q_main q = Some (u, i) /\ q_main q' = None
  end.
Proof.
  intros S q l q' H. destruct l as [n|F|u' t|u' v|u'|u' i|u' i]; cbn [step] in H; cbv zeta in *.
  - injection H as <-. reflexivity.
  - injection H as <-. reflexivity.
  - destruct (q_main q) eqn:M; [discriminate|]. injection H as <-. cbn. auto.
  - destruct (q_main q) eqn:M; [discriminate|]. split; auto. destruct (N.eqb_spec (z_interval S) 0); injection H as <-; [|cbn; auto].
    unfold on_main. destruct (ended _); cbn; eauto.
  - destruct (q_main q) eqn:M; [discriminate|]. split; auto. injection H as <-. unfold on_main. destruct (ended _); cbn; eauto.
  - destruct (nth_error _ _) as [[v due []]|]; try discriminate. destruct (due <=? q_now q)%N; [|discriminate]. injection H as <-. reflexivity.
  - destruct (nth_error _ _) as [[j es now]|]; [|discriminate]. destruct (act S q u' now) as [[[e j'] q1]|] eqn:E; [|discriminate]. injection H as <-.
    apply main_act in E. unfold release. cbn [set_doc q_main]. destruct (q_main q1) as [[u2 i2]|] eqn:Q1; [|left; cbn; congruence].
    destruct (str_eqb u' u2 && Nat.eqb i i2 && ended j') eqn:B; [|left; cbn; congruence]. cbn. right.
    apply andb_true_iff in B. destruct B as [B _]. apply andb_true_iff in B. destruct B as [B1 B2]. apply str_eqb_eq in B1. apply Nat.eqb_eq in B2. subst. auto.
Qed.

Lemma view_other : forall S q l q' u, own_file S u -> threads_only S q -> step S q l = Some q' -> about u l = false ->
  view S q' u = view S q u.
Proof.
  intros S q l q' u Ow Th E A. unfold view.
  assert (En : q_now q' = q_now q) by (rewrite (now_step _ _ _ _ E); now destruct l).
  assert (Ef : q_fs q' = q_fs q) by (rewrite (fs_step _ _ _ _ E); now destruct l).
  assert (Ec : match z_path S u with Some p => q_cache q' p | None => None end = match z_path S u with Some p => q_cache q p | None => None end).
  { destruct (z_path S u) as [p|] eqn:P; auto. rewrite (cache_step _ _ _ _ p E). destruct l; auto.
    destruct (nth_error (d_threads (q_docs q u0)) i) as [[j es now]|] eqn:N; auto. destruct now; auto.
    destruct (path_eqb p p0) eqn:X; auto. apply path_eqb_eq in X. subst p0. apply nth_error_In in N. apply Th in N. destruct N as [N _].
    rewrite (Ow u0 p P N) in A. cbn in A. rewrite str_eqb_refl in A. discriminate. }
  assert (Em : match q_main q' with Some (u', i) => if str_eqb u' u then Some i else None | None => None end =
               match q_main q with Some (u', i) => if str_eqb u' u then Some i else None | None => None end).
  { pose proof (main_step _ _ _ _ E) as M. destruct l as [n|F|u' t|u' v|u'|u' i|u' i]; try (now rewrite M); cbn [about] in A.
    - destruct M as [-> [->|(_ & i & ->)]]; auto. now rewrite A.
    - destruct M as [-> [->|(i & ->)]]; auto. now rewrite A.
    - destruct M as [->|[-> ->]]; auto. now rewrite A. }
  rewrite En, Ef, Ec, Em, (doc_other _ _ _ _ _ E A). reflexivity.
Qed.

Lemma release_docs : forall u i j q, q_docs (release u i j q) = q_docs q.
Proof. intros. unfold release. destruct (q_main q) as [[u2 i2]|]; auto. now destruct (str_eqb u u2 && Nat.eqb i i2 && ended j). Qed.
Lemma release_cache : forall u i j q, q_cache (release u i j q) = q_cache q.
Proof. intros. unfold release. destruct (q_main q) as [[u2 i2]|]; auto. now destruct (str_eqb u u2 && Nat.eqb i i2 && ended j). Qed.

Lemma view_self : forall S q1 q2 l q1' u, threads_only S q1 -> view S q1 u = view S q2 u -> about u l = true ->
  (match l with SetText _ _ | Change _ _ | Format _ => q_main q1 = None -> q_main q2 = None | _ => True end) ->
  step S q1 l = Some q1' ->
  exists q2', step S q2 l = Some q2' /\ view S q1' u = view S q2' u.
Proof.
  intros S q1 q2 l q1' u Th V A Mn E. unfold view in V. injection V as V1 V2 V3 V4 V5.
  assert (G : forall q2', step S q2 l = Some q2' ->
    q_docs q1' u = q_docs q2' u ->
    (forall p, z_path S u = Some p -> q_cache q1 p = q_cache q2 p -> q_cache q1' p = q_cache q2' p) ->
    match q_main q1' with Some (u', i) => if str_eqb u' u then Some i else None | None => None end =
    match q_main q2' with Some (u', i) => if str_eqb u' u then Some i else None | None => None end ->
    view S q1' u = view S q2' u).
  { intros q2' E2 D C M. unfold view. rewrite D, M, (now_step _ _ _ _ E), (now_step _ _ _ _ E2), (fs_step _ _ _ _ E), (fs_step _ _ _ _ E2), V1, V2.
    destruct (z_path S u) as [p|] eqn:P; [rewrite (C p eq_refl V4)|]; destruct l; reflexivity. }
  destruct l as [n|F|u' t|u' v|u'|u' i|u' i]; cbn [about] in A; try (apply str_eqb_eq in A; subst u').
  - eexists. split; [reflexivity|]. apply G; [reflexivity|..]; injection E as <-; cbn; auto.
  - eexists. split; [reflexivity|]. apply G; [reflexivity|..]; injection E as <-; cbn; auto.
  - cbn [step] in *. destruct (q_main q1) eqn:M1; [discriminate|]. rewrite (Mn eq_refl) in *. eexists. split; [reflexivity|].
    apply G; [reflexivity|..]; injection E as <-; cbn; rewrite ?str_eqb_refl, ?V3, ?M1, ?(Mn eq_refl); auto.
  - cbn [step] in *. destruct (q_main q1) eqn:M1; [discriminate|]. rewrite (Mn eq_refl) in *. cbv zeta in *. destruct (z_interval S =? 0)%N.
    + eexists. split; [reflexivity|]. apply G; [reflexivity|..]; injection E as <-; unfold on_main; rewrite V3; destruct (ended _); cbn; rewrite ?str_eqb_refl, ?M1, ?(Mn eq_refl); auto.
    + eexists. split; [reflexivity|]. apply G; [reflexivity|..]; injection E as <-; cbn; rewrite ?str_eqb_refl, ?V1, ?V3, ?M1, ?(Mn eq_refl); auto.
  - cbn [step] in *. destruct (q_main q1) eqn:M1; [discriminate|]. rewrite (Mn eq_refl) in *.
    eexists. split; [reflexivity|]. apply G; [reflexivity|..]; injection E as <-; unfold on_main; rewrite V3; destruct (ended _); cbn; rewrite ?str_eqb_refl, ?M1, ?(Mn eq_refl); auto.
  - cbn [step] in *. cbv zeta in *. rewrite <- V3, <- V1 in *. destruct (nth_error _ _) as [[v due []]|]; try discriminate.
    destruct (due <=? q_now q1)%N; [|discriminate]. eexists. split; [reflexivity|].
    apply G; [reflexivity|..]; injection E as <-; cbn; rewrite ?str_eqb_refl; auto.
  - cbn [step] in *. rewrite <- V3 in *. destruct (nth_error (d_threads (q_docs q1 u)) i) as [[j es now]|] eqn:N; [|discriminate].
    pose proof (nth_error_In _ _ N) as In1. apply Th in In1. cbn [h_now] in In1.
    destruct (act S q1 u now) as [[[e j'] q3]|] eqn:E1; [|discriminate].
    assert (X : exists q4, act S q2 u now = Some (e, j', q4)).
    { destruct now as [r|k|p k|k|p c k|p k|v ds k|ed k]; cbn in *; try discriminate; try (injection E1 as <- <- <-; eauto; fail).
      - injection E1 as <- <- <-. unfold source. rewrite V3, V2. eauto.
      - destruct In1 as [In1 _]. rewrite In1 in V4. rewrite V4 in E1. injection E1 as <- <- <-. eauto.
      - rewrite V2 in E1. injection E1 as <- <- <-. eauto.
      - destruct In1 as [In1 _]. rewrite In1 in V4. rewrite V4 in E1. injection E1 as <- <- <-. eauto. }
    destruct X as (q4 & E2). rewrite E2 in *. eexists. split; [reflexivity|].
    assert (D : q_docs q3 u = q_docs q4 u).
    { assert (K : forall q1 q4 e, act S q1 u now = Some (e, j', q4) ->
        q_docs q4 u = match e with VPublished v ds => publish (v, ds) (q_docs q1 u) | _ => q_docs q1 u end).
      { clear. intros q1 q4 e E. destruct now; cbn in E; try discriminate; injection E as <- _ <-; auto. cbn. now rewrite str_eqb_refl. }
      rewrite (K _ _ _ E1), (K _ _ _ E2), V3. reflexivity. }
    apply G; [reflexivity|..]; injection E as <-.
    + rewrite !release_docs. cbn. now rewrite str_eqb_refl, D.
    + intros p P C. transitivity (q_cache q3 p); [|transitivity (q_cache q4 p)].
      * rewrite release_cache. reflexivity.
      * rewrite (cache_act _ _ _ _ _ _ _ p E1), (cache_act _ _ _ _ _ _ _ p E2), C. destruct e; reflexivity.
      * rewrite release_cache. reflexivity.
    + unfold release. cbn [set_doc q_main]. apply main_act in E1, E2. rewrite E1, E2.
      destruct (q_main q1) as [[u2 i2]|] eqn:Q1; destruct (q_main q2) as [[u3 i3]|] eqn:Q2.
      * destruct (str_eqb u2 u) eqn:S2; destruct (str_eqb u3 u) eqn:S3; try discriminate.
        -- injection V5 as ->. rewrite (str_eqb_sym u u2), (str_eqb_sym u u3), S2, S3. destruct (true && _ && _); cbn; rewrite ?E1, ?E2, ?S2, ?S3; auto.
        -- rewrite (str_eqb_sym u u2), (str_eqb_sym u u3), S2, S3. cbn. rewrite E1, E2, S2, S3. auto.
      * destruct (str_eqb u2 u) eqn:S2; try discriminate. rewrite (str_eqb_sym u u2), S2. cbn. rewrite E1, E2, S2. auto.
      * destruct (str_eqb u3 u) eqn:S3; try discriminate. rewrite (str_eqb_sym u u3), S3. cbn. rewrite E1, E2, S3. auto.
      * cbn. rewrite E1, E2. auto.
Qed.

Definition own_main (u : uri) (q : state) : Prop := match q_main q with Some (u', _) => u' = u | None => True end.

Lemma own_main_step : forall S q l q' u, step S q l = Some q' -> about u l = true -> own_main u q -> own_main u q'.
Proof.
  intros S q l q' u E A O. pose proof (main_step _ _ _ _ E) as M. unfold own_main in *.
  destruct l as [n|F|u' t|u' v|u'|u' i|u' i]; try (now rewrite M); cbn [about] in A; apply str_eqb_eq in A; subst u'.
  - destruct M as [_ [->|(_ & i & ->)]]; auto.
  - destruct M as [_ [->|(i & ->)]]; auto.
  - destruct M as [->|[_ ->]]; auto.
Qed.

(** Leaving out everything that concerns other documents leads to the same: the same text, timers,
    threads, diagnostics and configuration of the document. *)
Theorem C40_projection : forall S F u h q, own_file S u -> reaches S F h q ->
  exists q', reaches S F (filter (about u) h) q' /\ view S q u = view S q' u.
Proof.
  intros S F u h q Ow R.
  assert (X : exists q', reaches S F (filter (about u) h) q' /\ view S q u = view S q' u /\ own_main u q').
  { revert h q R. apply (reaches_ind S F (fun h q => exists q', reaches S F (filter (about u) h) q' /\ view S q u = view S q' u /\ own_main u q')).
    - exists (init F). split; [reflexivity|]. split; [reflexivity|exact I].
    - intros h l q q1 R (q' & R' & V & O) E. rewrite filter_app. cbn [filter]. pose proof (threads_only_reached _ _ _ _ R) as Th. destruct (about u l) eqn:A.
      + destruct (view_self S q q' l q1 u Th V A) as (q2 & E2 & V2).
        * assert (M : q_main q = None -> q_main q' = None).
          { intro M. unfold own_main in O. unfold view in V. injection V as _ _ _ _ V5. rewrite M in V5. destruct (q_main q') as [[a b]|]; auto.
            subst a. rewrite str_eqb_refl in V5. discriminate. }
          destruct l; auto.
        * exact E.
        * exists q2. split; [apply reaches_snoc; eauto|]. split; auto. eapply own_main_step; eauto.
      + exists q'. rewrite app_nil_r. split; auto. split; auto. rewrite <- V. eapply view_other; eauto. }
  destruct X as (q' & A & B & _). eauto.
Qed.

(** Nor are timers and threads held up: they can go on exactly when they could if the other documents
    did not exist. *)
Theorem C40_no_delay : forall S F u h q q' i, own_file S u -> reaches S F h q -> reaches S F (filter (about u) h) q' ->
  (possible S q (Start u i) <-> possible S q' (Start u i)) /\
  (possible S q (Act u i) <-> possible S q' (Act u i)).
Proof.
  intros S F u h q q' i Ow R R'. destruct (C40_projection S F u h q Ow R) as (q2 & R2 & V).
  assert (q2 = q') by (unfold reaches in *; congruence). subst q2.
  assert (G : forall l, about u l = true -> match l with SetText _ _ | Change _ _ | Format _ => False | _ => True end ->
    (possible S q l <-> possible S q' l)).
  { intros l A N. unfold possible. split; intros P; [destruct (step S q l) as [q1|] eqn:E|destruct (step S q' l) as [q1|] eqn:E]; try congruence.
    - destruct (view_self S q q' l q1 u (threads_only_reached _ _ _ _ R) V A) as (q3 & -> & _); [destruct l; tauto|exact E|discriminate].
    - destruct (view_self S q' q l q1 u (threads_only_reached _ _ _ _ R') (eq_sym V) A) as (q3 & -> & _); [destruct l; tauto|exact E|discriminate]. }
  split; apply G; try exact I; apply str_eqb_refl.
Qed.
