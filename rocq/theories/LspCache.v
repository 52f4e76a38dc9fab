(** * The language server: computing configurations (C41) *)
From Coq Require Import String List NArith ZArith Bool Arith Lia.
From Verif Require Import Base PyStr Ftypes Paths Config Suppress Cst Engine Api ApiSpec Lsp LspSpec LspFacts LspProps LspPublish.
Import ListNotations.

Opaque fixit_bytes.

(** A job that asks the cache in vain looks at the files next; if they give no configuration it ends. *)
Fixpoint asks (S : server) (j : job) : Prop :=
  match j with
  | JEnd _ => True
  | JDoc k => forall t, asks S (k t)
  | JHas p k => asks S (k true) /\ asks S (k false) /\
      exists kl, k false = JLook kl /\ forall F, kl F = jlift (generate_config (t_env (z_tool S)) F p None (Some (z_options S))) (fun c => JStore p c (k true))
  | JLook k => forall F, asks S (k F)
  | JStore _ _ k => asks S k
  | JFetch _ k => forall c, asks S (k c)
  | JPublish _ _ k => asks S k
  | JReply _ k => asks S k
  end.

Lemma asks_drain : forall S R (g : prog R) acc k, (forall xs r, asks S (k xs r)) -> asks S (drain g acc k).
Proof. intros S R g. induction g; intros acc kk Hk; cbn [drain asks]; auto. Qed.
Lemma asks_lift : forall S A (r : res A) k, (forall a, asks S (k a)) -> asks S (jlift r k).
Proof. intros S A [a|e] k H; cbn; auto. Qed.

Lemma asks_results : forall S u a none k, asks S none -> (forall xs r, asks S (k xs r)) -> asks S (with_results S u a none k).
Proof.
  intros S u a none k H0 H. unfold with_results. destruct (z_path S u) as [p|]; auto. cbn [asks]. intro t. apply asks_lift. intro text.
  apply asks_lift. intro content. unfold load_config. cbn [asks].
  assert (Fe : forall c : option config, asks S match c with
      | Some c => drain (fixit_bytes (z_tool S) p content c a false) [] k | None => JEnd (Err KeyError) end).
  { intros [c|]; [|exact Logic.I]. now apply asks_drain. }
  split; [exact Fe|]. split; [intro F; apply asks_lift; intro c; exact Fe|].
  eexists. split; [reflexivity|]. intro F. reflexivity.
Qed.

Lemma asks_job : forall S F h q u t, reaches S F h q -> In t (d_threads (q_docs q u)) -> asks S (h_job t).
Proof.
  intros S F h q u t R I. destruct (thread_ok_reached _ _ _ _ R) as [_ T]. apply T in I. destruct (to_kind _ _ _ _ _ _ I) as [->|(v & -> & _)].
  - apply asks_results; [exact Logic.I|]. intros _ [[|c l]|]; try exact Logic.I. cbn [asks]. intro x. apply asks_lift. intro text.
    apply asks_lift. intro rg. apply asks_lift. intro new. exact Logic.I.
  - apply asks_results; intros; exact Logic.I.
Qed.

Lemma asks_did : forall S j es j', did j es j' -> asks S j -> forall a p b, es = a ++ VHas p false :: b ->
  b = [] \/ exists G b', b = VLooked G :: b' /\
    match generate_config (t_env (z_tool S)) G p None (Some (z_options S)) with
    | Err e => b' = [] /\ j' = JEnd (Err e)
    | Ok c => b' = [] \/ exists b'', b' = VStored p c :: b''
    end.
Proof.
  intros S j es j' D. induction D; intros A x p1 y E; try (destruct x as [|x0 x]; [discriminate E|]; injection E as _ E; eapply IHD; eauto; apply A).
  - destruct x; discriminate E.
  - cbn [asks] in A. destruct x as [|x0 x].
    + cbn in E. injection E as -> -> ->. destruct A as (_ & _ & kl & K & L). rewrite K in D. inversion D as [ | | |F ? es' ? D'| | | | ]; subst; auto.
      right. exists F, es'. split; auto. rewrite L in D'. apply lift_did in D'. destruct D' as [(c & -> & D')|(e & -> & -> & ->)]; auto.
      inversion D'; subst; eauto.
    + injection E as _ E. eapply IHD; eauto. destruct b; apply A.
Qed.

(** It asks once, first of all after reading the document. *)
Fixpoint mute (j : job) : Prop :=
  match j with
  | JEnd _ => True
  | JDoc k => forall t, mute (k t)
  | JHas _ _ => False
  | JLook k => forall F, mute (k F)
  | JStore _ _ k | JPublish _ _ k | JReply _ k => mute k
  | JFetch _ k => forall c, mute (k c)
  end.
Fixpoint first (j : job) : Prop :=
  match j with
  | JEnd _ => True
  | JDoc k => forall t, first (k t)
  | JHas _ k => forall b, mute (k b)
  | _ => mute j
  end.

Lemma mute_drain : forall R (g : prog R) acc k, (forall xs r, mute (k xs r)) -> mute (drain g acc k).
Proof. intros R g. induction g; intros acc kk Hk; cbn [drain mute]; auto. Qed.
Lemma mute_lift : forall A (r : res A) k, (forall a, mute (k a)) -> mute (jlift r k).
Proof. intros A [a|e] k H; cbn; auto. Qed.
Lemma first_lift : forall A (r : res A) k, (forall a, first (k a)) -> first (jlift r k).
Proof. intros A [a|e] k H; cbn; auto. Qed.

Lemma first_results : forall S u a none k, first none -> (forall xs r, mute (k xs r)) -> first (with_results S u a none k).
Proof.
  intros S u a none k H0 H. unfold with_results. destruct (z_path S u) as [p|]; auto. cbn [first]. intro t. apply first_lift. intro text.
  apply first_lift. intro content. unfold load_config. cbn [first].
  assert (Fe : forall c : option config, mute match c with
      | Some c => drain (fixit_bytes (z_tool S) p content c a false) [] k | None => JEnd (Err KeyError) end).
  { intros [c|]; [|exact Logic.I]. now apply mute_drain. }
  intros []; [exact Fe|]. intro F. apply mute_lift. intro c. exact Fe.
Qed.

Lemma first_job : forall S F h q u t, reaches S F h q -> In t (d_threads (q_docs q u)) -> first (h_job t).
Proof.
  intros S F h q u t R I. destruct (thread_ok_reached _ _ _ _ R) as [_ T]. apply T in I. destruct (to_kind _ _ _ _ _ _ I) as [->|(v & -> & _)].
  - apply first_results; [exact Logic.I|]. intros _ [[|c l]|]; try exact Logic.I. cbn [mute]. intro x. apply mute_lift. intro text.
    apply mute_lift. intro rg. apply mute_lift. intro new. exact Logic.I.
  - apply first_results; intros; exact Logic.I.
Qed.

Lemma mute_did : forall j es j', did j es j' -> mute j -> forall p b, ~ In (VHas p b) es.
Proof.
  intros j es j' D. induction D; intros M p1 b1 I; try (destruct I as [I|I]; [discriminate I|]; eapply IHD; eauto; apply M); auto.
Qed.

Lemma first_did : forall j es j', did j es j' -> first j -> forall a p b es', es = a ++ VHas p b :: es' -> forall e, In e a -> exists r, e = VDoc r.
Proof.
  intros j es j' D. induction D; intros M x p1 b1 y E ev I; try (destruct x; [destruct I|]; discriminate E);
    try (exfalso; match type of E with ?l = _ => assert (I' : In (VHas p1 b1) l) by (rewrite E, in_app_iff; simpl; auto) end;
         destruct I' as [I'|I']; [discriminate I'|]; revert I'; eapply mute_did; eauto; fail).
  - destruct x as [|x0 x]; [destruct I|]. injection E as <- E. destruct I as [<-|I]; [eauto|]. eapply IHD; eauto.
  - destruct x as [|x0 x]; [destruct I|]. injection E as _ E. exfalso. apply (mute_did _ _ _ D (M b) p1 b1). rewrite E, in_app_iff. simpl. auto.
Qed.

(** A request that finds no configuration looks at the files as they are then. If they give none it
    ends with the error, and it has stored, published and replied nothing; else it stores what they
    give. *)
Theorem C41_computed : forall S F h q u t p a b, reaches S F h q -> In t (d_threads (q_docs q u)) -> h_done t = a ++ VHas p false :: b ->
  (forall e, In e a -> exists r, e = VDoc r) /\
  (b = [] \/ exists G b', b = VLooked G :: b' /\ was_fs S F h G /\
    match generate_config (t_env (z_tool S)) G p None (Some (z_options S)) with
    | Err e => b' = [] /\ h_now t = JEnd (Err e)
    | Ok c => b' = [] \/ exists b'', b' = VStored p c :: b''
    end).
Proof.
  intros S F h q u t p a b R I E. destruct (thread_ok_reached _ _ _ _ R) as [_ T]. pose proof (T _ _ I) as K.
  split; [eapply first_did; [eapply to_did; eauto|eapply first_job; eauto|exact E]|].
  destruct (asks_did _ _ _ _ (to_did _ _ _ _ _ _ K) (asks_job _ _ _ _ _ _ R I) _ _ _ E) as [->|(G & b' & -> & W)]; auto. right. exists G, b'.
  split; auto. split; auto. eapply to_looked; eauto. rewrite E, in_app_iff. simpl. auto.
Qed.

(** So a configuration that cannot be computed is not kept: as long as the files gave none, the server
    has none and every request looks again. *)
Lemma has_told : forall S F h q, reaches S F h q -> forall u t p, In t (d_threads (q_docs q u)) -> In (VHas p true) (h_done t) -> exists c, was_cached S F h p c.
Proof.
  intros S F. apply (reaches_ind S F (fun h q => forall u t p, In t (d_threads (q_docs q u)) -> In (VHas p true) (h_done t) -> exists c, was_cached S F h p c)); [intros u t p []|].
  intros h l q q' R IH E u t p I J. apply In_nth_error in I. destruct I as (k & N).
  destruct (thread_after _ _ _ _ _ _ _ E N) as [[N0 Na]|[(_ & [(v & -> & _)|[-> _]])|(j & es & now & e & j' & q1 & -> & N0 & X & ->)]]; try contradiction.
  - destruct (IH _ _ _ (nth_error_In _ _ N0) J) as (c & W). exists c. now apply was_cached_snoc.
  - cbn [h_done] in J. apply in_app_iff in J. destruct J as [J|[J|[]]].
    + destruct (IH _ _ _ (nth_error_In _ _ N0) J) as (c & W). exists c. now apply was_cached_snoc.
    + subst e. destruct now; cbn in X; try discriminate. destruct (q_cache q p0) as [c|] eqn:Q; [|discriminate]. injection X as <- _ _.
      exists c. apply was_cached_snoc. eapply was_cached_now; eauto.
Qed.

Theorem C41_failing : forall S F h q p, reaches S F h q ->
  (forall G, was_fs S F h G -> exists e, generate_config (t_env (z_tool S)) G p None (Some (z_options S)) = Err e) ->
  q_cache q p = None /\ forall u t b, In t (d_threads (q_docs q u)) -> In (VHas p b) (h_done t) -> b = false.
Proof.
  intros S F h q p R H. assert (No : forall c, ~ was_cached S F h p c).
  { intros c W. destruct (C41_from_files _ _ _ _ _ W) as (G & W' & E). destruct (H G W') as (e & E'). congruence. }
  split.
  - destruct (q_cache q p) as [c|] eqn:Q; auto. exfalso. apply (No c). eapply was_cached_now; eauto.
  - intros u t [] I J; auto. exfalso. destruct (has_told _ _ _ _ R _ _ _ I J) as (c & W). now apply (No c).
Qed.

(** As long as requests for one file do not overlap, at most one of them stores a configuration, and
    that one once. *)
Theorem C41_once : forall S F h q p, no_overlap_on S F h p -> reaches S F h q ->
  forall u i t c u' i' t' c', nth_error (d_threads (q_docs q u)) i = Some t -> In (VStored p c) (h_done t) ->
    nth_error (d_threads (q_docs q u')) i' = Some t' -> In (VStored p c') (h_done t') ->
    u = u' /\ i = i' /\ c = c' /\ exists a b, h_done t = a ++ VStored p c :: b /\ forall x, ~ In (VStored p x) (a ++ b).
Proof.
  intros S F h q p Ov R. revert h q R Ov. apply (reaches_ind S F (fun h q => no_overlap_on S F h p ->
    forall u i t c u' i' t' c', nth_error (d_threads (q_docs q u)) i = Some t -> In (VStored p c) (h_done t) ->
    nth_error (d_threads (q_docs q u')) i' = Some t' -> In (VStored p c') (h_done t') ->
    u = u' /\ i = i' /\ c = c' /\ exists a b, h_done t = a ++ VStored p c :: b /\ forall x, ~ In (VStored p x) (a ++ b))); [intros _ u [|i] t; discriminate|].
  intros h l q q' R IH E Ov. pose proof (overlap_prefix _ _ _ _ _ Ov) as Ov'. specialize (IH Ov').
  assert (Ca : forall u i t c, nth_error (d_threads (q_docs q u)) i = Some t -> In (VStored p c) (h_done t) -> q_cache q p <> None).
  { clear - R. revert h q R. apply (reaches_ind S F (fun h q => forall u i t c, nth_error (d_threads (q_docs q u)) i = Some t -> In (VStored p c) (h_done t) -> q_cache q p <> None));
      [intros u [|i] t; discriminate|].
    intros h l q q' R IH E u k t c N J.
    destruct (thread_after _ _ _ _ _ _ _ E N) as [[N0 Na]|[(_ & [(v & -> & _)|[-> _]])|(j & es & now & e & j' & q1 & -> & N0 & X & ->)]]; try contradiction.
    - eapply cache_grows; eauto.
    - cbn [h_done] in J. apply in_app_iff in J. destruct J as [J|[J|[]]]; [eapply cache_grows; eauto; eapply IH; eauto|]. subst e.
      destruct now; cbn in X; try discriminate. injection X as -> -> _ _. rewrite (cache_step _ _ _ _ p E), N0, path_eqb_refl. discriminate. }
  (* a thread that stores now: nothing was stored before *)
  assert (St : forall u k j es now e j' q1, nth_error (d_threads (q_docs q u)) k = Some (Thread j es now) -> act S q u now = Some (e, j', q1) ->
    forall c, e = VStored p c -> q_cache q p = None).
  { intros u k j es now e j' q1 N0 X c ->. destruct now; cbn in X; try discriminate. injection X as -> -> _ _.
    destruct (thread_ok_reached _ _ _ _ R) as [_ T]. specialize (T _ _ (nth_error_In _ _ N0)). apply to_okj in T. cbn in T. destruct T as [(F' & Tr & _) _].
    destruct (missed _ _ _ _ _ R Ov' _ _ _ N0) as [_ X]; [right; eauto|]. now apply X. }
  assert (Old : forall u k t c, nth_error (d_threads (q_docs q' u)) k = Some t -> In (VStored p c) (h_done t) ->
    (exists t0, nth_error (d_threads (q_docs q u)) k = Some t0 /\ In (VStored p c) (h_done t0) /\
       (h_done t = h_done t0 \/ exists e, h_done t = h_done t0 ++ [e] /\ forall x, e <> VStored p x)) \/
    (l = Act u k /\ q_cache q p = None /\ exists t0, nth_error (d_threads (q_docs q u)) k = Some t0 /\ h_done t = h_done t0 ++ [VStored p c])).
  { intros u k t c N J.
    destruct (thread_after _ _ _ _ _ _ _ E N) as [[N0 Na]|[(_ & [(v & -> & _)|[-> _]])|(j & es & now & e & j' & q1 & -> & N0 & X & ->)]]; try contradiction.
    - left. exists t. auto.
    - cbn [h_done] in J |- *. apply in_app_iff in J. destruct J as [J|[J|[]]].
      + left. exists (Thread j es now). split; auto. split; auto. right. exists e. split; auto. intros x Ex.
        apply (Ca _ _ _ _ N0 J). eapply St; eauto.
      + right. split; auto. split; [eapply St; eauto|]. exists (Thread j es now). split; auto. subst e. auto. }
  intros u i t c u' i' t' c' N J N' J'.
  destruct (Old _ _ _ _ N J) as [(t0 & N0 & J0 & D0)|(L & Q & t0 & N0 & D0)]; destruct (Old _ _ _ _ N' J') as [(t1 & N1 & J1 & D1)|(L' & Q' & t1 & N1 & D1)].
  - destruct (IH _ _ _ _ _ _ _ _ N0 J0 N1 J1) as (-> & -> & -> & a & b & Da & No). split; auto. split; auto. split; auto.
    destruct D0 as [->|(e & -> & Ne)]; [eauto|]. exists a, (b ++ [e]). rewrite Da, <- app_assoc. split; auto.
    intros x In_. rewrite app_assoc in In_. apply in_app_iff in In_. destruct In_ as [In_|[In_|[]]]; [now apply (No x)|now apply (Ne x)].
  - now destruct (Ca _ _ _ _ N0 J0).
  - now destruct (Ca _ _ _ _ N1 J1).
  - rewrite L in L'. injection L' as -> ->. rewrite N0 in N1. injection N1 as <-. rewrite N in N'. injection N' as <-. rewrite D0 in D1. apply app_inj_tail in D1.
    destruct D1 as [_ D1]. injection D1 as <-. split; auto. split; auto. split; auto. exists (h_done t0), []. split; auto. rewrite app_nil_r. intros x In_. now apply (Ca _ _ _ _ N0 In_).
Qed.
