(** * C77: the language server handles every request *)
From Coq Require Import String List NArith ZArith Bool Arith Lia.
From Verif Require Import Base PyStr Ftypes Paths Config Suppress Cst Engine Api ApiSpec ApiFacts ApiProps Lsp LspSpec LspFacts LspProps LspPublish LspFormat.
Import ListNotations.

(** ** Specification *)

(** A message from the client: the text of a document, a notification, a request. *)
Definition message (l : label) : Prop :=
  match l with SetText _ _ | Change _ _ | Format _ => True | _ => False end.

(** The server takes messages. *)
Definition ready (S : server) (q : state) : Prop := forall l, message l -> possible S q l.

(** How often the i-th thread of [u] has acted. *)
Definition actions_of (u : uri) (i : nat) (h : list label) : nat :=
  List.length (filter (fun l => match l with Act u' i' => str_eqb u' u && Nat.eqb i' i | _ => false end) h).

(** The answers given by a thread. *)
Definition answers (t : thread) : list (option edit) :=
  flat_map (fun e => match e with VReplied r => [r] | _ => [] end) (h_done t).

(** ** How many actions a request takes *)

Fixpoint looks {R} (n : nat) (g : prog R) : Prop :=
  match g with
  | Ret _ | Raise _ => True
  | Give _ k => forall a, looks n (k a)
  | Look k => match n with O => False | Datatypes.S m => forall F, looks m (k F) end
  | _ => False
  end.

Definition limited (n : nat) (j : job) : Prop := forall es j', did j es j' -> List.length es <= n.

Lemma looks_more : forall R (g : prog R) n m, n <= m -> looks n g -> looks m g.
Proof.
  intros R g. induction g as [r|e|x k IH|k IH|p c k IH|k IH|c k IH|x k IH]; intros n m L H; cbn [looks] in *; auto.
  - intro a. eapply IH; eauto.
  - destruct n; [contradiction|]. destruct m; [lia|]. intro F. eapply IH; [|apply H]. lia.
Qed.

Lemma looks_lift : forall A B (r : res A) (f : A -> prog B) n, (forall a, looks n (f a)) -> looks n (lift r f).
Proof. intros A B [a|e] f n H; cbn [lift looks]; auto. Qed.
Lemma looks_catch : forall A (g : prog A) h n, looks n g -> (forall e, looks 0 (h e)) -> looks n (catch g h).
Proof.
  intros A g h. induction g as [r|e|x k IH|k IH|p c k IH|k IH|c k IH|x k IH]; intros n H K; cbn [looks catch] in *; auto.
  - eapply looks_more; [|apply K]. lia.
  - destruct n; [contradiction|]. auto.
Qed.
Lemma looks_loop : forall p autofix k n evs r clean pending,
  (forall x, In x evs -> exists v, x = Yield v) -> (forall c l, looks n (k c l)) ->
  looks n (Api.lint_loop p autofix evs r clean pending k).
Proof.
  intros p autofix k n evs r. induction evs as [|e evs IH]; intros clean pending He Hk; cbn [Api.lint_loop].
  - apply looks_lift. auto.
  - destruct (He e) as [v ->]; [simpl; auto|]. cbn [looks]. intro a. apply IH; auto. intros x Hx. apply He. simpl. auto.
Qed.

Transparent fixit_bytes.
Lemma looks_bytes : forall T p content cfg autofix, looks 2 (fixit_bytes T p content cfg autofix false).
Proof.
  intros T p content cfg autofix. unfold fixit_bytes. apply looks_catch; [|cbn; auto]. cbn [looks]. intro F.
  apply looks_lift. intros rules.
  assert (K : looks 1 (lift (t_parse T content) (fun md =>
               let (evs, r) := collect_violations (t_udiff T p) md (t_visit T F cfg md rules) false in
               Api.lint_loop p autofix evs r true [] (fun clean pending =>
                 if clean : bool then Give (clean_result p) (fun _ => finish_fixes T p cfg md pending)
                 else finish_fixes T p cfg md pending)))).
  { apply looks_lift. intro md. pose proof (collect_hook (t_udiff T p) md (t_visit T F cfg md rules)) as C.
    destruct (collect_violations _ _ _ false) as [evs r]. destruct C as [C _]. apply looks_loop; auto.
    assert (Fi : forall pending, looks 1 (finish_fixes T p cfg md pending)).
    { intro pending. unfold finish_fixes. destruct pending; cbn [looks]; auto. apply looks_lift. intros [m|]; cbn [looks]; auto.
      intro G. apply looks_lift. cbn. auto. }
    intros [|] l; cbn [looks]; auto. }
  destruct rules; [cbn; auto|exact K].
Qed.
Opaque fixit_bytes.

Lemma limited_end : forall r n, limited n (JEnd r).
Proof. intros r n es j' H. inversion H; subst; cbn; lia. Qed.
Lemma limited_more : forall j n m, n <= m -> limited n j -> limited m j.
Proof. intros j n m L H es j' D. pose proof (H es j' D). lia. Qed.
Ltac one := let H := fresh in intros H es j' D; inversion D; subst; cbn [List.length]; [lia|]; apply le_n_S; eapply H; eassumption.
Lemma limited_doc : forall n k, (forall t, limited n (k t)) -> limited (Datatypes.S n) (JDoc k).
Proof. intros n k. one. Qed.
Lemma limited_has : forall n p k, (forall b, limited n (k b)) -> limited (Datatypes.S n) (JHas p k).
Proof. intros n p k. one. Qed.
Lemma limited_look : forall n k, (forall F, limited n (k F)) -> limited (Datatypes.S n) (JLook k).
Proof. intros n k. one. Qed.
Lemma limited_store : forall n p c k, limited n k -> limited (Datatypes.S n) (JStore p c k).
Proof. intros n p c k. one. Qed.
Lemma limited_fetch : forall n p k, (forall c, limited n (k c)) -> limited (Datatypes.S n) (JFetch p k).
Proof. intros n p k. one. Qed.
Lemma limited_publish : forall n v ds k, limited n k -> limited (Datatypes.S n) (JPublish v ds k).
Proof. intros n v ds k. one. Qed.
Lemma limited_reply : forall n e k, limited n k -> limited (Datatypes.S n) (JReply e k).
Proof. intros n e k. one. Qed.
Lemma limited_lift : forall A (r : res A) k n, (forall a, limited n (k a)) -> limited n (jlift r k).
Proof. intros A [a|e] k n H; cbn [jlift]; auto using limited_end. Qed.

Lemma limited_drain : forall R (g : prog R) n m acc k, looks n g -> (forall xs r, limited m (k xs r)) -> limited (n + m) (drain g acc k).
Proof.
  intros R g. induction g as [r|e|x g IH|g IH|p c g IH|g IH|c g IH|y g IH]; intros n m acc k H K; cbn [looks drain] in *; auto using limited_end.
  - eapply limited_more; [|apply K]. lia.
  - destruct n; [contradiction|]. cbn [Nat.add]. apply limited_look. intro F. apply IH; auto.
Qed.

Lemma limited_results : forall S u a none k m, limited (7 + m) none -> (forall xs r, limited m (k xs r)) ->
  limited (7 + m) (with_results S u a none k).
Proof.
  intros S u a none k m Hn K. unfold with_results. destruct (z_path S u) as [p|]; auto.
  apply limited_doc. intro t. apply limited_lift. intro text. apply limited_lift. intro content. unfold load_config.
  assert (Fe : limited (3 + m) (JFetch p (fun c => match c with
      | Some c => drain (fixit_bytes (z_tool S) p content c a false) [] k | None => JEnd (Err KeyError) end))).
  { apply limited_fetch. intros [c|]; [|apply limited_end]. apply (limited_drain _ _ 2 m); auto using looks_bytes. }
  apply limited_has. intros [|]; [eapply limited_more; [|exact Fe]; lia|].
  apply limited_look. intro F. apply limited_lift. intro c. now apply limited_store.
Qed.

Lemma limited_validate : forall S u v, limited 9 (validate_job S u v).
Proof.
  intros S u v. eapply limited_more; [|apply (limited_results _ _ _ _ _ 1)]; [lia|apply limited_end|].
  intros xs r. apply limited_publish, limited_end.
Qed.
Lemma limited_format : forall S u, limited 9 (format_job S u).
Proof.
  intros S u. apply (limited_results _ _ _ _ _ 2).
  - eapply limited_more; [|apply limited_reply, (limited_end _ 0)]. lia.
  - intros _ [[|c l]|]; try (apply limited_reply, limited_end).
    apply limited_doc. intro t. do 3 (apply limited_lift; intro). apply limited_reply, limited_end.
Qed.

(** No request takes more than nine actions of its thread. *)
Theorem C77_bounded : forall S F h q u t, reaches S F h q -> In t (d_threads (q_docs q u)) -> List.length (h_done t) <= 9.
Proof.
  intros S F h q u t R H. destruct (thread_ok_reached _ _ _ _ R) as [_ T]. specialize (T _ _ H).
  pose proof (to_did _ _ _ _ _ _ T) as D. destruct (to_kind _ _ _ _ _ _ T) as [K|(v & K & _)]; rewrite K in D.
  - eapply limited_format; eauto.
  - eapply limited_validate; eauto.
Qed.

(** ** The main thread *)

Lemma busy_active : forall S F h q, reaches S F h q -> forall u i, q_main q = Some (u, i) -> active (q_docs q u) i.
Proof.
  intros S F. apply (reaches_ind S F (fun _ q => forall u i, q_main q = Some (u, i) -> active (q_docs q u) i)); [discriminate|].
  intros h l q q' R IH E u i M. pose proof (main_step _ _ _ _ E) as Ms.
  assert (Keep : q_main q = Some (u, i) -> (forall k, l <> Act u k) -> active (q_docs q' u) i).
  { intros Mq Na. specialize (IH _ _ Mq). apply active_ended in IH. destruct IH as (t & N & En). apply active_ended. exists t. split; auto.
    destruct (about u l) eqn:A; [|now rewrite (doc_other _ _ _ _ _ E A)].
    rewrite (doc_self _ _ _ _ _ E A). cbv zeta.
    assert (L : i < List.length (d_threads (q_docs q u))) by (apply nth_error_Some; congruence).
    destruct l as [n|F1|u' x|u' v|u'|u' k|u' k]; cbn [about] in A; try (apply str_eqb_eq in A; subst u'); auto.
    - destruct (z_interval S =? 0)%N; auto. cbn. now rewrite nth_error_app1.
    - cbn. now rewrite nth_error_app1.
    - destruct (nth_error (d_timers _) k); auto. cbn. now rewrite nth_error_app1.
    - exfalso. eapply Na; eauto. }
  destruct l as [n|F1|u' x|u' v|u'|u' k|u' k]; try (apply Keep; [congruence|discriminate]).
  - destruct Ms as [Mq _]. cbn [step] in E. rewrite Mq in E. destruct (z_interval S =? 0)%N; injection E as <-; [|cbn in M; congruence].
    unfold on_main in *. destruct (ended (validate_job S u' v)) eqn:En; [cbn in M; congruence|]. injection M as -> <-. apply active_ended.
    exists (Thread (validate_job S u v) [] (validate_job S u v)). split; auto. cbn. rewrite str_eqb_refl. cbn. now rewrite nth_error_app2, Nat.sub_diag.
  - destruct Ms as [Mq _]. cbn [step] in E. rewrite Mq in E. injection E as <-.
    unfold on_main in *. destruct (ended (format_job S u')) eqn:En; [cbn in M; congruence|]. injection M as -> <-. apply active_ended.
    exists (Thread (format_job S u) [] (format_job S u)). split; auto. cbn. rewrite str_eqb_refl. cbn. now rewrite nth_error_app2, Nat.sub_diag.
  - destruct Ms as [Ms|[_ Ms]]; [|congruence]. rewrite Ms in M. destruct (str_eqb u' u) eqn:U.
    2: { apply Keep; auto. intros k' X. injection X as -> _. rewrite str_eqb_refl in U. discriminate. }
    apply str_eqb_eq in U. subst u'. specialize (IH _ _ M). apply active_ended in IH. destruct IH as (t & N & En).
    assert (A : about u (Act u k) = true) by apply str_eqb_refl. pose proof (doc_self _ _ _ _ _ E A) as D. cbv zeta in D.
    cbn [step] in E. destruct (nth_error (d_threads (q_docs q u)) k) as [[j es now]|] eqn:Nk; [|discriminate].
    destruct (act S q u now) as [[[e j'] q1]|] eqn:X; [|discriminate].
    assert (Dt : d_threads (q_docs q' u) = update_nth k (fun _ => Thread j (es ++ [e]) j') (d_threads (q_docs q u))) by (rewrite D; cbv iota beta; rewrite ?Nk, ?X; destruct e; reflexivity).
    apply active_ended. rewrite Dt. setoid_rewrite nth_update. destruct (Nat.eqb_spec i k) as [->|Ni]; [|eauto].
    rewrite Nk. cbn. eexists. split; [reflexivity|]. cbn. destruct (ended j') eqn:Ej; auto. exfalso.
    injection E as <-. apply main_act in X. unfold release in Ms. cbn [set_doc q_main] in Ms. rewrite X, M in Ms.
    rewrite str_eqb_refl, Nat.eqb_refl, Ej in Ms. cbn in Ms. discriminate.
Qed.

Lemma active_possible : forall S q u i, active (q_docs q u) i <-> possible S q (Act u i).
Proof.
  intros S q u i. rewrite active_ended. unfold possible. cbn [step]. split.
  - intros (t & N & En). rewrite N. destruct t as [j es now]. cbn in En. destruct now; try discriminate; cbn; discriminate.
  - destruct (nth_error _ _) as [[j es now]|] eqn:N; [|congruence]. intro H. eexists. split; [reflexivity|]. cbn. destruct now; auto. cbn in H. congruence.
Qed.

Lemma ready_main : forall S q, ready S q <-> q_main q = None.
Proof.
  intros S q. split.
  - intro H. specialize (H (SetText [] None) I). unfold possible in H. cbn [step] in H. destruct (q_main q); congruence.
  - intros M l L. unfold possible. destruct l; try contradiction; cbn [step]; rewrite M; try discriminate. destruct (_ =? _)%N; discriminate.
Qed.

Lemma actions_snoc : forall u i h l, actions_of u i (h ++ [l]) = actions_of u i h + actions_of u i [l].
Proof. intros. unfold actions_of. now rewrite filter_app, app_length. Qed.

Lemma thread_kept : forall S q l q' u i t, step S q l = Some q' -> nth_error (d_threads (q_docs q u)) i = Some t ->
  exists t', nth_error (d_threads (q_docs q' u)) i = Some t' /\ h_job t' = h_job t /\ List.length (h_done t') = List.length (h_done t) + actions_of u i [l].
Proof.
  intros S q l q' u i t E N. assert (L : i < List.length (d_threads (q_docs q u))) by (apply nth_error_Some; congruence).
  assert (Z : actions_of u i [l] = 0 -> nth_error (d_threads (q_docs q' u)) i = Some t ->
     exists t', nth_error (d_threads (q_docs q' u)) i = Some t' /\ h_job t' = h_job t /\ List.length (h_done t') = List.length (h_done t) + actions_of u i [l]).
  { intros Z H. exists t. rewrite Z. split; auto. }
  destruct (about u l) eqn:A.
  2: { apply Z; [|now rewrite (doc_other _ _ _ _ _ E A)]. unfold actions_of. cbn [filter]. destruct l; auto. cbn [about] in A. now rewrite A. }
  pose proof (doc_self _ _ _ _ _ E A) as D. cbv zeta in D.
  destruct l as [n|F1|u' x|u' v|u'|u' k|u' k]; cbn [about] in A; try (apply str_eqb_eq in A; subst u'); try (apply Z; [reflexivity|]; rewrite D).
  - auto.
  - auto.
  - auto.
  - destruct (z_interval S =? 0)%N; auto. cbn. now rewrite nth_error_app1.
  - cbn. now rewrite nth_error_app1.
  - destruct (nth_error (d_timers _) k); auto. cbn. now rewrite nth_error_app1.
  - cbn [step] in E. destruct (nth_error (d_threads (q_docs q u)) k) as [[j es now]|] eqn:Nk; [|discriminate].
    destruct (act S q u now) as [[[e j'] q1]|] eqn:X; [|discriminate].
    assert (Dt : d_threads (q_docs q' u) = update_nth k (fun _ => Thread j (es ++ [e]) j') (d_threads (q_docs q u))) by (rewrite D; cbv iota beta; rewrite ?Nk, ?X; destruct e; reflexivity).
    rewrite Dt, nth_update. unfold actions_of. cbn [filter]. rewrite str_eqb_refl. cbn [andb].
    destruct (Nat.eqb_spec i k) as [->|Ni].
    + rewrite Nk in N. injection N as <-. rewrite Nk, ?Nat.eqb_refl. cbn. eexists. split; [reflexivity|]. cbn. split; auto. now rewrite app_length.
    + exists t. replace (Nat.eqb k i) with false by (symmetry; apply Nat.eqb_neq; congruence). cbn. rewrite Nat.add_0_r. split; auto.
Qed.

Lemma threads_kept_long : forall S q h q' u i t, steps S q h = Some q' -> nth_error (d_threads (q_docs q u)) i = Some t ->
  exists t', nth_error (d_threads (q_docs q' u)) i = Some t' /\ h_job t' = h_job t /\ List.length (h_done t') = List.length (h_done t) + actions_of u i h.
Proof.
  intros S q h. induction h as [|l h IH] using rev_ind; intros q' u i t E N.
  - injection E as <-. exists t. unfold actions_of. cbn. auto.
  - rewrite steps_app in E. destruct (steps S q h) as [q1|] eqn:E1; [|discriminate]. cbn [steps] in E. destruct (step S q1 l) as [q2|] eqn:E2; [|discriminate]. injection E as <-.
    destruct (IH _ _ _ _ eq_refl N) as (t1 & A & A2 & B). destruct (thread_kept _ _ _ _ _ _ _ E2 A) as (t2 & C & C2 & D). exists t2. split; auto. split; [congruence|]. rewrite actions_snoc. lia.
Qed.

(** The server always takes messages again: there is one thread that it waits for. This thread is
    never blocked, and it actions_of at most eight times before messages are taken again, whatever the
    other threads, timers and programs do in the meantime. *)
Theorem C77_responsive : forall S F h q, reaches S F h q ->
  ready S q \/
  exists u i, forall h' q', steps S q h' = Some q' ->
    (forall h1 h2 q1, h' = h1 ++ h2 -> steps S q h1 = Some q1 -> ~ ready S q1) ->
    possible S q' (Act u i) /\ actions_of u i h' <= 8.
Proof.
  intros S F h q R. destruct (q_main q) as [[u i]|] eqn:M; [|left; now apply ready_main]. right. exists u, i. intros h' q' St Nr.
  assert (M' : q_main q' = Some (u, i)).
  { revert q' St Nr. induction h' as [|l h' IH] using rev_ind; intros q' St Nr; [injection St as <-; auto|].
    rewrite steps_app in St. destruct (steps S q h') as [q1|] eqn:E1; [|discriminate]. cbn [steps] in St. destruct (step S q1 l) as [q2|] eqn:E2; [|discriminate]. injection St as <-.
    assert (M1 : q_main q1 = Some (u, i)). { apply IH; auto. intros h1 h2 q3 -> E3. apply (Nr h1 (h2 ++ [l])); auto. now rewrite app_assoc. }
    assert (N2 : q_main q2 <> None). { intro X. apply (Nr (h' ++ [l]) [] q2); [now rewrite app_nil_r| |now apply ready_main]. rewrite steps_app, E1. cbn [steps]. now rewrite E2. }
    pose proof (main_step _ _ _ _ E2) as Ms. destruct l; try congruence; try (destruct Ms; congruence). destruct Ms as [Ms|[_ Ms]]; congruence. }
  assert (R' : reaches S F (h ++ h') q') by (unfold reaches in *; now rewrite steps_app, R).
  pose proof (busy_active _ _ _ _ R' _ _ M') as Ac. pose proof Ac as Po. apply active_possible with (S := S) in Po. split; auto.
  pose proof (busy_active _ _ _ _ R _ _ M) as (t0 & N0 & _). destruct (threads_kept_long _ _ _ _ _ _ _ St N0) as (t1 & N1 & _ & L1).
  unfold possible in Po. destruct (step S q' (Act u i)) as [q2|] eqn:E2; [|congruence].
  destruct (thread_kept _ _ _ _ _ _ _ E2 N1) as (t2 & N2 & _ & L2).
  assert (R2 : reaches S F ((h ++ h') ++ [Act u i]) q2) by (apply reaches_snoc; eauto).
  pose proof (C77_bounded _ _ _ _ _ _ R2 (nth_error_In _ _ N2)) as B.
  assert (One : actions_of u i [Act u i] = 1) by (unfold actions_of; cbn [filter]; now rewrite str_eqb_refl, Nat.eqb_refl). lia.
Qed.

(** A thread that is not over can always act: threads never wait for one another. *)
Theorem C77_threads : forall S q u i t, nth_error (d_threads (q_docs q u)) i = Some t ->
  (possible S q (Act u i) <-> forall r, h_now t <> JEnd r).
Proof.
  intros S q u i t N. rewrite <- active_possible. unfold active, over. split.
  - intros (t' & N' & O) r E. rewrite N in N'. injection N' as <-. eauto.
  - intro H. exists t. split; auto. intros (r & E). now apply (H r).
Qed.

(** ** The answers *)

Lemma answers_silent : forall es, silent es -> flat_map (fun e => match e with VReplied r => [r] | _ => [] end) es = [].
Proof.
  induction es as [|e es IH]; intro H; auto. cbn [flat_map]. rewrite IH by (intros x X; apply H; simpl; auto).
  pose proof (H e (or_introl eq_refl)). destruct e; auto; contradiction.
Qed.

Lemma splitlines_nil : forall s, splitlines s = [] -> s = [].
Proof.
  intros [|a [|b s]] H; auto; [discriminate|]. exfalso. cbn [splitlines] in H. destruct ((a =? 13)%N && (b =? 10)%N); [discriminate|].
  destruct (is_linebreak a); [discriminate|]. match type of H with match ?x with _ => _ end = _ => destruct x; discriminate end.
Qed.

(** Why a formatting request fails. *)
Definition fails (S : server) (u : uri) (q : state) (e : exn) : Prop :=
  source S q u = Err e \/ exists text, source S q u = Ok text /\ (z_encode S text = Err e \/ text = [] /\ e = IndexError).

Lemma reply_end : forall r es j, did (JReply r (JEnd (Ok tt))) es j -> (es = [] /\ ended j = false) \/ (es = [VReplied r] /\ j = JEnd (Ok tt)).
Proof. intros r es j H. inversion H as [| | | | | | |? ? ? ? H']; subst; [left; auto|]. inversion H'; subst. auto. Qed.

Lemma format_end : forall S u es j, did (format_job S u) es j ->
  let rs := flat_map (fun e => match e with VReplied r => [r] | _ => [] end) es in
  (rs = [] /\ ended j = false) \/
  (j = JEnd (Ok tt) /\ exists r es', es = es' ++ [VReplied r] /\ rs = [r]) \/
  (rs = [] /\ exists e p, j = JEnd (Err e) /\ z_path S u = Some p /\
     (In (VDoc (Err e)) es \/
      (exists x, In (VDoc (Ok x)) es /\ (z_encode S x = Err e \/ x = [] /\ e = IndexError)) \/
      (exists F, In (VLooked F) es /\ generate_config (t_env (z_tool S)) F p None (Some (z_options S)) = Err e) \/
      In (VFetched p None) es \/
      (exists x content cfg evs c, In (VDoc (Ok x)) es /\ z_encode S x = Ok content /\ In (VFetched p (Some cfg)) es /\
         run (fixit_bytes (z_tool S) p content cfg true false) evs (Returned (Some c)) /\
         (forall F, In (ELook F) evs -> In (VLooked F) es) /\ z_decode S c = Err e))).
Proof.
  intros S u es j D. cbv zeta. unfold format_job in D. destruct (z_path S u) as [p|] eqn:P.
  2: { unfold with_results in D. rewrite P in D. apply reply_end in D. destruct D as [[-> E]|[-> ->]]; [left; auto|]. right. left. split; auto. exists None, []. auto. }
  apply results_did with (p := p) in D; auto.
  destruct D as [[-> E]|(t & es' & -> & [[Si Q]|(text & content & cfg & evs & r & es1 & es2 & -> & Si & -> & Ec & Fe & Ru & _ & Lo & D)])].
  - left. auto.
  - cbn [flat_map app]. rewrite (answers_silent _ Si). destruct Q as [Q|(e & -> & Q)]; [left; auto|]. right. right. split; auto. exists e, p. split; auto. split; auto.
    destruct Q as [->|[(x & -> & Q)|[(F & Q1 & Q2)|Q]]]; cbn [In]; eauto 10.
  - cbn [flat_map app]. rewrite flat_map_app, (answers_silent _ Si). cbn [app].
    assert (Re : forall r', did (JReply r' (JEnd (Ok tt))) es2 j ->
       (flat_map (fun e => match e with VReplied r => [r] | _ => [] end) es2 = [] /\ ended j = false) \/
       j = JEnd (Ok tt) /\ exists r es', VDoc (Ok text) :: es1 ++ es2 = es' ++ [VReplied r] /\ flat_map (fun e => match e with VReplied r => [r] | _ => [] end) es2 = [r]).
    { intros r' H. apply reply_end in H. destruct H as [[-> E]|[-> ->]]; [left; auto|]. right. split; auto. exists r', (VDoc (Ok text) :: es1). auto. }
    destruct r as [[|c l]|]; [apply Re in D; tauto| |apply Re in D; tauto].
    inversion D as [ |t2 ? es3 ? D'| | | | | | ]; subst; [left; auto|]. cbn [flat_map app].
    apply lift_did in D'. destruct D' as [(text2 & -> & D')|(x & -> & -> & ->)].
    2: { right. right. split; auto. exists x, p. split; auto. split; auto. left. right. apply in_app_iff. simpl. auto. }
    apply lift_did in D'. destruct D' as [(rg & Er & D')|(x & Er & -> & ->)].
    2: { right. right. split; auto. exists x, p. split; auto. split; auto. right. left. exists text2. split; [right; apply in_app_iff; simpl; auto|]. right.
         unfold entire_range in Er. destruct (rev (splitlines text2)) eqn:Rv; [|discriminate]. injection Er as <-. split; auto.
         apply (f_equal (@rev str)) in Rv. rewrite rev_involutive in Rv. now apply splitlines_nil. }
    apply lift_did in D'. destruct D' as [(new & En & D')|(x & En & -> & ->)].
    2: { right. right. split; auto. exists x, p. split; auto. split; auto. right. right. right. right.
         exists text, content, cfg, evs, (c :: l). split; [simpl; auto|]. split; auto. split; [right; apply in_app_iff; auto|]. split; auto. split; auto.
         intros F H. right. apply in_app_iff. auto. }
    apply reply_end in D'. destruct D' as [[-> E]|[-> ->]]; [left; auto|]. right. left. split; auto.
    eexists _, (VDoc (Ok text) :: es1 ++ [VDoc (Ok text2)]). split; [|reflexivity]. cbn. now rewrite <- app_assoc.
Qed.

(** Every formatting request is given a thread; once this is over it has either answered exactly
    once, as the last thing it did, or it has not answered and ended with an exception: that of
    reading or encoding the document or generating the configuration, that of decoding the new
    content, or, for an empty document, IndexError. *)
Theorem C77_answer : forall S F h1 h2 q1 q u, reaches S F h1 q1 -> reaches S F (h1 ++ Format u :: h2) q ->
  exists t, nth_error (d_threads (q_docs q u)) (List.length (d_threads (q_docs q1 u))) = Some t /\
    ((answers t = [] /\ forall r, h_now t <> JEnd r) \/
     (h_now t = JEnd (Ok tt) /\ exists r es, h_done t = es ++ [VReplied r] /\ answers t = [r]) \/
     (answers t = [] /\ exists e p, h_now t = JEnd (Err e) /\ z_path S u = Some p /\
        ((exists h3 h4 q3, h1 ++ Format u :: h2 = h3 ++ h4 /\ reaches S F h3 q3 /\ fails S u q3 e) \/
         (exists F', was_fs S F (h1 ++ Format u :: h2) F' /\ generate_config (t_env (z_tool S)) F' p None (Some (z_options S)) = Err e) \/
         exists text content cfg F1 F2 c, was_text S F (h1 ++ Format u :: h2) u text /\ z_encode S text = Ok content /\
           was_cached S F (h1 ++ Format u :: h2) p cfg /\ was_fs S F (h1 ++ Format u :: h2) F2 /\
           fixed_content (z_tool S) F2 p content cfg (fst (lint_of (z_tool S) F1 p content cfg)) = Ok c /\ z_decode S c = Err e))).
Proof.
  intros S F h1 h2 q1 q u R1 R. unfold reaches in R. rewrite steps_app in R. unfold reaches in R1. rewrite R1 in R. cbn [steps] in R.
  destruct (step S q1 (Format u)) as [q2|] eqn:E; [|discriminate].
  assert (R' : reaches S F (h1 ++ Format u :: h2) q). { unfold reaches. rewrite steps_app, R1. cbn [steps]. now rewrite E. }
  assert (N2 : nth_error (d_threads (q_docs q2 u)) (List.length (d_threads (q_docs q1 u))) = Some (Thread (format_job S u) [] (format_job S u))).
  { assert (A : about u (Format u) = true) by apply str_eqb_refl. rewrite (doc_self _ _ _ _ _ E A). cbn. now rewrite nth_error_app2, Nat.sub_diag. }
  destruct (threads_kept_long _ _ _ _ _ _ _ R N2) as (t & N & J & _). cbn in J. exists t. split; auto.
  destruct (thread_ok_reached _ _ _ _ R') as [_ T]. pose proof (nth_error_In _ _ N) as In_. specialize (T _ _ In_).
  pose proof (to_did _ _ _ _ _ _ T) as D. rewrite J in D. apply format_end in D. cbv zeta in D. unfold answers.
  destruct D as [[A B]|[(A & r & es' & B & C)|(A & e & p & B & P & C)]].
  - left. split; auto. intros r X. rewrite X in B. discriminate.
  - right. left. split; auto. exists r, es'. auto.
  - right. right. split; auto. exists e, p. split; auto. split; auto. set (h := h1 ++ Format u :: h2) in *.
    destruct C as [C|[(x & C & G)|[(F' & C & G)|[C|(x & content & cfg & evs & c & C1 & C2 & C3 & C4 & C5 & C6)]]]].
    + left. destruct (docs_reached _ _ _ _ R' _ _ _ In_ C) as (h3 & h4 & q3 & X1 & X2 & X3). exists h3, h4, q3. unfold fails. auto.
    + left. destruct (docs_reached _ _ _ _ R' _ _ _ In_ C) as (h3 & h4 & q3 & X1 & X2 & X3). exists h3, h4, q3. unfold fails. eauto 8.
    + right. left. exists F'. split; auto. eapply to_looked; eauto.
    + destruct (to_fetched _ _ _ _ _ _ T _ _ C) as (c' & X & _). discriminate.
    + right. right. destruct (docs_reached _ _ _ _ R' _ _ _ In_ C1) as (h3 & h4 & q3 & X1 & X2 & X3).
      destruct (to_fetched _ _ _ _ _ _ T _ _ C3) as (c' & X & Wc). injection X as <-.
      destruct (C29_complete _ _ _ _ _ _ _ _ C4) as (F1 & ev' & vs & err & err' & Ev & Li & Re & Er').
      pose proof (C30_content _ _ _ _ _ _ _ _ C4) as (A1 & A2 & F2 & A3 & A4).
      rewrite (C30_autofix_all _ _ _ _ _ _ _ C4) in A4. fold (violations (results evs)) in A4. rewrite Re, violations_report in A4.
      exists x, content, cfg, F1, F2, c. split; [exists h3, h4, q3; auto|]. split; auto. split; auto. split; [apply (to_looked _ _ _ _ _ _ T), C5; auto|].
      rewrite Li. cbn [fst]. auto.
Qed.

(** ** Diagnostics for the last change *)

Lemma run_to_end : forall S F n h q u i t, reaches S F h q -> nth_error (d_threads (q_docs q u)) i = Some t -> 9 - List.length (h_done t) <= n ->
  exists k q' t', reaches S F (h ++ repeat (Act u i) k) q' /\ nth_error (d_threads (q_docs q' u)) i = Some t' /\ h_job t' = h_job t /\ over (h_now t').
Proof.
  intros S F n. induction n as [|n IH]; intros h q u i t R N L.
  all: destruct (ended (h_now t)) eqn:En; [exists 0, q, t; cbn [repeat]; rewrite app_nil_r; split; auto; split; auto; split; auto; now apply ended_over|].
  all: assert (Po : possible S q (Act u i)) by (apply active_possible, active_ended; eauto).
  all: unfold possible in Po; destruct (step S q (Act u i)) as [q1|] eqn:E; [|congruence].
  all: destruct (thread_kept _ _ _ _ _ _ _ E N) as (t1 & N1 & J1 & L1).
  all: assert (One : actions_of u i [Act u i] = 1) by (unfold actions_of; cbn [filter]; now rewrite str_eqb_refl, Nat.eqb_refl).
  all: assert (R1 : reaches S F (h ++ [Act u i]) q1) by (apply reaches_snoc; eauto).
  all: pose proof (C77_bounded _ _ _ _ _ _ R1 (nth_error_In _ _ N1)) as B.
  - lia.
  - destruct (IH _ _ _ _ _ R1 N1) as (k & q' & t' & X1 & X2 & X3 & X4); [lia|]. exists (Datatypes.S k), q', t'. cbn [repeat].
    rewrite <- app_assoc in X1. split; auto. split; auto. split; auto. congruence.
Qed.

(** With an interval: after any history, if nothing more comes from the client, letting time pass and
    the validation of the last change of a document act ends in its diagnostics being published,
    or in an exception of this validation. *)
Theorem C77_eventually : forall S F h q u p vs v, z_interval S <> 0%N -> reaches S F h q -> z_path S u = Some p ->
  changes u h = vs ++ [v] ->
  exists h' q' t, reaches S F (h ++ h') q' /\
    (forall l, In l h' -> l = Tick (z_interval S) \/ l = Start u (List.length vs) \/ exists i, l = Act u i) /\
    In t (d_threads (q_docs q' u)) /\ h_job t = validate_job S u v /\
    ((h_now t = JEnd (Ok tt) /\ exists ds, In (v, ds) (d_published (q_docs q' u))) \/ exists e, h_now t = JEnd (Err e)).
Proof.
  intros S F h q u p vs v Z R P C.
  assert (K : exists h' q' i t, reaches S F (h ++ h') q' /\
     (forall l, In l h' -> l = Tick (z_interval S) \/ l = Start u (List.length vs) \/ exists i, l = Act u i) /\
     nth_error (d_threads (q_docs q' u)) i = Some t /\ h_job t = validate_job S u v).
  { assert (St : forall h1 h2 q1 q2 q, reaches S F h1 q1 -> changes u h1 = vs ++ [v] -> step S q1 (Start u (List.length vs)) = Some q2 -> steps S q2 h2 = Some q ->
       exists i t, nth_error (d_threads (q_docs q u)) i = Some t /\ h_job t = validate_job S u v).
    { clear. intros h1 h2 q1 q2 q R1 C E E2. assert (Zc : z_interval S <> 0%N -> exists i t, nth_error (d_threads (q_docs q u)) i = Some t /\ h_job t = validate_job S u v).
      { intro Z. destruct (C39_version _ _ _ _ _ _ _ Z R1 E) as (w & N & D). rewrite C, nth_error_app2, Nat.sub_diag in N by auto. injection N as <-.
        destruct (threads_kept_long _ _ _ _ u (List.length (d_threads (q_docs q1 u))) (Thread (validate_job S u v) [] (validate_job S u v)) E2) as (t & N & J & _).
        { rewrite D, nth_error_app2, Nat.sub_diag; auto. }
        eauto. }
      destruct (N.eq_dec (z_interval S) 0) as [Z|Z]; auto. exfalso. cbn [step] in E. rewrite (no_timers _ _ _ _ u Z R1) in E. destruct (List.length vs); discriminate. }
    assert (Dec : In (Start u (List.length vs)) h \/ ~ In (Start u (List.length vs)) h).
    { clear. induction h as [|l h [IH|IH]]; [right; auto|left; right; auto|]. 
      assert (D : l = Start u (List.length vs) \/ l <> Start u (List.length vs)).
      { destruct l as [n|F1|u' x|u' w|u'|u' k|u' k]; try (right; discriminate). destruct (str_eqb u' u) eqn:Eu.
        - apply str_eqb_eq in Eu. subst u'. destruct (Nat.eq_dec k (List.length vs)) as [->|]; [auto|right; congruence].
        - right. intro X. injection X as -> _. rewrite str_eqb_refl in Eu. discriminate. }
      destruct D as [->|D]; [left; simpl; auto|right; intros [X|X]; auto]. }
    destruct Dec as [I|I].
    - apply in_split in I. destruct I as (h1 & h2 & ->). pose proof R as R0. unfold reaches in R. rewrite steps_app in R. destruct (steps S (init F) h1) as [q1|] eqn:E1; [|discriminate].
      cbn [steps] in R. destruct (step S q1 (Start u (List.length vs))) as [q2|] eqn:E2; [|discriminate].
      assert (C1 : changes u h1 = vs ++ [v]).
      { assert (Q : possible S q1 (Start u (List.length vs))) by (unfold possible; congruence).
        apply (C39_start S F u h1 q1 _ Z E1) in Q. destruct Q as (Q & _). unfold changes in C. rewrite flat_map_app in C. cbn [flat_map app] in C. fold (changes u h1) (changes u h2) in C.
        assert (L : List.length (changes u h1 ++ changes u h2) = List.length (vs ++ [v])) by now rewrite C. rewrite !app_length in L. cbn in L.
        destruct (changes u h2); [now rewrite app_nil_r in C|]. cbn in L. lia. }
      destruct (St _ _ _ _ _ E1 C1 E2 R) as (i & t & N & J). exists [], q, i, t. rewrite app_nil_r. split; auto. split; [intros l []|auto].
    - assert (R1 : exists q1, reaches S F (h ++ [Tick (z_interval S)]) q1).
      { eexists. apply reaches_snoc. exists q. split; auto. reflexivity. }
      destruct R1 as (q1 & R1).
      assert (C1 : changes u (h ++ [Tick (z_interval S)]) = vs ++ [v]) by (rewrite changes_snoc, C; now rewrite app_nil_r).
      assert (Po : possible S q1 (Start u (List.length vs))).
      { apply (C39_start S F u _ q1 _ Z R1). rewrite C1, app_length. cbn. split; [lia|]. split; [rewrite in_app_iff; simpl; intros [X|[X|[]]]; auto; discriminate|].
        assert (L : exists t, last_change u h t /\ (t <= clock h)%N).
        { clear - C. revert vs v C. induction h as [|l h IH] using rev_ind; intros vs v C; [destruct vs; discriminate|].
          rewrite changes_snoc in C.
          assert (Ck : (clock h <= clock (h ++ [l]))%N).
          { clear. unfold clock. rewrite fold_right_app. cbn. induction h as [|x h IH]; cbn; [lia|]. destruct x; lia. }
          destruct l as [n|F1|u' x|u' w|u'|u' k|u' k]; try (rewrite app_nil_r in C; destruct (IH _ _ C) as (t & A & B); exists t; split; [apply last_change_snoc; auto; discriminate|lia]).
          destruct (str_eqb u' u) eqn:Eu.
          - apply str_eqb_eq in Eu. subst u'. exists (clock h). split; [|lia]. exists h, w, []. auto.
          - rewrite app_nil_r in C. destruct (IH _ _ C) as (t & A & B). exists t. split; [|lia]. apply last_change_snoc; auto. intros w' X. injection X as -> ->. rewrite str_eqb_refl in Eu. discriminate. }
        destruct L as (t & A & B). exists t. split; [apply last_change_snoc; auto; discriminate|].
        assert (Ck : clock (h ++ [Tick (z_interval S)]) = (clock h + z_interval S)%N).
        { clear. unfold clock. rewrite fold_right_app. cbn. induction h as [|x h IH]; cbn; [lia|]. destruct x; lia. }
        lia. }
      unfold possible in Po. destruct (step S q1 (Start u (List.length vs))) as [q2|] eqn:E2; [|congruence].
      destruct (St _ [] _ _ _ R1 C1 E2 eq_refl) as (i & t & N & J).
      exists [Tick (z_interval S); Start u (List.length vs)], q2, i, t. split.
      + change (h ++ [Tick (z_interval S); Start u (List.length vs)]) with (h ++ [Tick (z_interval S)] ++ [Start u (List.length vs)]). rewrite app_assoc. apply reaches_snoc. eauto.
      + split; auto. intros l [<-|[<-|[]]]; auto. }
  destruct K as (h' & q' & i & t & R' & Hl & N & J).
  destruct (run_to_end _ _ 9 _ _ _ _ _ R' N) as (k & q2 & t2 & R2 & N2 & J2 & O); [lia|]. rewrite <- app_assoc in R2.
  exists (h' ++ repeat (Act u i) k), q2, t2. split; auto. split.
  { intros l H. apply in_app_iff in H. destruct H as [H|H]; auto. apply repeat_spec in H. right. right. exists i. auto. }
  pose proof (nth_error_In _ _ N2) as I2. rewrite J in J2. split; auto. split; auto.
  destruct (C42_complete _ _ _ _ _ v _ _ R2 P I2 J2 O) as [X|(e & X & _)]; [left; auto|right; eauto].
Qed.

(** ** The text of a document *)

(** The text of a document is that of the client if it is open; otherwise the file is read. *)
Theorem C77_text : forall S q u,
  (forall t, d_text (q_docs q u) = Some t -> source S q u = Ok t) /\
  forall p, d_text (q_docs q u) = None -> z_path S u = Some p ->
    (forall b, f_file (q_fs q) p = Some b -> source S q u = z_decode S b) /\
    (f_file (q_fs q) p = None -> source S q u = Err OSError).
Proof.
  intros S q u. unfold source. split; [intros t ->; auto|]. intros p -> ->. split; [intros b ->; auto|intros ->; auto].
Qed.
