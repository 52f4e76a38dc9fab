(** * Facts about the language server *)
From Coq Require Import String List NArith ZArith Bool Arith Lia.
From Verif Require Import Base PyStr Ftypes Paths Config Suppress Cst Engine Api ApiSpec ApiFacts Lsp LspSpec.
Import ListNotations.

Lemma str_eqb_sym : forall a b, str_eqb a b = str_eqb b a.
Proof.
  intros a b. destruct (str_eqb a b) eqn:E; symmetry.
  - apply str_eqb_eq in E. subst. apply str_eqb_refl.
  - apply str_eqb_neq. apply str_eqb_neq in E. congruence.
Qed.

Lemma steps_app : forall S h1 h2 q, steps S q (h1 ++ h2) = match steps S q h1 with Some q' => steps S q' h2 | None => None end.
Proof. intros S h1. induction h1 as [|l h1 IH]; intros h2 q; cbn [app steps]; auto. destruct (step S q l); auto. Qed.

Lemma ended_over : forall j, ended j = true <-> over j.
Proof. intro j. unfold over. destruct j; cbn; split; try discriminate; eauto; intros (r & X); discriminate. Qed.
Lemma ended_not_over : forall j, ended j = false <-> ~ over j.
Proof. intro j. rewrite <- ended_over. destruct (ended j); split; congruence. Qed.

Lemma active_ended : forall d i, active d i <-> exists t, nth_error (d_threads d) i = Some t /\ ended (h_now t) = false.
Proof. intros d i. unfold active. split; intros (t & A & B); exists t; split; auto; now apply ended_not_over. Qed.

Lemma reaches_snoc : forall S F h l q, reaches S F (h ++ [l]) q <-> exists q1, reaches S F h q1 /\ step S q1 l = Some q.
Proof.
  intros S F h l q. unfold reaches. rewrite steps_app. destruct (steps S (init F) h) as [q1|]; cbn [steps].
  - destruct (step S q1 l) as [q2|] eqn:E; split.
    + intro H. injection H as <-. eauto.
    + intros (q3 & A & B). injection A as <-. congruence.
    + discriminate.
    + intros (q3 & A & B). injection A as <-. congruence.
  - split; [discriminate|]. intros (? & ? & _). discriminate.
Qed.

(** Induction over histories. *)
Lemma reaches_ind : forall S F (P : list label -> state -> Prop),
  P [] (init F) ->
  (forall h l q q', reaches S F h q -> P h q -> step S q l = Some q' -> P (h ++ [l]) q') ->
  forall h q, reaches S F h q -> P h q.
Proof.
  intros S F P H0 HS h. induction h as [|l h IH] using rev_ind; intros q H.
  - injection H as <-. exact H0.
  - apply reaches_snoc in H. destruct H as (q1 & R & E). eauto.
Qed.

Lemma nth_update : forall A (f : A -> A) l n i,
  nth_error (update_nth n f l) i = if Nat.eqb i n then option_map f (nth_error l i) else nth_error l i.
Proof.
  intros A f l. induction l as [|x l IH]; intros [|n] [|i]; cbn; auto.
  - destruct (Nat.eqb i n); auto.
  - apply IH.
Qed.

Lemma length_update : forall A (f : A -> A) l n, List.length (update_nth n f l) = List.length l.
Proof. intros A f l. induction l as [|x l IH]; intros [|n]; cbn; auto. f_equal. apply IH. Qed.

Lemma map_update : forall A B (g : A -> B) (f : A -> A) l n, (forall x, g (f x) = g x) -> map g (update_nth n f l) = map g l.
Proof. intros A B g f l n H. revert n. induction l as [|x l IH]; intros [|n]; cbn; auto; f_equal; auto. apply IH. Qed.

Lemma in_update : forall A (f : A -> A) l n y, In y (update_nth n f l) -> In y l \/ exists x, nth_error l n = Some x /\ y = f x.
Proof.
  intros A f l n y H. apply In_nth_error in H. destruct H as (i & H). rewrite nth_update in H. destruct (Nat.eqb_spec i n).
  - subst. destruct (nth_error l n) as [x|]; [|discriminate]. right. injection H as <-. eauto.
  - left. eapply nth_error_In; eauto.
Qed.

(** The documents after a step: only the document concerned changes. *)
Lemma doc_other : forall S q l q' u, step S q l = Some q' -> about u l = false -> q_docs q' u = q_docs q u.
Proof.
  intros S q l q' u H A.
  assert (D : forall (f : document) u', str_eqb u' u = false -> (if str_eqb u u' then f else q_docs q u) = q_docs q u).
  { intros f u' E. rewrite str_eqb_sym, E. reflexivity. }
  destruct l as [n|F|u' t|u' v|u'|u' i|u' i]; cbn [about] in A; try discriminate; cbn [step] in H.
  - destruct (q_main q); [discriminate|]. injection H as <-. cbn. auto.
  - destruct (q_main q); [discriminate|]. destruct (z_interval S =? 0)%N; injection H as <-.
    + unfold on_main. destruct (ended _); cbn; auto.
    + cbn. auto.
  - destruct (q_main q); [discriminate|]. injection H as <-. unfold on_main. destruct (ended _); cbn; auto.
  - destruct (nth_error _ _) as [[v due []]|]; try discriminate. destruct (due <=? q_now q)%N; [|discriminate]. injection H as <-. cbn. auto.
  - destruct (nth_error _ _) as [[j es now]|]; [|discriminate]. destruct (act S q u' now) as [[[e j'] q1]|] eqn:E; [|discriminate]. injection H as <-.
    assert (X : q_docs q1 u = q_docs q u).
    { destruct now; cbn in E; try discriminate; injection E as <- <- <-; auto. cbn. auto. }
    unfold release. destruct (q_main _) as [[u2 i2]|]; [destruct (_ && _)|]; cbn; rewrite str_eqb_sym, A; auto.
Qed.

(** The document after a step that concerns it. *)
Lemma doc_self : forall S q l q' u, step S q l = Some q' -> about u l = true ->
  q_docs q' u =
  let d := q_docs q u in
  match l with
  | Tick _ | Files _ => d
  | SetText _ t => set_text t d
  | Change _ v => if (z_interval S =? 0)%N then spawn (validate_job S u v) d
                  else set_timers (debounced (z_interval S) (q_now q) v (d_timers d)) d
  | Format _ => spawn (format_job S u) d
  | Start _ i => match nth_error (d_timers d) i with
                 | Some t => spawn (validate_job S u (tm_version t))
                     (set_timers (update_nth i (fun t => Timer (tm_version t) (tm_due t) Started) (d_timers d)) d)
                 | None => d
                 end
  | Act _ i => match nth_error (d_threads d) i with
               | Some (Thread j es now) =>
                   match act S q u now with
                   | Some (e, j', _) =>
                       let d := match e with VPublished v ds => publish (v, ds) d | _ => d end in
                       set_threads (update_nth i (fun _ => Thread j (es ++ [e]) j') (d_threads d)) d
                   | None => d
                   end
               | None => d
               end
  end.
Proof.
  intros S q l q' u H A. destruct l as [n|F|u' t|u' v|u'|u' i|u' i]; cbn [about] in A; cbn [step] in H; cbv zeta in *;
    try (apply str_eqb_eq in A; subst u').
  - injection H as <-. reflexivity.
  - injection H as <-. reflexivity.
  - destruct (q_main q); [discriminate|]. injection H as <-. cbn. now rewrite str_eqb_refl.
  - destruct (q_main q); [discriminate|]. destruct (z_interval S =? 0)%N; injection H as <-.
    + unfold on_main. destruct (ended _); cbn; now rewrite str_eqb_refl.
    + cbn. now rewrite str_eqb_refl.
  - destruct (q_main q); [discriminate|]. injection H as <-. unfold on_main. destruct (ended _); cbn; now rewrite str_eqb_refl.
  - destruct (nth_error _ _) as [[v due []]|]; try discriminate. destruct (due <=? q_now q)%N; [|discriminate]. injection H as <-. cbn. now rewrite str_eqb_refl.
  - destruct (nth_error _ _) as [[j es now]|]; [|discriminate]. destruct (act S q u now) as [[[e j'] q1]|] eqn:E; [|discriminate]. injection H as <-.
    assert (X : q_docs q1 u = match e with VPublished v ds => publish (v, ds) (q_docs q u) | _ => q_docs q u end).
    { destruct now; cbn in E; try discriminate; injection E as <- <- <-; auto. cbn. now rewrite str_eqb_refl. }
    unfold release. destruct (q_main _) as [[u2 i2]|]; [destruct (_ && _)|]; cbn; rewrite str_eqb_refl, X; reflexivity.
Qed.

Lemma now_step : forall S q l q', step S q l = Some q' -> q_now q' = (match l with Tick n => q_now q + n | _ => q_now q end)%N.
Proof.
  intros S q l q' H. destruct l as [n|F|u' t|u' v|u'|u' i|u' i]; cbn [step] in H; cbv zeta in *;
    repeat match type of H with
           | (match ?x with _ => _ end) = _ => destruct x eqn:?; try discriminate
           end; injection H as <-; try reflexivity.
  - unfold on_main. destruct (ended _); reflexivity.
  - unfold on_main. destruct (ended _); reflexivity.
  - assert (X : q_now s = q_now q) by (destruct h_now; cbn in *; try discriminate; match goal with H : Some _ = Some _ |- _ => injection H as <- <- <- end; reflexivity).
    unfold release. destruct (q_main _) as [[u2 i2]|]; [destruct (_ && _)|]; cbn; auto.
Qed.

Lemma fs_step : forall S q l q', step S q l = Some q' -> q_fs q' = (match l with Files F => F | _ => q_fs q end).
Proof.
  intros S q l q' H. destruct l as [n|F|u' t|u' v|u'|u' i|u' i]; cbn [step] in H; cbv zeta in *;
    repeat match type of H with
           | (match ?x with _ => _ end) = _ => destruct x eqn:?; try discriminate
           end; injection H as <-; try reflexivity.
  - unfold on_main. destruct (ended _); reflexivity.
  - unfold on_main. destruct (ended _); reflexivity.
  - assert (X : q_fs s = q_fs q) by (destruct h_now; cbn in *; try discriminate; match goal with H : Some _ = Some _ |- _ => injection H as <- <- <- end; reflexivity).
    unfold release. destruct (q_main _) as [[u2 i2]|]; [destruct (_ && _)|]; cbn; auto.
Qed.

Lemma clock_snoc : forall h l, clock (h ++ [l]) = (match l with Tick n => clock h + n | _ => clock h end)%N.
Proof. induction h as [|x h IH]; intro l; [destruct l; cbn; lia|]. cbn [app clock fold_right]. fold (clock (h ++ [l])) (clock h). rewrite IH. destruct x, l; lia. Qed.

Lemma clock_now : forall S F h q, reaches S F h q -> q_now q = clock h.
Proof.
  intros S F. apply reaches_ind; [reflexivity|]. intros h l q q' _ IH E. rewrite clock_snoc, (now_step _ _ _ _ E), IH. destruct l; reflexivity.
Qed.

Lemma changes_app : forall u h1 h2, changes u (h1 ++ h2) = changes u h1 ++ changes u h2.
Proof. intros. apply flat_map_app. Qed.

Lemma changes_snoc : forall u h l, changes u (h ++ [l]) =
  changes u h ++ match l with Change u' v => if str_eqb u' u then [v] else [] | _ => [] end.
Proof. intros. rewrite changes_app. f_equal. unfold changes. cbn [flat_map]. apply app_nil_r. Qed.

Opaque fixit_bytes.

(** ** Jobs use the cache only for their own file *)
Fixpoint only (o : option path) (j : job) : Prop :=
  match j with
  | JEnd _ => True
  | JDoc k => forall t, only o (k t)
  | JHas p k => o = Some p /\ forall b, only o (k b)
  | JLook k => forall F, only o (k F)
  | JStore p c k => o = Some p /\ only o k
  | JFetch p k => o = Some p /\ forall c, only o (k c)
  | JPublish _ _ k => only o k
  | JReply _ k => only o k
  end.

Lemma only_drain : forall o R (g : prog R) acc k, (forall xs r, only o (k xs r)) -> only o (drain g acc k).
Proof. intros o R g. induction g; intros acc kk Hk; cbn; auto. Qed.

Lemma only_lift : forall o A (r : res A) k, (forall a, only o (k a)) -> only o (jlift r k).
Proof. intros o A [a|e] k H; cbn; auto. Qed.

Lemma only_results : forall S u a none k, only (z_path S u) none -> (forall xs r, only (z_path S u) (k xs r)) ->
  only (z_path S u) (with_results S u a none k).
Proof.
  intros S u a none k H0 H. unfold with_results. destruct (z_path S u) as [p|]; auto. cbn. intro t. apply only_lift. intro text.
  apply only_lift. intro content. unfold load_config. cbn. split; auto. intro b.
  assert (Fe : only (Some p) (JFetch p (fun c => match c with
      | Some c => drain (fixit_bytes (z_tool S) p content c a false) [] k | None => JEnd (Err KeyError) end))).
  { cbn. split; auto. intros [c|]; [|exact I]. now apply only_drain. }
  destruct b; [exact Fe|]. cbn. intro F. apply only_lift. intro c. cbn. split; auto.
Qed.

Lemma only_validate : forall S u v, only (z_path S u) (validate_job S u v).
Proof. intros. apply only_results; cbn; auto. Qed.

Lemma only_format : forall S u, only (z_path S u) (format_job S u).
Proof.
  intros. apply only_results; [exact I|]. intros _ [[|c l]|]; try exact I. intro t. apply only_lift. intro text. apply only_lift. intro rg.
  apply only_lift. intro new. exact I.
Qed.

Lemma only_act : forall S q u j e j' q' o, act S q u j = Some (e, j', q') -> only o j -> only o j'.
Proof. intros S q u j e j' q' o H O. destruct j; cbn in *; try discriminate; injection H as <- <- <-; try (apply O); now destruct O. Qed.

Definition threads_only (S : server) (q : state) : Prop :=
  forall u t, In t (d_threads (q_docs q u)) -> only (z_path S u) (h_now t).

(** What holds of all threads: it holds at the start and is kept by actions. *)
Lemma threads_kept : forall S (P : uri -> thread -> Prop) q l q',
  step S q l = Some q' ->
  (forall u t, In t (d_threads (q_docs q u)) -> P u t) ->
  (forall u v, match l with Change u' _ | Start u' _ => u' = u | _ => False end -> P u (Thread (validate_job S u v) [] (validate_job S u v))) ->
  (forall u, l = Format u -> P u (Thread (format_job S u) [] (format_job S u))) ->
  (forall u i j es now e j' q1, l = Act u i -> nth_error (d_threads (q_docs q u)) i = Some (Thread j es now) ->
     act S q u now = Some (e, j', q1) -> P u (Thread j (es ++ [e]) j')) ->
  forall u t, In t (d_threads (q_docs q' u)) -> P u t.
Proof.
  intros S P q l q' E H0 HV HF HA u t I. destruct (about u l) eqn:A; [|rewrite (doc_other _ _ _ _ _ E A) in I; auto].
  rewrite (doc_self _ _ _ _ _ E A) in I. cbv zeta in I. destruct l as [n|F|u' x|u' v|u'|u' i|u' i]; cbn [about] in A; auto;
    try (apply str_eqb_eq in A; subst u').
  - destruct (z_interval S =? 0)%N; cbn in I; auto. apply in_app_iff in I. destruct I as [I|[<-|[]]]; auto.
  - cbn in I. apply in_app_iff in I. destruct I as [I|[<-|[]]]; auto.
  - destruct (nth_error _ _); auto. cbn in I. apply in_app_iff in I. destruct I as [I|[<-|[]]]; auto.
  - destruct (nth_error (d_threads (q_docs q u)) i) as [[j es now]|] eqn:N; auto. destruct (act S q u now) as [[[e j'] q1]|] eqn:X; auto.
    assert (I2 : In t (update_nth i (fun _ => Thread j (es ++ [e]) j') (d_threads (q_docs q u)))) by (destruct e; exact I).
    apply in_update in I2. destruct I2 as [I2|(y & _ & ->)]; auto. eapply HA; eauto.
Qed.

Lemma threads_only_reached : forall S F h q, reaches S F h q -> threads_only S q.
Proof.
  intros S F. apply reaches_ind; [intros u t []|]. intros h l q q' _ IH E u t. revert u t.
  apply (threads_kept _ (fun u t => only (z_path S u) (h_now t)) _ _ _ E); auto.
  - intros. apply only_validate.
  - intros. apply only_format.
  - intros u i j es now e j' q1 -> N X. cbn. eapply only_act; eauto. apply (IH u (Thread j es now)). eapply nth_error_In; eauto.
Qed.

Lemma cache_act : forall S q u j e j' q' p, act S q u j = Some (e, j', q') ->
  q_cache q' p = match e with VStored p' c => if path_eqb p p' then Some c else q_cache q p | _ => q_cache q p end.
Proof. intros S q u j e j' q' p H. destruct j; cbn in *; try discriminate; injection H as <- <- <-; reflexivity. Qed.

Lemma main_act : forall S q u j e j' q', act S q u j = Some (e, j', q') -> q_main q' = q_main q.
Proof. intros S q u j e j' q' H. destruct j; cbn in *; try discriminate; injection H as <- <- <-; reflexivity. Qed.

(** The cache after a step. *)
Lemma cache_step : forall S q l q' p, step S q l = Some q' ->
  q_cache q' p =
  match l with
  | Act u i => match nth_error (d_threads (q_docs q u)) i with
               | Some (Thread j es (JStore p' c _)) => if path_eqb p p' then Some c else q_cache q p
               | _ => q_cache q p
               end
  | _ => q_cache q p
  end.
Proof.
  intros S q l q' p H. destruct l as [n|F|u' t|u' v|u'|u' i|u' i]; cbn [step] in H; cbv zeta in *.
  - injection H as <-. reflexivity.
  - injection H as <-. reflexivity.
  - destruct (q_main q); [discriminate|]. injection H as <-. reflexivity.
  - destruct (q_main q); [discriminate|]. destruct (_ =? _)%N; injection H as <-; [|reflexivity]. unfold on_main. destruct (ended _); reflexivity.
  - destruct (q_main q); [discriminate|]. injection H as <-. unfold on_main. destruct (ended _); reflexivity.
  - destruct (nth_error _ _) as [[v due []]|]; try discriminate. destruct (due <=? q_now q)%N; [|discriminate]. injection H as <-. reflexivity.
  - destruct (nth_error _ _) as [[j es now]|]; [|discriminate]. destruct (act S q u' now) as [[[e j'] q1]|] eqn:E; [|discriminate]. injection H as <-.
    transitivity (q_cache q1 p); [unfold release; destruct (q_main _) as [[u2 i2]|]; [destruct (_ && _)|]; reflexivity|].
    rewrite (cache_act _ _ _ _ _ _ _ p E). destruct now; cbn in E; try discriminate; injection E as <- <- <-; reflexivity.
Qed.

(** ** fixit_bytes without metrics only gives results and looks at files *)
Fixpoint noio {R} (g : prog R) : Prop :=
  match g with
  | Ret _ | Raise _ => True
  | Give _ k => forall a, noio (k a)
  | Look k => forall F, noio (k F)
  | _ => False
  end.

Fixpoint calm {R} (g : prog R) : Prop :=
  match g with
  | Ret _ => True
  | Give _ k => forall a, calm (k a)
  | Look k => forall F, calm (k F)
  | _ => False
  end.

Lemma noio_lift : forall A B (r : res A) (f : A -> prog B), (forall a, noio (f a)) -> noio (lift r f).
Proof. intros A B [a|e] f H; cbn [lift noio]; auto. Qed.
Lemma calm_catch : forall A (g : prog A) h, noio g -> (forall e, calm (h e)) -> calm (catch g h).
Proof. intros A g h. induction g; cbn [noio calm catch]; auto; contradiction. Qed.

Lemma noio_loop : forall p autofix k evs r clean pending,
  (forall x, In x evs -> exists v, x = Yield v) -> (forall c l, noio (k c l)) ->
  noio (Api.lint_loop p autofix evs r clean pending k).
Proof.
  intros p autofix k evs r. induction evs as [|e evs IH]; intros clean pending He Hk; cbn [Api.lint_loop].
  - apply noio_lift. auto.
  - destruct (He e) as [v ->]; [simpl; auto|]. cbn [noio]. intro a. apply IH; auto. intros x Hx. apply He. simpl. auto.
Qed.

Transparent fixit_bytes.
Lemma calm_bytes : forall T p content cfg autofix, calm (fixit_bytes T p content cfg autofix false).
Proof.
  intros T p content cfg autofix. unfold fixit_bytes. apply calm_catch; [|cbn; auto]. cbn [noio]. intro F.
  apply noio_lift. intros rules.
  assert (K : noio (lift (t_parse T content) (fun md =>
               let (evs, r) := collect_violations (t_udiff T p) md (t_visit T F cfg md rules) false in
               Api.lint_loop p autofix evs r true [] (fun clean pending =>
                 if clean : bool then Give (clean_result p) (fun _ => finish_fixes T p cfg md pending)
                 else finish_fixes T p cfg md pending)))).
  { apply noio_lift. intro md. pose proof (collect_hook (t_udiff T p) md (t_visit T F cfg md rules)) as C.
    destruct (collect_violations _ _ _ false) as [evs r]. destruct C as [C _]. apply noio_loop; auto.
    assert (Fi : forall pending, noio (finish_fixes T p cfg md pending)).
    { intro pending. unfold finish_fixes. destruct pending; cbn [noio]; auto. apply noio_lift. intros [m|]; cbn [noio]; auto.
      intro G. apply noio_lift. cbn. auto. }
    intros [|] l; cbn [noio]; auto. }
  destruct rules; [cbn; auto|exact K].
Qed.
Opaque fixit_bytes.

(** ** What a job has done *)
Definition inner (e : jev) : Prop := match e with VDoc _ | VPublished _ _ | VReplied _ => False | _ => True end.
Definition silent (es : list jev) : Prop := forall e, In e es -> inner e.

Lemma silent_nil : silent [].
Proof. intros e []. Qed.
Lemma silent_cons : forall e es, inner e -> silent es -> silent (e :: es).
Proof. intros e es H S x [<-|J]; auto. Qed.
Lemma silent_app : forall a b, silent a -> silent b -> silent (a ++ b).
Proof. intros a b A B e J. apply in_app_iff in J. destruct J; auto. Qed.

Lemma drain_did : forall R (g : prog R) acc k es j, calm g -> did (drain g acc k) es j ->
  (silent es /\ ended j = false) \/
  exists evs r es1 es2, run g evs (Returned r) /\ (forall x a, In (x, a) (given evs) -> a = None) /\
    es = es1 ++ es2 /\ silent es1 /\ (forall F, In (ELook F) evs -> In (VLooked F) es1) /\
    did (k (acc ++ results evs) r) es2 j.
Proof.
  intros R g. induction g as [r|e|x g IH|g IH|p c g IH|g IH|c g IH|m g IH]; intros acc k es j C H; cbn [calm drain] in *; try contradiction.
  - right. exists [], r, [], es. cbn [results given map]. rewrite app_nil_r. split; [constructor|]. split; [intros ? ? []|]. split; [reflexivity|]. split; [apply silent_nil|]. split; [intros ? []|exact H].
  - apply IH in H; auto. destruct H as [H|(evs & r & es1 & es2 & H1 & H2 & H3 & H4 & H5 & H6)]; auto. right.
    exists (EGive x None :: evs), r, es1, es2. split; [now constructor|]. split; [intros y a [Hy|Hy]; [congruence|eauto]|].
    split; auto. split; auto. split; [intros F [Y|Y]; [discriminate|auto]|].
    cbn [results given map fst]. fold (results evs). rewrite <- app_assoc in H6. exact H6.
  - inversion H as [ | | |F k' es' j' H'| | | | ]; subst.
    + left. split; auto using silent_nil.
    + apply IH in H'; auto. destruct H' as [[H1 H2]|(evs & r & es1 & es2 & H1 & H2 & H3 & H4 & H5 & H6)].
      * left. split; auto. now apply silent_cons.
      * right. exists (ELook F :: evs), r, (VLooked F :: es1), es2. subst es'. split; [now constructor|]. split; [exact H2|].
        split; auto. split; [now apply silent_cons|]. split; auto. intros F' [Y|Y]; [injection Y as ->; simpl; auto|simpl; auto].
Qed.

Lemma lift_did : forall A (r : res A) k es j, did (jlift r k) es j ->
  (exists a, r = Ok a /\ did (k a) es j) \/ (exists e, r = Err e /\ es = [] /\ j = JEnd (Err e)).
Proof. intros A [a|e] k es j H; cbn in H; [eauto|]. right. exists e. inversion H; subst; auto. Qed.

Lemma load_did : forall S p k es j, did (load_config S p k) es j ->
  (silent es /\ (ended j = false \/
     exists e, j = JEnd (Err e) /\
       ((exists F, In (VLooked F) es /\ generate_config (t_env (z_tool S)) F p None (Some (z_options S)) = Err e) \/ In (VFetched p None) es))) \/
  exists cfg es1 es2, es = es1 ++ es2 /\ silent es1 /\ In (VFetched p (Some cfg)) es1 /\ did (k cfg) es2 j.
Proof.
  intros S p k es j H. unfold load_config in H.
  set (fetch := JFetch p (fun c => match c with Some c => k c | None => JEnd (Err KeyError) end)) in *.
  assert (Fe : forall es j, did fetch es j ->
     (silent es /\ (ended j = false \/ exists e, j = JEnd (Err e) /\ In (VFetched p None) es)) \/
     exists cfg es1 es2, es = es1 ++ es2 /\ silent es1 /\ In (VFetched p (Some cfg)) es1 /\ did (k cfg) es2 j).
  { clear. intros es j H. unfold fetch in H. inversion H as [ | | | | |? c ? es' ? H'| | ]; subst.
    - left. split; auto using silent_nil.
    - destruct c as [c|].
      + right. exists c, [VFetched p (Some c)], es'. split; auto. split; [intros e [<-|[]]; exact I|]. split; simpl; auto.
      + inversion H'; subst. left. split; [intros e [<-|[]]; exact I|]. right. exists KeyError. simpl. auto. }
  inversion H as [ | |? b ? es' ? H'| | | | | ]; subst.
  - left. split; auto using silent_nil.
  - destruct b.
    + apply Fe in H'. destruct H' as [[A [B|(e & B & C)]]|(cfg & es1 & es2 & -> & A & B & C)].
      * left. split; [now apply silent_cons|auto].
      * left. split; [now apply silent_cons|]. right. exists e. split; auto. right. simpl. auto.
      * right. exists cfg, (VHas p true :: es1), es2. split; auto. split; [now apply silent_cons|]. simpl. auto.
    + inversion H' as [ | | |F ? es2 ? H2| | | | ]; subst.
      * left. split; [now apply silent_cons; [|apply silent_nil]|auto].
      * apply lift_did in H2. destruct H2 as [(c & G & H2)|(e & G & -> & ->)].
        -- inversion H2 as [ | | | |? ? ? es3 ? H3| | | ]; subst.
           ++ left. split; [|auto]. do 2 (apply silent_cons; [exact I|]). apply silent_nil.
           ++ apply Fe in H3. destruct H3 as [[A [B|(e & B & C)]]|(cfg & es1 & es2 & -> & A & B & C)].
              ** left. split; [|auto]. do 3 (apply silent_cons; [exact I|]). auto.
              ** left. split; [do 3 (apply silent_cons; [exact I|]); auto|]. right. exists e. split; auto. right. simpl. auto.
              ** right. exists cfg, (VHas p false :: VLooked F :: VStored p c :: es1), es2. split; auto.
                 split; [do 3 (apply silent_cons; [exact I|]); auto|]. simpl. auto.
        -- left. split; [do 2 (apply silent_cons; [exact I|]); apply silent_nil|]. right. exists e. split; auto. left. exists F. simpl. auto.
Qed.

Lemma results_did : forall S u a none k es j p, z_path S u = Some p -> did (with_results S u a none k) es j ->
  (es = [] /\ ended j = false) \/
  exists t es', es = VDoc t :: es' /\
    ((silent es' /\ (ended j = false \/
       exists e, j = JEnd (Err e) /\
         (t = Err e \/ (exists x, t = Ok x /\ z_encode S x = Err e) \/
          (exists F, In (VLooked F) es' /\ generate_config (t_env (z_tool S)) F p None (Some (z_options S)) = Err e) \/
          In (VFetched p None) es'))) \/
    exists text content cfg evs r es1 es2, es' = es1 ++ es2 /\ silent es1 /\ t = Ok text /\
      z_encode S text = Ok content /\ In (VFetched p (Some cfg)) es1 /\
      run (fixit_bytes (z_tool S) p content cfg a false) evs (Returned r) /\ (forall x b, In (x, b) (given evs) -> b = None) /\
      (forall F, In (ELook F) evs -> In (VLooked F) es1) /\
      did (k (results evs) r) es2 j).
Proof.
  intros S u a none k es j p P H. unfold with_results in H. rewrite P in H. inversion H as [ |t ? es' ? H'| | | | | | ]; subst.
  - left. auto.
  - right. exists t, es'. split; auto. apply lift_did in H'. destruct H' as [(text & -> & H')|(e & -> & -> & ->)].
    + apply lift_did in H'. destruct H' as [(content & Ec & H')|(e & Ec & -> & ->)].
      * apply load_did in H'. destruct H' as [[A [B|(e & B & [C|C])]]|(cfg & es1 & es2 & -> & A & B & C)].
        -- left. auto.
        -- left. split; auto. right. exists e. auto.
        -- left. split; auto. right. exists e. auto.
        -- apply drain_did in C; [|apply calm_bytes]. destruct C as [[C D]|(evs & r & es3 & es4 & C1 & C2 & -> & C4 & C5 & C6)].
           ++ left. split; [|auto]. now apply silent_app.
           ++ right. exists text, content, cfg, evs, r, (es1 ++ es3), es4. split; [now rewrite <- app_assoc|].
              split; [now apply silent_app|]. split; auto. split; auto. split; [apply in_app_iff; auto|]. split; auto. split; auto.
              split; [intros F J; apply in_app_iff; auto|]. exact C6.
      * left. split; [apply silent_nil|]. right. exists e. split; auto. right. left. exists text. auto.
    + left. split; [apply silent_nil|]. right. exists e. auto.
Qed.

(** ** How jobs use the cache: a configuration is stored right after a miss and looking at the files,
    and fetched only after a hit or storing it. *)
Inductive trace := TNone | TMiss (p : path) | TLooked (p : path) (F : fs) | THave (p : path).

Definition next (s : trace) (e : jev) : trace :=
  match e with
  | VHas p true => THave p
  | VHas p false => TMiss p
  | VLooked F => match s with TMiss p => TLooked p F | _ => TNone end
  | VStored p _ => THave p
  | _ => TNone
  end.
Definition traced (es : list jev) : trace := fold_left next es TNone.

Fixpoint okj (S : server) (s : trace) (j : job) : Prop :=
  match j with
  | JEnd _ => True
  | JDoc k => forall t, okj S TNone (k t)
  | JHas p k => okj S (THave p) (k true) /\ okj S (TMiss p) (k false)
  | JLook k => forall F, okj S (next s (VLooked F)) (k F)
  | JStore p c k => (exists F, s = TLooked p F /\ generate_config (t_env (z_tool S)) F p None (Some (z_options S)) = Ok c) /\ okj S (THave p) k
  | JFetch p k => s = THave p /\ forall c, okj S TNone (k c)
  | JPublish _ _ k => okj S TNone k
  | JReply _ k => okj S TNone k
  end.

Lemma okj_drain : forall S R (g : prog R) s acc k, (forall s xs r, okj S s (k xs r)) -> okj S s (drain g acc k).
Proof. intros S R g. induction g; intros s acc kk Hk; cbn [drain okj]; auto. Qed.

Lemma okj_lift : forall S s A (r : res A) k, (forall a, r = Ok a -> okj S s (k a)) -> okj S s (jlift r k).
Proof. intros S s A [a|e] k H; cbn; auto. Qed.

Lemma okj_results : forall S u a none k s, (forall s, okj S s none) -> (forall s xs r, okj S s (k xs r)) ->
  okj S s (with_results S u a none k).
Proof.
  intros S u a none k s H0 H. unfold with_results. destruct (z_path S u) as [p|]; auto. cbn [okj]. intro t. apply okj_lift. intros text _.
  apply okj_lift. intros content _. unfold load_config. cbn [okj next].
  assert (Fe : forall c : option config, okj S TNone match c with
      | Some c => drain (fixit_bytes (z_tool S) p content c a false) [] k | None => JEnd (Err KeyError) end).
  { intros [c|]; [|exact I]. now apply okj_drain. }
  split; [split; auto|]. intro F. apply okj_lift. intros c G. cbn [okj]. eauto.
Qed.

Lemma okj_validate : forall S u v s, okj S s (validate_job S u v).
Proof. intros. apply okj_results; intros; exact I. Qed.
Lemma okj_format : forall S u s, okj S s (format_job S u).
Proof.
  intros. apply okj_results; [intros; exact I|]. intros s' _ [[|c l]|]; try exact I. cbn [okj]. intro t. apply okj_lift. intros text _.
  apply okj_lift. intros rg _. apply okj_lift. intros new _. exact I.
Qed.

Lemma okj_act : forall S q u j e j' q' s, act S q u j = Some (e, j', q') -> okj S s j -> okj S (next s e) j'.
Proof.
  intros S q u j e j' q' s H O. destruct j; cbn in H; try discriminate; injection H as <- <- <-; cbn [okj next] in *; try apply O.
  destruct (q_cache q p); apply O.
Qed.

Lemma did_snoc : forall j es now S q u e j' q', did j es now -> act S q u now = Some (e, j', q') -> did j (es ++ [e]) j'.
Proof.
  intros j es now S q u e j' q' D. induction D; intro A; try (constructor; now apply IHD).
  destruct j; cbn in A; try discriminate; injection A as <- <- <-; repeat constructor.
Qed.

(** ** What is true of every thread at any time *)
Lemma was_fs_now : forall S F0 h q, reaches S F0 h q -> was_fs S F0 h (q_fs q).
Proof. intros. exists h, [], q. rewrite app_nil_r. auto. Qed.
Lemma was_fs_snoc : forall S F0 h l F, was_fs S F0 h F -> was_fs S F0 (h ++ [l]) F.
Proof. intros S F0 h l F (h1 & h2 & q & -> & R & E). exists h1, (h2 ++ [l]), q. rewrite app_assoc. auto. Qed.

Lemma was_cached_now : forall S F0 h q p c, reaches S F0 h q -> q_cache q p = Some c -> was_cached S F0 h p c.
Proof. intros S F0 h q p c R E. exists h, [], q. rewrite app_nil_r. auto. Qed.
Lemma was_cached_snoc : forall S F0 h l p c, was_cached S F0 h p c -> was_cached S F0 (h ++ [l]) p c.
Proof. intros S F0 h l p c (h1 & h2 & q & -> & R & E). exists h1, (h2 ++ [l]), q. rewrite app_assoc. auto. Qed.

Lemma from_files_snoc : forall S F0 h l p c, from_files S F0 h p c -> from_files S F0 (h ++ [l]) p c.
Proof. intros S F0 h l p c (F & W & G). exists F. split; auto. now apply was_fs_snoc. Qed.

Record thread_ok (S : server) (F0 : fs) (h : list label) (q : state) (u : uri) (t : thread) : Prop := {
  to_did : did (h_job t) (h_done t) (h_now t);
  to_okj : okj S (traced (h_done t)) (h_now t);
  to_have : forall p, traced (h_done t) = THave p -> q_cache q p <> None;
  to_looked : forall F, In (VLooked F) (h_done t) -> was_fs S F0 h F;
  to_traced : forall p F, traced (h_done t) = TLooked p F -> was_fs S F0 h F;
  to_fetched : forall p c, In (VFetched p c) (h_done t) -> exists c', c = Some c' /\ was_cached S F0 h p c';
  to_kind : h_job t = format_job S u \/
    exists v, h_job t = validate_job S u v /\ In (Change u v) h /\
      forall r, In (VDoc r) (h_done t) -> exists h1 h2 q1, h = h1 ++ h2 /\ reaches S F0 h1 q1 /\ In (Change u v) h1 /\ source S q1 u = r }.

Definition cache_ok (S : server) (F0 : fs) (h : list label) (q : state) : Prop :=
  forall p c, q_cache q p = Some c -> from_files S F0 h p c.

Lemma traced_snoc : forall es e, traced (es ++ [e]) = next (traced es) e.
Proof. intros. unfold traced. now rewrite fold_left_app. Qed.

Lemma cache_grows : forall S q l q' p, step S q l = Some q' -> q_cache q p <> None -> q_cache q' p <> None.
Proof.
  intros S q l q' p E H. rewrite (cache_step _ _ _ _ p E). destruct l; auto. destruct (nth_error _ _) as [[j es now]|]; auto.
  destruct now; auto. destruct (path_eqb p p0); auto. discriminate.
Qed.

Lemma started_change : forall S F0 h q q' u i, reaches S F0 h q -> step S q (Start u i) = Some q' ->
  exists t, nth_error (d_timers (q_docs q u)) i = Some t /\ In (Change u (tm_version t)) h.
Proof.
  intros S F0 h q q' u i R E. cbn [step] in E. cbv zeta in E. destruct (nth_error (d_timers (q_docs q u)) i) as [t|] eqn:N; [|discriminate].
  exists t. split; auto. clear E q'. apply nth_error_In in N. revert t N.
  assert (K : forall t, In t (d_timers (q_docs q u)) -> In (Change u (tm_version t)) h); [|exact K].
  revert h q R. apply (reaches_ind S F0 (fun h q => forall t, In t (d_timers (q_docs q u)) -> In (Change u (tm_version t)) h)); [intros t []|].
  intros h l q q' R IH E t I. rewrite in_app_iff. destruct (about u l) eqn:A; [|rewrite (doc_other _ _ _ _ _ E A) in I; auto].
  rewrite (doc_self _ _ _ _ _ E A) in I. cbv zeta in I. destruct l as [n|F|u' x|u' v|u'|u' k|u' k]; cbn [about] in A; auto;
    try (apply str_eqb_eq in A; subst u').
  - destruct (z_interval S =? 0)%N; cbn in I; auto. unfold debounced in I. apply in_app_iff in I. destruct I as [I|[<-|[]]]; [|right; simpl; auto].
    apply in_update in I. destruct I as [I|(x & X & ->)]; auto. left. replace (tm_version (cancel x)) with (tm_version x) by (unfold cancel; now destruct (tm_state x)).
    apply IH. eapply nth_error_In; eauto.
  - destruct (nth_error _ _) as [x|] eqn:X; auto. cbn in I. apply in_update in I. destruct I as [I|(y & Y & ->)]; auto. cbn. left. apply IH. eapply nth_error_In; eauto.
  - destruct (nth_error _ _) as [[j es now]|]; auto. destruct (act _ _ _ _) as [[[e j'] q1]|]; auto. destruct e; auto.
Qed.

Lemma thread_ok_reached : forall S F0 h q, reaches S F0 h q ->
  cache_ok S F0 h q /\ forall u t, In t (d_threads (q_docs q u)) -> thread_ok S F0 h q u t.
Proof.
  intros S F0. apply reaches_ind; [split; [intros p c; discriminate|intros u t []]|].
  intros h l q q' R [C T] E.
  assert (C' : cache_ok S F0 (h ++ [l]) q').
  { intros p c. rewrite (cache_step _ _ _ _ p E). destruct l; try (intro X; apply from_files_snoc; now apply C).
    destruct (nth_error (d_threads (q_docs q u)) i) as [[j es now]|] eqn:N; [|intro X; apply from_files_snoc; now apply C].
    apply nth_error_In in N. apply T in N. destruct now; try (intro X; apply from_files_snoc; now apply C).
    destruct (path_eqb p p0) eqn:P; [|intro X; apply from_files_snoc; now apply C]. intro X. injection X as ->. apply path_eqb_eq in P. subst p0.
    apply from_files_snoc. destruct (to_okj _ _ _ _ _ _ N) as [(F & Tr & G) _]. exists F. split; auto. eapply to_traced; eauto. }
  split; [exact C'|].
  assert (Ke : forall u t, thread_ok S F0 h q u t -> thread_ok S F0 (h ++ [l]) q' u t).
  { intros u t [K1 K2 K3 K4 K5 K6 K7]. constructor; auto.
    - intros p X. eapply cache_grows; eauto.
    - intros F X. apply was_fs_snoc. eauto.
    - intros p F X. apply was_fs_snoc. eauto.
    - intros p c X. destruct (K6 p c X) as (c' & A & B). exists c'. split; auto. now apply was_cached_snoc.
    - destruct K7 as [K7|(v & K7 & K8 & K9)]; auto. right. exists v. split; auto. split; [apply in_app_iff; auto|].
      intros r X. destruct (K9 r X) as (h1 & h2 & q1 & -> & A & B & D). exists h1, (h2 ++ [l]), q1. rewrite app_assoc. auto. }
  assert (New : forall u j, (forall s, okj S s j) -> j = format_job S u \/ (exists v, j = validate_job S u v /\ In (Change u v) (h ++ [l])) ->
    thread_ok S F0 (h ++ [l]) q' u (Thread j [] j)).
  { intros u j O K. constructor; cbn; auto; try (intros; contradiction); try (intros; discriminate); [constructor|].
    destruct K as [K|(v & K1 & K2)]; auto. right. exists v. split; auto. split; auto. intros r []. }
  intros u t I. destruct (about u l) eqn:A; [|rewrite (doc_other _ _ _ _ _ E A) in I; auto].
  rewrite (doc_self _ _ _ _ _ E A) in I. cbv zeta in I. destruct l as [n|F|u' x|u' v|u'|u' i|u' i]; cbn [about] in A; auto;
    try (apply str_eqb_eq in A; subst u').
  - destruct (z_interval S =? 0)%N; cbn in I; auto. apply in_app_iff in I. destruct I as [I|[<-|[]]]; auto.
    apply New; [apply okj_validate|]. right. exists v. rewrite in_app_iff. simpl. auto.
  - cbn in I. apply in_app_iff in I. destruct I as [I|[<-|[]]]; auto. apply New; [apply okj_format|auto].
  - destruct (started_change _ _ _ _ _ _ _ R E) as (t0 & N & Ch). rewrite N in I. cbn in I. apply in_app_iff in I. destruct I as [I|[<-|[]]]; auto.
    apply New; [apply okj_validate|]. right. eexists. split; [reflexivity|]. apply in_app_iff. auto.
  - destruct (nth_error (d_threads (q_docs q u)) i) as [[j es now]|] eqn:N; auto. destruct (act S q u now) as [[[e j'] q1]|] eqn:X; auto.
    assert (I2 : In t (update_nth i (fun _ => Thread j (es ++ [e]) j') (d_threads (q_docs q u)))) by (destruct e; exact I).
    apply in_update in I2. destruct I2 as [I2|(y & Hy & ->)]; auto. rewrite N in Hy. injection Hy as <-. pose proof (nth_error_In _ _ N) as NI.
    pose proof (T _ _ NI) as T0. pose proof (Ke _ _ T0) as T1. destruct T1 as [K1 K2 K3 K4 K5 K6 K7]. destruct T0 as [J1 J2 J3 J4 J5 J6 J7]. cbn [h_job h_done h_now] in *.
    assert (Lk : forall F, e = VLooked F -> was_fs S F0 (h ++ [Act u i]) F).
    { intros F ->. assert (F = q_fs q) by (destruct now; cbn in X; try discriminate; injection X as <- _ _; auto). subst F. apply was_fs_snoc. now apply was_fs_now. }
    constructor; cbn [h_job h_done h_now].
    + eapply did_snoc; eauto.
    + rewrite traced_snoc. eapply okj_act; eauto.
    + intros p. rewrite traced_snoc. intro H. assert (W : q_cache q' p <> None).
      { rewrite (cache_step _ _ _ _ p E). rewrite N. destruct now; cbn in X; try discriminate; injection X as <- _ _; cbn [next] in H; try discriminate.
        - destruct (q_cache q p0) eqn:Q; [|discriminate]. injection H as <-. congruence.
        - destruct (traced es); discriminate.
        - injection H as <-. now rewrite path_eqb_refl. }
      exact W.
    + intros F H. apply in_app_iff in H. destruct H as [H|[H|[]]]; eauto.
    + intros p F. rewrite traced_snoc. intro H. destruct e; cbn in H; try discriminate; [destruct b; discriminate|]. destruct (traced es) eqn:Tr; try discriminate. injection H as <- <-. now apply Lk.
    + intros p c H. apply in_app_iff in H. destruct H as [H|[H|[]]]; eauto.
      destruct now; cbn in X; try discriminate; injection X as <- _ _; try discriminate. injection H as <- <-. destruct J2 as [J2 _].
      pose proof (J3 _ J2) as NN. destruct (q_cache q p0) as [c|] eqn:Q; [|congruence]. exists c. split; auto. apply was_cached_snoc. eapply was_cached_now; eauto.
    + destruct K7 as [K7|(v & K7 & K8 & K9)]; auto. right. exists v. split; auto. split; auto. intros r H. apply in_app_iff in H. destruct H as [H|[H|[]]]; auto.
      destruct J7 as [J7|(v' & J7 & J8 & _)].
      * exists h, [Act u i], q. split; auto. split; auto. subst e. split.
        { apply in_app_iff in K8. destruct K8 as [K8|[K8|[]]]; [auto|discriminate]. }
        destruct now; cbn in X; try discriminate; injection X as <- _ _; auto.
      * exists h, [Act u i], q. split; auto. split; auto. subst e. split.
        { apply in_app_iff in K8. destruct K8 as [K8|[K8|[]]]; [auto|discriminate]. }
        destruct now; cbn in X; try discriminate; injection X as <- _ _; auto.
Qed.

Lemma published_thread : forall S F0 h q, reaches S F0 h q ->
  forall u v ds, In (v, ds) (d_published (q_docs q u)) -> exists t, In t (d_threads (q_docs q u)) /\ In (VPublished v ds) (h_done t).
Proof.
  intros S F0 h q R u. revert h q R. apply (reaches_ind S F0 (fun h q => forall v ds, In (v, ds) (d_published (q_docs q u)) ->
    exists t, In t (d_threads (q_docs q u)) /\ In (VPublished v ds) (h_done t))); [intros v ds []|].
  intros h l q q' R IH E v ds I. destruct (about u l) eqn:A; [|rewrite (doc_other _ _ _ _ _ E A) in *; auto].
  rewrite (doc_self _ _ _ _ _ E A) in *. cbv zeta in *. destruct l as [n|F|u' x|u' w|u'|u' i|u' i]; cbn [about] in A; auto;
    try (apply str_eqb_eq in A; subst u').
  - destruct (z_interval S =? 0)%N; cbn in *; auto. destruct (IH v ds I) as (th & T1 & T2). exists th. rewrite in_app_iff. auto.
  - cbn in *. destruct (IH v ds I) as (th & T1 & T2). exists th. rewrite in_app_iff. auto.
  - destruct (nth_error _ _); auto. cbn in *. destruct (IH v ds I) as (th & T1 & T2). exists th. rewrite in_app_iff. auto.
  - destruct (nth_error (d_threads (q_docs q u)) i) as [[j es now]|] eqn:N; auto. destruct (act S q u now) as [[[e j'] q1]|] eqn:X; auto.
    set (l' := update_nth i (fun _ => Thread j (es ++ [e]) j') (d_threads (q_docs q u))).
    assert (Old : forall v ds, In (v, ds) (d_published (q_docs q u)) -> exists t, In t l' /\ In (VPublished v ds) (h_done t)).
    { intros v0 ds0 I0. destruct (IH v0 ds0 I0) as (th & T1 & T2). apply In_nth_error in T1. destruct T1 as (k & T1).
      destruct (Nat.eq_dec k i) as [->|Nk].
      - rewrite N in T1. injection T1 as <-. exists (Thread j (es ++ [e]) j'). split.
        + apply nth_error_In with (n := i). unfold l'. rewrite nth_update, Nat.eqb_refl, N. reflexivity.
        + cbn. apply in_app_iff. auto.
      - exists th. split; auto. apply nth_error_In with (n := k). unfold l'. rewrite nth_update. apply Nat.eqb_neq in Nk. rewrite Nk. exact T1. }
    destruct e; cbn in I |- *; fold l'; try (now apply Old).
    cbn in I. apply in_app_iff in I. destruct I as [I|[I|[]]]; [now apply Old|]. injection I as -> ->.
    exists (Thread j (es ++ [VPublished v ds]) j'). split.
    + apply nth_error_In with (n := i). unfold l'. rewrite nth_update, Nat.eqb_refl, N. reflexivity.
    + cbn. apply in_app_iff. simpl. auto.
Qed.
