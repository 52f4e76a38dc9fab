(** * The language server: what is published (C41, C42, C44) *)
From Coq Require Import String List NArith ZArith Bool Arith Lia Permutation Sorted.
From Verif Require Import Base PyStr Ftypes Paths Config Suppress Cst Engine Api ApiSpec ApiFacts ApiProps Lsp LspSpec LspFacts LspProps.
Import ListNotations.

Opaque fixit_bytes.

Definition pubs (es : list jev) : list (Z * list diagnostic) :=
  flat_map (fun e => match e with VPublished v ds => [(v, ds)] | _ => [] end) es.
Definition stores (es : list jev) : list (path * config) :=
  flat_map (fun e => match e with VStored p c => [(p, c)] | _ => [] end) es.

Lemma pubs_app : forall a b, pubs (a ++ b) = pubs a ++ pubs b.
Proof. intros. apply flat_map_app. Qed.
Lemma pubs_silent : forall es, silent es -> pubs es = [].
Proof.
  induction es as [|e es IH]; intro H; auto. cbn [pubs flat_map]. fold (pubs es). rewrite IH by (intros x X; apply H; simpl; auto).
  pose proof (H e (or_introl eq_refl)). destruct e; auto; contradiction.
Qed.
Lemma pubs_in : forall es v ds, In (v, ds) (pubs es) <-> In (VPublished v ds) es.
Proof.
  intros es v ds. unfold pubs. rewrite in_flat_map. split.
  - intros (e & I & J). destruct e; try contradiction. destruct J as [J|[]]. injection J as -> ->. auto.
  - intro I. exists (VPublished v ds). split; auto. simpl. auto.
Qed.

Lemma validate_did : forall S u p v es j, z_path S u = Some p -> did (validate_job S u v) es j ->
  (pubs es = [] /\ ended j = false) \/
  (pubs es = [] /\ exists e, j = JEnd (Err e) /\
     (In (VDoc (Err e)) es \/ (exists x, In (VDoc (Ok x)) es /\ z_encode S x = Err e) \/
      (exists F, In (VLooked F) es /\ generate_config (t_env (z_tool S)) F p None (Some (z_options S)) = Err e) \/
      In (VFetched p None) es)) \/
  exists text content cfg evs r, j = JEnd (Ok tt) /\ In (VDoc (Ok text)) es /\ z_encode S text = Ok content /\
    In (VFetched p (Some cfg)) es /\ run (fixit_bytes (z_tool S) p content cfg false false) evs (Returned r) /\
    (forall F, In (ELook F) evs -> In (VLooked F) es) /\
    pubs es = [(v, map diagnostic_of (violations (results evs)))].
Proof.
  intros S u p v es j P D. unfold validate_job in D. apply results_did with (p := p) in D; auto.
  destruct D as [[-> E]|(t & es' & -> & [[Si [E|(e & -> & C)]]|(text & content & cfg & evs & r & es1 & es2 & -> & Si & -> & Ec & Fe & Ru & _ & Lo & D)])].
  - left. auto.
  - left. split; auto. cbn [pubs flat_map app]; now apply pubs_silent.
  - right. left. split; [cbn [pubs flat_map app]; now apply pubs_silent|]. exists e. split; auto.
    destruct C as [->|[(x & -> & C)|[(F & I & C)|C]]]; [left; simpl; auto|right; left|right; right; left|right; right; right].
    + exists x. simpl. auto.
    + exists F. simpl. auto.
    + simpl. auto.
  - assert (Sh : map diagnostic_of (violations (results evs)) =
      flat_map (fun x => match x_violation x with Some v => [diagnostic_of v] | None => [] end) (results evs)).
    { clear. unfold violations. induction (results evs) as [|x l IH]; [reflexivity|]. cbn [flat_map]. rewrite map_app, IH. now destruct (x_violation x). }
    inversion D as [ | | | | | |? ? ? es3 ? D'|]; subst.
    + left. split; auto. change (pubs (es1 ++ []) = []). rewrite pubs_app, pubs_silent by auto. reflexivity.
    + inversion D'; subst. right. right. exists text, content, cfg, evs, r. split; auto. split; [simpl; auto|]. split; auto.
      split; [right; apply in_app_iff; auto|]. split; auto. split; [intros F I; right; apply in_app_iff; auto|].
      change (pubs (es1 ++ [VPublished v (flat_map (fun x => match x_violation x with Some v => [diagnostic_of v] | None => [] end) (results evs))]) =
        [(v, map diagnostic_of (violations (results evs)))]).
      rewrite pubs_app, pubs_silent by auto. cbn. now rewrite Sh.
Qed.

Lemma format_did_pubs : forall S u es j, did (format_job S u) es j -> pubs es = [].
Proof.
  intros S u es j D. destruct (z_path S u) as [p|] eqn:P.
  - unfold format_job in D. apply results_did with (p := p) in D; auto.
    destruct D as [[-> E]|(t & es' & -> & [[Si _]|(text & content & cfg & evs & r & es1 & es2 & -> & Si & _ & _ & _ & _ & _ & _ & D)])]; auto.
    + cbn [pubs flat_map app]; now apply pubs_silent.
    + change (pubs (es1 ++ es2) = []). rewrite pubs_app, pubs_silent by auto. cbn [app].
      assert (Rep : forall e es2 j, did (JReply e (JEnd (Ok tt))) es2 j -> pubs es2 = []).
      { clear. intros e es2 j D. inversion D as [ | | | | | | |? ? es3 ? D']; subst; auto. inversion D'; subst. auto. }
      destruct r as [[|c l]|]; eauto. inversion D as [ |t2 ? es3 ? D'| | | | | | ]; subst; auto. cbn.
      apply lift_did in D'. destruct D' as [(x & _ & D')|(e & _ & -> & _)]; auto.
      apply lift_did in D'. destruct D' as [(y & _ & D')|(e & _ & -> & _)]; auto.
      apply lift_did in D'. destruct D' as [(z & _ & D')|(e & _ & -> & _)]; eauto.
  - unfold format_job, with_results in D. rewrite P in D. inversion D as [ | | | | | | |? ? es3 ? D']; subst; auto. inversion D'; subst. auto.
Qed.

Lemma no_path_validate : forall S u v es j, z_path S u = None -> did (validate_job S u v) es j -> es = [] /\ j = JEnd (Ok tt).
Proof. intros S u v es j P D. unfold validate_job, with_results in D. rewrite P in D. inversion D; subst. auto. Qed.

(** Everything published comes from a thread, and what threads publish arrives. *)
Lemma published_threads : forall S F0 u h q, reaches S F0 h q ->
  Permutation (d_published (q_docs q u)) (flat_map (fun t => pubs (h_done t)) (d_threads (q_docs q u))).
Proof.
  intros S F0 u h q R. revert h q R.
  apply (reaches_ind S F0 (fun _ q => Permutation (d_published (q_docs q u)) (flat_map (fun t => pubs (h_done t)) (d_threads (q_docs q u)))));
    [constructor|].
  intros h l q q' R IH E. destruct (about u l) eqn:A; [|now rewrite (doc_other _ _ _ _ _ E A)].
  rewrite (doc_self _ _ _ _ _ E A). cbv zeta. destruct l as [n|F|u' x|u' v|u'|u' i|u' i]; cbn [about] in A; auto;
    try (apply str_eqb_eq in A; subst u').
  - destruct (z_interval S =? 0)%N; cbn; auto. rewrite flat_map_app. cbn. now rewrite app_nil_r.
  - cbn. rewrite flat_map_app. cbn. now rewrite app_nil_r.
  - destruct (nth_error _ _); cbn; auto. rewrite flat_map_app. cbn. now rewrite app_nil_r.
  - destruct (nth_error (d_threads (q_docs q u)) i) as [[j es now]|] eqn:N; auto. destruct (act S q u now) as [[[e j'] q1]|] eqn:X; auto.
    assert (K : Permutation (flat_map (fun t => pubs (h_done t)) (update_nth i (fun _ => Thread j (es ++ [e]) j') (d_threads (q_docs q u))))
                            (flat_map (fun t => pubs (h_done t)) (d_threads (q_docs q u)) ++ pubs [e])).
    { clear - N. revert i N. generalize (d_threads (q_docs q u)). intro l. induction l as [|t l IH]; intros [|i] N; try discriminate.
      - injection N as ->. cbn -[pubs]. rewrite pubs_app, <- !app_assoc. apply Permutation_app_head. apply Permutation_app_comm.
      - change (update_nth (Datatypes.S i) (fun _ => Thread j (es ++ [e]) j') (t :: l)) with
               (t :: update_nth i (fun _ => Thread j (es ++ [e]) j') l).
        cbn [flat_map]. rewrite <- app_assoc. apply Permutation_app_head. now apply IH. }
    destruct e; cbn [d_published set_threads publish d_threads]; cbn [pubs flat_map app] in K; try (rewrite app_nil_r in K);
      try (symmetry; etransitivity; [exact K|]; now symmetry).
    symmetry. etransitivity; [exact K|]. apply Permutation_app_tail. now symmetry.
Qed.

(** ** C42 *)

Lemma shows_of : forall vs, Forall2 shows vs (map diagnostic_of vs).
Proof. induction vs as [|v vs IH]; cbn; constructor; auto. unfold shows, diagnostic_of. cbn. repeat split; lia. Qed.

Lemma violations_report : forall p vs err, violations (report_of p vs err) = vs.
Proof.
  intros p vs err. unfold violations, report_of. rewrite flat_map_app.
  replace (flat_map _ match err with Some e => _ | None => _ end) with (@nil viol) by (destruct err, vs; reflexivity).
  rewrite app_nil_r. induction vs as [|v vs IH]; cbn; auto. now rewrite IH.
Qed.

(** Everything that is published: for an announced version, from a text that the document had after
    this version was announced, one diagnostic per violation of linting this text with the configuration
    of the server. *)
Theorem C42_published : forall S F h q u v ds, reaches S F h q -> In (v, ds) (d_published (q_docs q u)) ->
  exists p text content cfg F' h1 h2 q1,
    z_path S u = Some p /\
    h = h1 ++ h2 /\ reaches S F h1 q1 /\ In (Change u v) h1 /\ source S q1 u = Ok text /\ z_encode S text = Ok content /\
    was_cached S F h p cfg /\ was_fs S F h F' /\
    Forall2 shows (fst (lint_of (z_tool S) F' p content cfg)) ds.
Proof.
  intros S F h q u v ds R I. apply (Permutation_in _ (published_threads _ _ u _ _ R)) in I. apply in_flat_map in I. destruct I as (t & I & J).
  destruct (thread_ok_reached _ _ _ _ R) as [_ T]. pose proof (T _ _ I) as T0. destruct T0 as [K1 _ _ _ _ _ K7].
  destruct K7 as [K7|(v0 & A & B & D)].
  - rewrite K7 in K1. apply format_did_pubs in K1. rewrite K1 in J. contradiction.
  - destruct (z_path S u) as [p|] eqn:P.
    + assert (N : pubs (h_done t) <> []) by (intro X; rewrite X in J; contradiction).
      (* the version of the thread is the one it publishes *)
      rewrite A in K1. pose proof K1 as K1'.
      destruct (validate_did _ _ _ _ _ _ P K1') as [[X _]|[[X _]|(text & content & cfg & evs & r & E1 & E2 & E3 & E4 & E5 & E6 & E7)]]; try contradiction.
      rewrite E7 in J. destruct J as [J|[]]. injection J as <- <-.
      destruct (C29_complete _ _ _ _ _ _ _ _ E5) as (F' & es' & vs & err & err' & Ev & Li & Re & _).
      destruct (D _ E2) as (h1 & h2 & q1 & H1 & H2 & H3 & H4).
      specialize (T _ _ I). destruct (to_fetched _ _ _ _ _ _ T _ _ E4) as (c' & Ec & Wc). injection Ec as <-.
      exists p, text, content, cfg, F', h1, h2, q1. repeat (split; [solve [auto]|]).
      split; [apply (to_looked _ _ _ _ _ _ T), E6; rewrite Ev; simpl; auto|]. rewrite Li. cbn [fst]. rewrite Re, violations_report. apply shows_of.
    + rewrite A in K1. apply no_path_validate in K1; auto. destruct K1 as [K1 _]. rewrite K1 in J. contradiction.
Qed.

Lemma docs_reached : forall S F h q, reaches S F h q -> forall u t r, In t (d_threads (q_docs q u)) -> In (VDoc r) (h_done t) ->
  exists h1 h2 q1, h = h1 ++ h2 /\ reaches S F h1 q1 /\ source S q1 u = r.
Proof.
  intros S F h q R u t r I. revert r. revert u t I. revert h q R.
  apply (reaches_ind S F (fun h q => forall u t, In t (d_threads (q_docs q u)) -> forall r, In (VDoc r) (h_done t) ->
    exists h1 h2 q1, h = h1 ++ h2 /\ reaches S F h1 q1 /\ source S q1 u = r)); [intros u t []|].
  intros h l q q' R IH E.
  assert (Ex : forall u r, (exists h1 h2 q1, h = h1 ++ h2 /\ reaches S F h1 q1 /\ source S q1 u = r) ->
                           exists h1 h2 q1, h ++ [l] = h1 ++ h2 /\ reaches S F h1 q1 /\ source S q1 u = r).
  { intros u r (h1 & h2 & q1 & -> & A & B). exists h1, (h2 ++ [l]), q1. rewrite app_assoc. auto. }
  apply (threads_kept _ (fun u t => forall r, In (VDoc r) (h_done t) ->
    exists h1 h2 q1, h ++ [l] = h1 ++ h2 /\ reaches S F h1 q1 /\ source S q1 u = r) _ _ _ E).
  - intros u t I r J. apply Ex. eauto.
  - intros u v _ r [].
  - intros u _ r [].
  - intros u i j es now e j' q1 -> N X r J. cbn in J. apply in_app_iff in J. destruct J as [J|[->|[]]].
    + apply Ex. apply nth_error_In in N. exact (IH _ _ N _ J).
    + exists h, [Act u i], q. split; auto. split; auto. destruct now; cbn in X; try discriminate. injection X as <- _ _. reflexivity.
Qed.

(** Every validation that ends has published its diagnostics, unless it failed before linting. *)
Theorem C42_complete : forall S F h q u v t p, reaches S F h q -> z_path S u = Some p ->
  In t (d_threads (q_docs q u)) -> h_job t = validate_job S u v -> over (h_now t) ->
  (h_now t = JEnd (Ok tt) /\ exists ds, In (v, ds) (d_published (q_docs q u))) \/
  exists e, h_now t = JEnd (Err e) /\ (forall v ds, ~ In (VPublished v ds) (h_done t)) /\
    ((exists h1 h2 q1, h = h1 ++ h2 /\ reaches S F h1 q1 /\
        (source S q1 u = Err e \/ exists text, source S q1 u = Ok text /\ z_encode S text = Err e)) \/
     (exists F', was_fs S F h F' /\ generate_config (t_env (z_tool S)) F' p None (Some (z_options S)) = Err e)).
Proof.
  intros S F h q u v t p R P I J E. apply ended_over in E. destruct (thread_ok_reached _ _ _ _ R) as [_ T]. specialize (T _ _ I).
  pose proof (to_did _ _ _ _ _ _ T) as D. rewrite J in D. destruct (validate_did _ _ _ _ _ _ P D) as [[_ X]|[(Pu & e & -> & C)|(text & content & cfg & evs & r & -> & _ & _ & _ & _ & _ & Pu)]].
  - congruence.
  - right. exists e. split; auto. split; [intros v' ds X; apply pubs_in in X; rewrite Pu in X; contradiction|].
    destruct C as [C|[(x & C & Ec)|[(F' & C & G)|C]]].
    + left. destruct (docs_reached _ _ _ _ R _ _ _ I C) as (h1 & h2 & q1 & A & B & D'). exists h1, h2, q1. auto.
    + left. destruct (docs_reached _ _ _ _ R _ _ _ I C) as (h1 & h2 & q1 & A & B & D'). exists h1, h2, q1. split; auto. split; auto. right. eauto.
    + right. exists F'. split; auto. eapply to_looked; eauto.
    + destruct (to_fetched _ _ _ _ _ _ T _ _ C) as (c' & X & _). discriminate.
  - left. split; auto. eexists. eapply Permutation_in; [symmetry; eapply published_threads; eauto|]. apply in_flat_map. exists t. split; auto. rewrite Pu. simpl. eauto.
Qed.

(** ** The threads after a step *)
Lemma thread_after : forall S q l q' u k t, step S q l = Some q' -> nth_error (d_threads (q_docs q' u)) k = Some t ->
  (nth_error (d_threads (q_docs q u)) k = Some t /\ l <> Act u k) \/
  (k = List.length (d_threads (q_docs q u)) /\
   ((exists v, t = Thread (validate_job S u v) [] (validate_job S u v) /\
       (l = Change u v /\ z_interval S = 0%N \/ exists i tm, l = Start u i /\ nth_error (d_timers (q_docs q u)) i = Some tm /\ tm_version tm = v)) \/
    (t = Thread (format_job S u) [] (format_job S u) /\ l = Format u))) \/
  (exists j es now e j' q1, l = Act u k /\ nth_error (d_threads (q_docs q u)) k = Some (Thread j es now) /\
     act S q u now = Some (e, j', q1) /\ t = Thread j (es ++ [e]) j').
Proof.
  intros S q l q' u k t E N. destruct (about u l) eqn:A.
  2: { rewrite (doc_other _ _ _ _ _ E A) in N. left. split; auto. intros ->. cbn in A. rewrite str_eqb_refl in A. discriminate. }
  rewrite (doc_self _ _ _ _ _ E A) in N. cbv zeta in N.
  assert (Sp : forall j (d : document), nth_error (d_threads (q_docs q u) ++ [Thread j [] j]) k = Some t ->
             nth_error (d_threads (q_docs q u)) k = Some t \/ k = List.length (d_threads (q_docs q u)) /\ t = Thread j [] j).
  { intros j _ X. destruct (Nat.lt_ge_cases k (List.length (d_threads (q_docs q u)))) as [L|L].
    - rewrite nth_error_app1 in X by auto. auto.
    - rewrite nth_error_app2 in X by auto. destruct (k - _) as [|m] eqn:K; [|destruct m; discriminate]. cbn in X. injection X as <-. right. split; auto. lia. }
  destruct l as [n|F|u' x|u' v|u'|u' i|u' i]; cbn [about] in A; try (apply str_eqb_eq in A; subst u').
  - left. split; auto. discriminate.
  - left. split; auto. discriminate.
  - left. split; auto. discriminate.
  - destruct (N.eqb_spec (z_interval S) 0); [|left; split; auto; discriminate].
    cbn in N. apply Sp in N; [|exact no_document]. destruct N as [N|[-> ->]]; [left; split; auto; discriminate|]. right. left. split; auto. left. exists v. auto.
  - cbn in N. apply Sp in N; [|exact no_document]. destruct N as [N|[-> ->]]; [left; split; auto; discriminate|]. right. left. auto.
  - cbn [step] in E. cbv zeta in E. destruct (nth_error (d_timers (q_docs q u)) i) as [tm|] eqn:Tm; [|discriminate].
    cbn in N. apply Sp in N; [|exact no_document]. destruct N as [N|[-> ->]]; [left; split; auto; discriminate|]. right. left. split; auto. left.
    exists (tm_version tm). split; auto. right. exists i, tm. auto.
  - cbn [step] in E. destruct (nth_error (d_threads (q_docs q u)) i) as [[j es now]|] eqn:Th; [|discriminate].
    destruct (act S q u now) as [[[e j'] q1]|] eqn:X; [|discriminate].
    assert (N2 : nth_error (update_nth i (fun _ => Thread j (es ++ [e]) j') (d_threads (q_docs q u))) k = Some t) by (destruct e; exact N).
    rewrite nth_update in N2. destruct (Nat.eqb_spec k i) as [->|Nk].
    + rewrite Th in N2. injection N2 as <-. right. right. exists j, es, now, e, j', q1. auto.
    + left. split; auto. congruence.
Qed.

(** ** C41: the configuration of a file *)

(** What is in the cache is what the files said at some time. *)
Theorem C41_from_files : forall S F h p c, was_cached S F h p c -> from_files S F h p c.
Proof.
  intros S F h p c (h1 & h2 & q & -> & R & E). destruct (thread_ok_reached _ _ _ _ R) as [C _]. destruct (C _ _ E) as (F' & (a & b & q1 & -> & R1 & E1) & G).
  exists F'. split; auto. exists a, (b ++ h2), q1. rewrite app_assoc. auto.
Qed.

Lemma overlap_prefix : forall S F h l p, no_overlap_on S F (h ++ [l]) p -> no_overlap_on S F h p.
Proof. intros S F h l p H h1 h2 q u i u' j -> R. apply (H h1 (h2 ++ [l]) q u i u' j); auto. now rewrite app_assoc. Qed.

Lemma missed : forall S F p h q, reaches S F h q -> no_overlap_on S F h p ->
  forall u k t, nth_error (d_threads (q_docs q u)) k = Some t -> traced (h_done t) = TMiss p \/ (exists F', traced (h_done t) = TLooked p F') ->
  z_path S u = Some p /\ (ended (h_now t) = false -> q_cache q p = None).
Proof.
  intros S F p h q R. revert h q R.
  apply (reaches_ind S F (fun h q => no_overlap_on S F h p ->
    forall u k t, nth_error (d_threads (q_docs q u)) k = Some t -> traced (h_done t) = TMiss p \/ (exists F', traced (h_done t) = TLooked p F') ->
    z_path S u = Some p /\ (ended (h_now t) = false -> q_cache q p = None))); [intros _ u [|k] t; discriminate|].
  intros h l q q' R IH E Ov u k t N Tr. pose proof (overlap_prefix _ _ _ _ _ Ov) as Ov'. specialize (IH Ov').
  destruct (thread_after _ _ _ _ _ _ _ E N) as [[N0 Na]|[(_ & [(v & -> & _)|[-> _]])|(j & es & now & e & j' & q1 & -> & N0 & X & ->)]].
  - destruct (IH _ _ _ N0 Tr) as [P C]. split; auto. intro En. specialize (C En). rewrite (cache_step _ _ _ _ p E).
    destruct l as [n|F1|u' x|u' v|u'|u' i|u' i]; auto. destruct (nth_error (d_threads (q_docs q u')) i) as [[j2 es2 now2]|] eqn:N2; auto.
    destruct now2 as [| | | |p2 c2 k2| | | ]; auto. destruct (path_eqb p p2) eqn:Pe; auto. exfalso. apply path_eqb_eq in Pe. subst p2.
    pose proof (threads_only_reached _ _ _ _ R u' _ (nth_error_In _ _ N2)) as O. cbn in O. destruct O as [O _].
    destruct (Ov h [Act u' i] q u k u' i) as [-> ->]; auto.
    + apply active_ended. exists t. auto.
    + apply active_ended. eexists. split; [exact N2|reflexivity].
  - cbn in Tr. destruct Tr as [Tr|(F' & Tr)]; discriminate.
  - cbn in Tr. destruct Tr as [Tr|(F' & Tr)]; discriminate.
  - cbn [h_done h_now] in *. rewrite traced_snoc in Tr. pose proof (threads_only_reached _ _ _ _ R u _ (nth_error_In _ _ N0)) as O. cbn [h_now] in O.
    assert (Ca : match now with JStore _ _ _ => False | _ => True end -> q_cache q' p = q_cache q p).
    { intro Z. rewrite (cache_step _ _ _ _ p E), N0. destruct now; auto; contradiction. }
    destruct now as [r|kk|p0 kk|kk|p0 c kk|p0 kk|v ds kk|ed kk]; cbn in X; try discriminate; injection X as <- <- <-; cbn [next] in Tr;
      try (destruct Tr as [Tr|(F' & Tr)]; discriminate).
    + destruct (q_cache q p0) eqn:Q; [destruct Tr as [Tr|(F' & Tr)]; discriminate|]. destruct Tr as [Tr|(F' & Tr)]; [|discriminate].
      injection Tr as ->. cbn in O. destruct O as [O _]. split; auto. intros _. rewrite Ca; auto.
    + destruct (traced es) as [|p0|p0 F0|p0] eqn:Te; try (destruct Tr as [Tr|(F' & Tr)]; discriminate). destruct Tr as [Tr|(F' & Tr)]; [discriminate|].
      injection Tr as -> _. destruct (IH _ _ _ N0) as [P C]; [left; exact Te|]. split; auto. intros _. rewrite Ca; auto.
Qed.

(** As long as requests for one file do not overlap, its configuration is computed once: it stays the
    same whatever happens to the files. *)
Theorem C41_same : forall S F h p c c', no_overlap_on S F h p -> was_cached S F h p c -> was_cached S F h p c' -> c = c'.
Proof.
  assert (K : forall S F p c h1 q1 h2 q2, no_overlap_on S F (h1 ++ h2) p -> reaches S F h1 q1 -> q_cache q1 p = Some c ->
    reaches S F (h1 ++ h2) q2 -> q_cache q2 p = Some c).
  { intros S F p c h1 q1 h2. induction h2 as [|l h2 IH] using rev_ind; intros q2 Ov R1 C R2.
    - rewrite app_nil_r in R2. unfold reaches in *. congruence.
    - rewrite app_assoc in *. apply reaches_snoc in R2. destruct R2 as (q3 & R3 & E). pose proof (overlap_prefix _ _ _ _ _ Ov) as Ov'.
      specialize (IH q3 Ov' R1 C R3). rewrite (cache_step _ _ _ _ p E). destruct l as [n|F1|u' x|u' v|u'|u' i|u' i]; auto.
      destruct (nth_error (d_threads (q_docs q3 u')) i) as [[j2 es2 now2]|] eqn:N2; auto.
      destruct now2 as [| | | |p2 c2 k2| | | ]; auto. destruct (path_eqb p p2) eqn:Pe; auto. apply path_eqb_eq in Pe. subst p2.
      destruct (thread_ok_reached _ _ _ _ R3) as [_ T]. specialize (T _ _ (nth_error_In _ _ N2)). apply to_okj in T. cbn in T. destruct T as [(F' & Tr & _) _].
      destruct (missed _ _ _ _ _ R3 Ov' _ _ _ N2) as [_ X]; [right; eauto|]. cbn in X. specialize (X eq_refl). congruence. }
  intros S F h p c c' Ov (h1 & h2 & q1 & E1 & R1 & C1) (h3 & h4 & q3 & E3 & R3 & C3).
  assert (Le : exists d, h3 = h1 ++ d \/ h1 = h3 ++ d).
  { clear - E1 E3. subst h. revert h3 E3. induction h1 as [|x h1 IH]; intros [|y h3] E.
    - exists []. auto.
    - exists (y :: h3). auto.
    - exists (x :: h1). auto.
    - injection E as <- E. destruct (IH h3 E) as (d & [->| ->]); exists d; auto. }
  assert (Pre : forall a b, h = a ++ b -> no_overlap_on S F a p).
  { intros a b -> x y q u i u' j -> R. apply (Ov x (y ++ b) q u i u' j); auto. now rewrite app_assoc. }
  destruct Le as (d & [->| ->]).
  - pose proof (K _ _ _ _ _ _ _ _ (Pre _ _ E3) R1 C1 R3). congruence.
  - pose proof (K _ _ _ _ _ _ _ _ (Pre _ _ E1) R3 C3 R1). congruence.
Qed.

Lemma no_timers : forall S F h q u, z_interval S = 0%N -> reaches S F h q -> d_timers (q_docs q u) = [].
Proof.
  intros S F h q u Z R. revert h q R. apply (reaches_ind S F (fun _ q => d_timers (q_docs q u) = [])); [reflexivity|]. intros h l q q' _ IH E.
  destruct (about u l) eqn:A; [|now rewrite (doc_other _ _ _ _ _ E A)].
  rewrite (doc_self _ _ _ _ _ E A). cbv zeta. destruct l; cbn; auto.
  - now rewrite Z.
  - rewrite IH. now destruct i.
  - destruct (nth_error _ _) as [[j es now]|]; auto. destruct (act _ _ _ _) as [[[[] j'] q1]|]; auto.
Qed.

(** Without an interval the main thread does everything, one thing after the other. *)
Lemma main_only : forall S F h q, z_interval S = 0%N -> reaches S F h q -> forall u i, active (q_docs q u) i -> q_main q = Some (u, i).
Proof.
  intros S F h q Z R. revert h q R. apply (reaches_ind S F (fun _ q => forall u i, active (q_docs q u) i -> q_main q = Some (u, i)));
    [intros u [|i] (t & N & _); discriminate|].
  intros h l q q' R IH E u k Ak. apply active_ended in Ak. destruct Ak as (t & N & En). destruct (thread_after _ _ _ _ _ _ _ E N) as [[N0 Na]|[(-> & [(v & -> & [[-> _]|(i & tm & -> & T & _)])|[-> ->]])|(j & es & now & e & j' & q1 & -> & N0 & X & ->)]].
  - assert (M : q_main q = Some (u, k)) by (apply IH, active_ended; exists t; auto). pose proof (main_step _ _ _ _ E) as Ms.
    destruct l as [n|F1|u' x|u' v|u'|u' i|u' i]; try congruence; try (destruct Ms; congruence).
    destruct Ms as [Ms|[Ms _]]; [congruence|]. rewrite Ms in M. injection M as -> ->. contradiction.
  - cbn [step] in E. destruct (q_main q); [discriminate|]. rewrite Z in E. cbn [N.eqb] in E. injection E as <-. unfold on_main. cbn in En. rewrite En. reflexivity.
  - rewrite (no_timers _ _ _ _ u Z R) in T. destruct i; discriminate.
  - cbn [step] in E. destruct (q_main q); [discriminate|]. injection E as <-. unfold on_main. cbn in En. rewrite En. reflexivity.
  - assert (M : q_main q = Some (u, k)). { apply IH, active_ended. eexists. split; [exact N0|]. destruct now; try discriminate; reflexivity. }
    cbn in En. cbn [step] in E. rewrite N0, X in E. injection E as <-. unfold release. cbn [set_doc q_main]. apply main_act in X. rewrite X, M.
    rewrite En, andb_false_r. cbn. congruence.
Qed.

Theorem C41_immediate : forall S F h p, z_interval S = 0%N -> no_overlap_on S F h p.
Proof.
  intros S F h p Z h1 h2 q u i u' j _ R _ _ A B. apply (main_only _ _ _ _ Z R) in A, B. rewrite A in B. injection B. auto.
Qed.

(** ** C44: the order of what is published *)
Lemma subseq_refl : forall A (l : list A), subseq l l.
Proof. induction l; constructor; auto. Qed.
Lemma subseq_app : forall A (a b c d : list A), subseq a b -> subseq c d -> subseq (a ++ c) (b ++ d).
Proof.
  intros A a b c d H K. induction H as [l|x l l' H IH|x l l' H IH]; cbn.
  - induction l; cbn; auto. now constructor.
  - now constructor.
  - now constructor.
Qed.
Lemma subseq_trans : forall A (a b : list A), subseq a b -> forall c, subseq b c -> subseq a c.
Proof.
  intros A a b H. induction H as [l|x l l' H IH|x l l' H IH]; intros c K.
  - constructor.
  - remember (x :: l') as b. induction K as [|y m m' K IK|y m m' K IK]; try discriminate.
    + injection Heqb as -> ->. constructor. auto.
    + constructor. auto.
  - apply IH. remember (x :: l') as b. induction K as [|y m m' K IK|y m m' K IK]; try discriminate.
    + injection Heqb as -> ->. now constructor.
    + constructor. auto.
Qed.
Lemma subseq_in : forall A (a b : list A), subseq a b -> forall x, In x a -> In x b.
Proof. intros A a b H. induction H; cbn; intros y I; [contradiction| |]; intuition. Qed.
Lemma subseq_sorted : forall A (R : A -> A -> Prop) (a b : list A), subseq a b -> StronglySorted R b -> StronglySorted R a.
Proof.
  intros A R a b H. induction H as [l|x l l' H IH|x l l' H IH]; intro K.
  - constructor.
  - inversion K as [|? ? K1 K2]; subst. constructor; auto. apply Forall_forall. intros y I. rewrite Forall_forall in K2. apply K2. eapply subseq_in; eauto.
  - inversion K; subst. auto.
Qed.

Definition kind (S : server) (u : uri) (o : option Z) (t : thread) : Prop :=
  match o with Some v => h_job t = validate_job S u v | None => h_job t = format_job S u end.
Definition somes (l : list (option Z)) : list Z := flat_map (fun o => match o with Some v => [v] | None => [] end) l.

Lemma somes_snoc : forall l o, somes (l ++ [o]) = somes l ++ match o with Some v => [v] | None => [] end.
Proof. intros l o. unfold somes. rewrite flat_map_app. cbn. destruct o; cbn; now rewrite ?app_nil_r. Qed.

Lemma Forall2_update : forall A B (R : A -> B -> Prop) f vs l i, (forall a b, R a b -> R a (f b)) ->
  Forall2 R vs l -> Forall2 R vs (update_nth i f l).
Proof. intros A B R f vs l i H K. revert i. induction K; intros [|i]; cbn; constructor; auto. apply IHK. Qed.

(** Which validations and requests the threads are. *)
Lemma kinds : forall S F u h q, reaches S F h q ->
  exists vs, Forall2 (kind S u) vs (d_threads (q_docs q u)) /\ subseq (somes vs) (changes u h) /\
    forall i tm, nth_error (d_timers (q_docs q u)) i = Some tm -> tm_state tm = Waiting ->
      exists cs, changes u h = cs ++ [tm_version tm] /\ subseq (somes vs) cs.
Proof.
  intros S F u h q R. revert h q R.
  apply (reaches_ind S F (fun h q => exists vs, Forall2 (kind S u) vs (d_threads (q_docs q u)) /\ subseq (somes vs) (changes u h) /\
    forall i tm, nth_error (d_timers (q_docs q u)) i = Some tm -> tm_state tm = Waiting ->
      exists cs, changes u h = cs ++ [tm_version tm] /\ subseq (somes vs) cs)).
  { exists []. split; [constructor|]. split; [constructor|]. intros [|i] tm; discriminate. }
  intros h l q q' R (vs & K1 & K2 & K3) E. pose proof (reaches_snoc S F h l q') as Rs. assert (R' : reaches S F (h ++ [l]) q') by (apply Rs; eauto).
  assert (Same : (forall v, l <> Change u v) -> changes u (h ++ [l]) = changes u h).
  { intro N. rewrite changes_snoc. destruct l as [n|F1|u' x|u' v|u'|u' i|u' i]; rewrite ?app_nil_r; auto. destruct (str_eqb u' u) eqn:Eu; rewrite ?app_nil_r; auto.
    apply str_eqb_eq in Eu. subst. exfalso. eapply N; eauto. }
  destruct (about u l) eqn:A.
  2: { rewrite (doc_other _ _ _ _ _ E A), Same; [exists vs; auto|]. intros v ->. cbn in A. rewrite str_eqb_refl in A. discriminate. }
  pose proof (doc_self _ _ _ _ _ E A) as D. cbv zeta in D.
  assert (Ka : forall j o, kind S u o (Thread j [] j) -> Forall2 (kind S u) (vs ++ [o]) (d_threads (q_docs q u) ++ [Thread j [] j])).
  { intros j o K. apply Forall2_app; auto. }
  destruct l as [n|F1|u' x|u' v|u'|u' i|u' i]; cbn [about] in A; try (apply str_eqb_eq in A; subst u').
  - rewrite D, Same by discriminate. exists vs. auto.
  - rewrite D, Same by discriminate. exists vs. auto.
  - rewrite D, Same by discriminate. exists vs. auto.
  - rewrite changes_snoc, str_eqb_refl. destruct (N.eqb_spec (z_interval S) 0) as [Z|Z].
    + rewrite D. cbn. exists (vs ++ [Some v]). split; [apply Ka; reflexivity|]. rewrite somes_snoc. split; [apply subseq_app; auto; apply subseq_refl|].
      rewrite (no_timers _ _ _ _ u Z R). intros [|i] tm; discriminate.
    + exists vs. split; [rewrite D; exact K1|]. split; [rewrite <- (app_nil_r (somes vs)); apply subseq_app; auto; constructor|].
      intros i tm N W. pose proof (timers_reached _ _ u _ _ Z R') as [I1 _ _ I4 _]. pose proof (I4 _ _ N W) as L.
      assert (Vn : nth_error (changes u (h ++ [Change u v])) i = Some (tm_version tm)) by (rewrite <- I1; now apply map_nth_error).
      assert (Ln : List.length (changes u (h ++ [Change u v])) = Datatypes.S i) by (rewrite <- I1, map_length; auto).
      rewrite changes_snoc, str_eqb_refl in Vn, Ln. rewrite app_length in Ln. cbn in Ln.
      rewrite nth_error_app2 in Vn by lia. replace (i - List.length (changes u h)) with 0 in Vn by lia. cbn in Vn. injection Vn as <-. eauto.
  - rewrite D, Same by discriminate. cbn. exists (vs ++ [None]). split; [apply Ka; reflexivity|]. rewrite somes_snoc, app_nil_r. auto.
  - rewrite Same by discriminate. assert (Ex : exists v due, nth_error (d_timers (q_docs q u)) i = Some (Timer v due Waiting)).
    { cbn [step] in E. cbv zeta in E. destruct (nth_error (d_timers (q_docs q u)) i) as [[v due []]|]; try discriminate. eauto. }
    destruct Ex as (v & due & N). rewrite N in D. destruct (K3 _ _ N eq_refl) as (cs & C1 & C2). cbn in C1.
    exists (vs ++ [Some v]). split; [rewrite D; apply Ka; reflexivity|]. rewrite somes_snoc. split; [rewrite C1; apply subseq_app; auto; apply subseq_refl|].
    destruct (N.eq_dec (z_interval S) 0) as [Z|Z]; [rewrite (no_timers _ _ _ _ u Z R) in N; destruct i; discriminate|].
    pose proof (timers_reached _ _ u _ _ Z R) as [_ _ _ I4 _]. pose proof (I4 _ _ N eq_refl) as L.
    pose proof (timers_reached _ _ u _ _ Z R') as [_ _ _ I4' _].
    intros k tm Nk W. pose proof (I4' _ _ Nk W) as L'. rewrite D in Nk, L'. cbn in Nk, L'. rewrite length_update in L'. assert (k = i) by lia. subst k.
    rewrite nth_update, Nat.eqb_refl, N in Nk. cbn in Nk. injection Nk as <-. discriminate.
  - rewrite Same by discriminate. destruct (nth_error (d_threads (q_docs q u)) i) as [[j es now]|] eqn:N; [|rewrite D; exists vs; auto].
    destruct (act S q u now) as [[[e j'] q1]|] eqn:X; [|rewrite D; exists vs; auto].
    assert (Dt : d_threads (q_docs q' u) = update_nth i (fun _ => Thread j (es ++ [e]) j') (d_threads (q_docs q u))) by (rewrite D; destruct e; reflexivity).
    assert (Di : d_timers (q_docs q' u) = d_timers (q_docs q u)) by (rewrite D; destruct e; reflexivity).
    rewrite Dt, Di. exists vs. split; [|auto]. clear - K1 N. revert i N. induction K1 as [|o t vs l K1 K2 IH]; intros [|i] N; try discriminate.
    + injection N as ->. cbn. constructor; auto.
    + cbn in N. change (update_nth (Datatypes.S i) (fun _ => Thread j (es ++ [e]) j') (t :: l)) with
               (t :: update_nth i (fun _ => Thread j (es ++ [e]) j') l). constructor; auto.
Qed.

Lemma last_split : forall A (l : list A) i x, nth_error l i = Some x -> Datatypes.S i = List.length l -> l = firstn i l ++ [x].
Proof.
  induction l as [|y l IH]; intros [|i] x N L; try discriminate; cbn in *.
  - injection N as ->. destruct l; [reflexivity|discriminate].
  - f_equal. apply IH; auto.
Qed.

Lemma update_last : forall A (l : list A) i x f, nth_error l i = Some x -> Datatypes.S i = List.length l -> update_nth i f l = firstn i l ++ [f x].
Proof.
  induction l as [|y l IH]; intros [|i] x f N L; try discriminate; cbn in *.
  - injection N as ->. destruct l; [reflexivity|discriminate].
  - change (update_nth (Datatypes.S i) f (y :: l)) with (y :: update_nth i f l). f_equal. apply IH; auto.
Qed.

Lemma in_order : forall S F u p h q, z_path S u = Some p -> reaches S F h q -> no_overlap_of S F h u ->
  d_published (q_docs q u) = flat_map (fun t => pubs (h_done t)) (d_threads (q_docs q u)) /\
  forall i t, nth_error (d_threads (q_docs q u)) i = Some t -> ended (h_now t) = false -> Datatypes.S i = List.length (d_threads (q_docs q u)).
Proof.
  intros S F u p h q P R. revert h q R.
  apply (reaches_ind S F (fun h q => no_overlap_of S F h u ->
    d_published (q_docs q u) = flat_map (fun t => pubs (h_done t)) (d_threads (q_docs q u)) /\
    forall i t, nth_error (d_threads (q_docs q u)) i = Some t -> ended (h_now t) = false -> Datatypes.S i = List.length (d_threads (q_docs q u)))).
  { intros _. split; [reflexivity|]. intros [|i] t; discriminate. }
  intros h l q q' R IH E Ov. assert (R' : reaches S F (h ++ [l]) q') by (apply reaches_snoc; eauto).
  assert (Ov' : no_overlap_of S F h u). { intros h1 h2 q1 i j -> R1. apply (Ov h1 (h2 ++ [l]) q1 i j); auto. now rewrite app_assoc. }
  destruct (IH Ov') as [Pu La]. clear IH. destruct (about u l) eqn:A; [|rewrite (doc_other _ _ _ _ _ E A); auto].
  pose proof (doc_self _ _ _ _ _ E A) as D. cbv zeta in D.
  assert (Sp : forall j, ended j = false -> d_threads (q_docs q' u) = d_threads (q_docs q u) ++ [Thread j [] j] -> d_published (q_docs q' u) = d_published (q_docs q u) ->
    d_published (q_docs q' u) = flat_map (fun t => pubs (h_done t)) (d_threads (q_docs q' u)) /\
    forall i t, nth_error (d_threads (q_docs q' u)) i = Some t -> ended (h_now t) = false -> Datatypes.S i = List.length (d_threads (q_docs q' u))).
  { intros j Ej Dt Dp. split; [rewrite Dp, Dt, flat_map_app; cbn; now rewrite app_nil_r|]. intros i t N En.
    assert (i = List.length (d_threads (q_docs q u))).
    { apply (Ov (h ++ [l]) [] q' i (List.length (d_threads (q_docs q u)))); auto; [now rewrite app_nil_r|apply active_ended; exists t; auto|].
      apply active_ended. exists (Thread j [] j). split; auto. rewrite Dt, nth_error_app2, Nat.sub_diag by auto. reflexivity. }
    subst i. rewrite Dt, app_length. cbn. lia. }
  assert (Ev : forall v, ended (validate_job S u v) = false) by (intro v; unfold validate_job, with_results; now rewrite P).
  assert (Ef : ended (format_job S u) = false) by (unfold format_job, with_results; now rewrite P).
  destruct l as [n|F1|u' x|u' v|u'|u' i|u' i]; cbn [about] in A; try (apply str_eqb_eq in A; subst u'); try (rewrite D; auto; fail).
  - destruct (z_interval S =? 0)%N; [|rewrite D; auto]. apply (Sp _ (Ev v)); rewrite D; reflexivity.
  - apply (Sp _ Ef); rewrite D; reflexivity.
  - destruct (nth_error (d_timers (q_docs q u)) i) as [tm|] eqn:N; [|rewrite D; auto]. apply (Sp _ (Ev (tm_version tm))); rewrite D; reflexivity.
  - destruct (nth_error (d_threads (q_docs q u)) i) as [[j es now]|] eqn:N; [|rewrite D; auto].
    destruct (act S q u now) as [[[e j'] q1]|] eqn:X; [|rewrite D; auto].
    assert (Dt : d_threads (q_docs q' u) = update_nth i (fun _ => Thread j (es ++ [e]) j') (d_threads (q_docs q u))) by (rewrite D; destruct e; reflexivity).
    assert (Dp : d_published (q_docs q' u) = d_published (q_docs q u) ++ pubs [e]) by (rewrite D; destruct e; cbn; rewrite ?app_nil_r; reflexivity).
    assert (L : Datatypes.S i = List.length (d_threads (q_docs q u))). { apply (La _ _ N). cbn. destruct now; auto; discriminate. }
    split.
    + rewrite Dp, Dt, Pu, (update_last _ _ _ _ _ N L). rewrite (last_split _ _ _ _ N L) at 1. rewrite !flat_map_app, <- app_assoc. f_equal. cbn [flat_map h_done].
      now rewrite !app_nil_r, pubs_app.
    + intros k t Nk En. rewrite Dt, length_update. rewrite Dt, nth_update in Nk. destruct (Nat.eqb_spec k i) as [->|]; auto. apply (La _ _ Nk En).
Qed.

(** Unless validations of one document overlap, what is published is in the order of the changes. *)
Theorem C44_order : forall S F h q u, reaches S F h q -> no_overlap_of S F h u -> subseq (map fst (d_published (q_docs q u))) (changes u h).
Proof.
  intros S F h q u R Ov. destruct (z_path S u) as [p|] eqn:P.
  - destruct (in_order _ _ _ _ _ _ P R Ov) as [-> _]. destruct (kinds _ _ u _ _ R) as (vs & K1 & K2 & _). eapply subseq_trans; [|exact K2].
    destruct (thread_ok_reached _ _ _ _ R) as [_ T]. specialize (T u). clear - K1 T P. induction K1 as [|o t vs l K1 K2 IH]; [constructor|].
    cbn [flat_map somes]. rewrite map_app. apply subseq_app; [|apply IH; intros; apply T; simpl; auto].
    pose proof (to_did _ _ _ _ _ _ (T t (or_introl eq_refl))) as D. destruct o as [v|]; cbn in K1; rewrite K1 in D.
    + destruct (validate_did _ _ _ _ _ _ P D) as [[-> _]|[[-> _]|(text & content & cfg & evs & r & _ & _ & _ & _ & _ & _ & ->)]]; try constructor. constructor.
    + rewrite (format_did_pubs _ _ _ _ D). constructor.
  - assert (N : d_published (q_docs q u) = []); [|rewrite N; constructor].
    destruct (d_published (q_docs q u)) as [|[v ds] l] eqn:Q; auto. exfalso.
    destruct (C42_published _ _ _ _ u v ds R) as (p & text & content & cfg & F' & h1 & h2 & q1 & X & _); [rewrite Q; simpl; auto|congruence].
Qed.

(** So with increasing version numbers no diagnostics for an older version follow. *)
Theorem C44_not_stale_partial : forall S F h q u, reaches S F h q -> no_overlap_of S F h u ->
  StronglySorted Z.lt (changes u h) -> StronglySorted Z.lt (map fst (d_published (q_docs q u))).
Proof. intros S F h q u R Ov. apply subseq_sorted. eapply C44_order; eauto. Qed.

(** Without an interval they never overlap. *)
Theorem C44_immediate : forall S F h q u, z_interval S = 0%N -> reaches S F h q ->
  StronglySorted Z.lt (changes u h) -> StronglySorted Z.lt (map fst (d_published (q_docs q u))).
Proof.
  intros S F h q u Z R. eapply C44_not_stale_partial; eauto. intros h1 h2 q1 i j -> R1 A B. apply (main_only _ _ _ _ Z R1) in A, B. congruence.
Qed.
