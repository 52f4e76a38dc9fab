(** * C81: the language server with everything below it *)
From Coq Require Import String List NArith ZArith Bool Arith Lia Permutation.
From Verif Require Import Base PyStr Ftypes Paths Config Collect CollectSpec CollectFacts CollectSelect Suppress SuppressSpec
  Cst Engine EngineProps Batch BatchProps Api ApiSpec ApiFacts ApiProps ApiPaths Lsp LspSpec LspFacts LspProps LspPublish LspFormat LspServe LspExamples
  System SystemSpec SystemProps SystemSame SessionSpec SessionProps CommandsSpec EditorSpec.
From Verif Require CommandsProps.
Import ListNotations.

Opaque fixit_bytes.

Lemma workable_lint : forall Y F p content cfg, fair_sets (y_world Y F) ->
  (workable Y F cfg p content <-> snd (lint_of (tool_of Y) F p content cfg) = None).
Proof.
  intros Y F p content cfg Fa. rewrite lint_fails. unfold workable.
  destruct (collect_rules (y_world Y F) cfg (y_py Y)) as [r0 s0] eqn:C0. cbn [fst]. split.
  - intros ((r & ->) & Q). destruct r as [ks d]. destruct (selected_in _ _ _ _ _ _ Fa C0) as [_ Sel]. exists ks, d. split; auto.
    destruct Q as [Q|(md & M & Ep & Ew & Q)].
    + left. destruct ks as [|k ks]; auto. destruct (Q k). apply Sel. simpl. auto.
    + right. exists md, M. split; auto. split; auto. intros k I. now apply Q, Sel.
  - intros (ks & d & -> & Q). destruct (selected_in _ _ _ _ _ _ Fa C0) as [_ Sel]. split; [eauto|].
    destruct Q as [->|(md & M & Ep & Ew & Q)]; [left; intros k X; now apply Sel in X|].
    right. exists md, M. split; auto. split; auto. intros k X. now apply Q, Sel.
Qed.

Lemma verdict_lint : forall Y F p content cfg, fair_sets (y_world Y F) -> snd (lint_of (tool_of Y) F p content cfg) = None ->
  verdict Y F cfg p content (fst (lint_of (tool_of Y) F p content cfg)).
Proof.
  intros Y F p content cfg Fa N. destruct (lint_of (tool_of Y) F p content cfg) as [vs err] eqn:L. cbn [fst snd] in *. subst err.
  apply lint_exact in L. destruct L as (ks & d & s & Ec & L). destruct (selected_in _ _ _ _ _ _ Fa Ec) as [Nd Sel].
  destruct L as [[-> ->]|(md & M & parts & Ep & Ew & Hp & -> & Sf)].
  - left. split; auto. intros k X. now apply Sel in X.
  - right. exists md, M. split; auto. split; auto. exists ks, parts. auto.
Qed.

(** What [fixit_file] delivers for the file is what linting its content gives. *)
Lemma file_lint : forall T p autofix opts hook es F F1 F2 rest content cfg,
  run (fixit_file T p autofix opts hook) es (Returned tt) -> looks es = F :: F1 :: F2 :: rest ->
  f_file F p = Some content -> generate_config (t_env T) F1 p None opts = Ok cfg ->
  violations (results es) = fst (lint_of T F2 p content cfg).
Proof.
  intros T p autofix opts hook es F F1 F2 rest content cfg H L Ef Eg. unfold fixit_file in H. apply run_catch in H.
  assert (Main : forall es0 o0, run (Look (fun F => match f_file F p with
       | None => Raise OSError
       | Some content => Look (fun F => lift (generate_config (t_env T) F p None opts) (fun cfg =>
               pbind (fixit_bytes T p content cfg autofix hook) (fun updated =>
                 match updated with
                 | Some ((_ :: _) as c) => if negb (str_eqb c content) then Write p c (fun o => lift o (fun _ => Ret tt)) else Ret tt
                 | _ => Ret tt
                 end))) end)) es0 o0 -> o0 <> Stopped -> (exists l, looks es0 = F :: F1 :: F2 :: l) -> violations (results es0) = fst (lint_of T F2 p content cfg)).
  { clear H L. intros es0 o0 H No (l & L). inversion H as [| | | |? F' es' ? H'| | | |]; subst; [congruence|]. cbn [looks flat_map app] in L. injection L as -> L.
    rewrite Ef in H'. inversion H' as [| | | |? F1' es1 ? H1| | | |]; subst; [congruence|]. injection L as -> L. apply run_lift in H1. rewrite Eg in H1.
    change (results (ELook F :: ELook F1 :: es1)) with (results es1).
    assert (B : exists es2 es3 r, es1 = es2 ++ es3 /\ run (fixit_bytes T p content cfg autofix hook) es2 (Returned r) /\ results es3 = []).
    { apply run_pbind in H1. destruct H1 as [[X _]|[(e & _ & X)|(es2 & es3 & r & -> & H2 & H3)]]; [congruence| |].
      - apply bytes_run in X. destruct X as [_ [[_ X]|(F' & es' & _ & X)]]; [discriminate|]. destruct (lint_of T F' p content cfg). contradiction.
      - exists es2, es3, r. split; auto. split; auto. destruct r as [[|x c]|]; [inversion H3; auto| |inversion H3; auto].
        destruct (negb (str_eqb (x :: c) content)); [|inversion H3; auto]. inversion H3 as [| | | | |? ? ? w es4 ? H4| | |]; subst; auto.
        apply run_lift in H4. destruct w as [[]|e]; [inversion H4; auto|]. destruct H4 as [-> _]. reflexivity. }
    destruct B as (es2 & es3 & r & -> & H2 & H3). rewrite results_app, H3, app_nil_r. apply bytes_run in H2. destruct H2 as [_ [[_ X]|(F' & es' & -> & B)]]; [discriminate|].
    fold (looks ((ELook F' :: es') ++ es3)) in L. cbn [looks flat_map app] in L. injection L as -> L.
    destruct (lint_of T F2 p content cfg) as [vs err]. cbv zeta in B. destruct B as (err' & -> & _). cbn [fst].
    unfold report_of, violations. rewrite flat_map_app. replace (flat_map _ (match err' with Some _ => _ | None => _ end)) with (@nil viol) by (destruct err', vs; reflexivity).
    rewrite app_nil_r. clear. induction vs as [|v vs IH]; [reflexivity|]. cbn [map flat_map x_violation app]. now f_equal. }
  destruct H as [[X _]|[([] & _ & H)|(es1 & es2 & e & -> & H1 & H2)]]; [discriminate| |].
  - eapply Main; eauto. discriminate.
  - inversion H2 as [| | |? ? a es3 ? H3| | | | |]; subst. inversion H3; subst. rewrite results_app. unfold violations. rewrite flat_map_app. cbn [results given map flat_map error_result x_violation fst app].
    rewrite app_nil_r. eapply Main; [exact H1|discriminate|]. unfold looks in L |- *. rewrite flat_map_app in L. cbn [flat_map app] in L. rewrite app_nil_r in L. eauto.
Qed.

(** ** C81 *)

(** Diagnostics published for a version of a document: each is something that a selected rule says about a text that the document had after
    this version was announced and that no comment silences; and if linting goes through, they are all of this. *)
Theorem C81_diagnostics : forall S Y F h q u v ds, (forall G, fair_sets (y_world Y G)) -> serves S Y -> reaches S F h q ->
  In (v, ds) (d_published (q_docs q u)) ->
  exists p text content F1 cfg F2 h1 h2 q1,
    z_path S u = Some p /\ h = h1 ++ h2 /\ reaches S F h1 q1 /\ In (Change u v) h1 /\ source S q1 u = Ok text /\ z_encode S text = Ok content /\
    was_fs S F h F1 /\ generate_config (y_env Y) F1 p None (Some (z_options S)) = Ok cfg /\ was_fs S F h F2 /\
    (forall g, In g ds -> exists md M k x vl, y_parse Y content = Ok md /\ y_wrap Y md = Ok M /\ selected Y F2 cfg k /\
       loud Y F2 md M k x /\ tells M (y_code Y F2 k) x vl /\ shows vl g) /\
    (workable Y F2 cfg p content -> exists vs, verdict Y F2 cfg p content vs /\ Forall2 shows vs ds).
Proof.
  intros S Y F h q u v ds Fa Sv R I.
  destruct (C42_published _ _ _ _ _ _ _ R I) as (p & text & content & cfg & F2 & h1 & h2 & q1 & P & -> & R1 & Ch & So & En & Ca & Wf & Sh).
  destruct (C41_from_files _ _ _ _ _ Ca) as (F1 & W1 & G). unfold serves in Sv. rewrite Sv in *. cbn [tool_of t_env] in G.
  exists p, text, content, F1, cfg, F2, h1, h2, q1. repeat (split; [solve [auto]|]). split.
  - intros g Ig. assert (exists vl, In vl (fst (lint_of (tool_of Y) F2 p content cfg)) /\ shows vl g) as (vl & Iv & Sg).
    { clear - Sh Ig. induction Sh as [|a b l l' X _ IH]; [contradiction|]. destruct Ig as [->|Ig]; [exists a; simpl; auto|].
      destruct (IH Ig) as (x & A & B). exists x. simpl. auto. }
    apply lint_sound in Iv. destruct Iv as (ks & d & s & md & M & k & x & Ec & Ik & Ep & Ew & Lo & Te & _).
    destruct (selected_in _ _ _ _ _ _ (Fa F2) Ec) as [_ Sel]. apply Sel in Ik. exists md, M, k, x, vl. auto 10.
  - intro Wo. apply workable_lint in Wo; auto. eexists. split; [apply verdict_lint; eauto|exact Sh].
Qed.

(** The editor shows what [fixit lint] and [fixit fix] say about a file with the same content, when the files they look at are the same. *)
Theorem C81_as_lint : forall S Y F h q u v ds, serves S Y -> reaches S F h q -> In (v, ds) (d_published (q_docs q u)) ->
  exists p text content F1 F2, z_path S u = Some p /\ was_text S F h u text /\ z_encode S text = Ok content /\ was_fs S F h F1 /\ was_fs S F h F2 /\
    forall autofix hook es F0 rest, run (fixit_file (tool_of Y) p autofix (Some (z_options S)) hook) es (Returned tt) ->
      looks es = F0 :: F1 :: F2 :: rest -> f_file F0 p = Some content -> Forall2 shows (violations (results es)) ds.
Proof.
  intros S Y F h q u v ds Sv R I.
  destruct (C42_published _ _ _ _ _ _ _ R I) as (p & text & content & cfg & F2 & h1 & h2 & q1 & P & -> & R1 & Ch & So & En & Ca & Wf & Sh).
  destruct (C41_from_files _ _ _ _ _ Ca) as (F1 & W1 & G). unfold serves in Sv. rewrite Sv in *.
  exists p, text, content, F1, F2. split; auto. split; [exists h1, h2, q1; auto|]. repeat (split; [solve [auto]|]).
  intros autofix hook es F0 rest Ru L Ef. now rewrite (file_lint _ _ _ _ _ _ _ _ _ _ _ _ Ru L Ef G).
Qed.

(** The edit that answers a formatting request: all that is reported has been applied, and the result formatted; and this is what
    [fixit fix --automatic] does to a file with the same content, when the files it looks at are the same. *)
Theorem C81_format : forall S Y F h q u t ed, (forall G, fair_sets (y_world Y G)) -> serves S Y -> reaches S F h q ->
  In t (d_threads (q_docs q u)) -> In (VReplied (Some ed)) (h_done t) ->
  exists p text content F1 cfg F2 F3 vs md md' c,
    z_path S u = Some p /\ was_text S F h u text /\ z_encode S text = Ok content /\
    was_fs S F h F1 /\ generate_config (y_env Y) F1 p None (Some (z_options S)) = Ok cfg /\ was_fs S F h F2 /\ was_fs S F h F3 /\
    verdict Y F2 cfg p content vs /\ vs <> [] /\
    y_parse Y content = Ok md /\ apply_replacements md vs = Ok (Some md') /\ formatted Y F3 cfg p md' c /\ z_decode S c = Ok (e_text ed) /\
    forall hook es F0 rest, run (fixit_file (tool_of Y) p true (Some (z_options S)) hook) es (Returned tt) -> no_errors es ->
      looks es = F0 :: F1 :: F2 :: rest -> (forall G, In G rest -> G = F3) -> f_file F0 p = Some content ->
      written es = if (str_eqb c content || str_eqb c [])%bool then [] else [(p, c)].
Proof.
  intros S Y F h q u t ed Fa Sv R I J.
  destruct (C43_reply _ _ _ _ _ _ _ R I J) as (p & text & content & cfg & F2 & F3 & c & text2 & h1 & h2 & q1 & P & -> & R1 & So & En & Ca & W2 & W3 & Nn & Ne & Fx & De & _).
  destruct (C41_from_files _ _ _ _ _ Ca) as (F1 & W1 & G). unfold serves in Sv. rewrite Sv in *. cbn [tool_of t_env] in G.
  pose proof (verdict_lint _ _ _ _ _ (Fa F2) Ne) as Ve. remember (fst (lint_of (tool_of Y) F2 p content cfg)) as vs eqn:Evs.
  pose proof Fx as Fx0. unfold fixed_content in Fx0. cbn [tool_of t_parse t_bytes t_style] in Fx0. apply bind_ok in Fx0. destruct Fx0 as (md & Ep & Fx0).
  apply bind_ok in Fx0. destruct Fx0 as (up & Eap & Fx0). destruct up as [md'|]; [|discriminate].
  exists p, text, content, F1, cfg, F2, F3, vs, md, md', c. split; auto. split; [exists h1, h2, q1; auto|]. repeat (split; [solve [auto]|]). split.
  { unfold formatted. destruct (c_formatter cfg) as [style|].
    - destruct (y_style Y style) as [fmt|] eqn:Es; [|discriminate]. apply bind_ok in Fx0. destruct Fx0 as (b & Eb & Fx0). eauto.
    - eauto. }
  split; auto. intros hook es F0 rest Ru Er L Hr Ef.
  destruct (C31_done _ _ _ _ _ _ Ru Er) as (F' & content' & F1' & cfg' & F2' & rest' & -> & Ef' & Eg' & D).
  cbn [looks flat_map app] in L. injection L as -> -> -> L. assert (content' = content) as -> by congruence. cbn [tool_of t_env] in Eg'.
  assert (cfg' = cfg) as -> by congruence.
  assert (Ac : accepted true (given (ELook F0 :: ELook F1 :: ELook F2 :: rest')) = vs).
  { rewrite CommandsProps.accepted_all, Evs. eapply file_lint; eauto. reflexivity. }
  rewrite Ac in D. destruct D as [[D _]|(_ & F3' & c' & I3 & Fx' & D)]; [congruence|].
  assert (F3' = F3) as ->. { apply Hr. rewrite <- L. apply in_flat_map. exists (ELook F3'). simpl. auto. }
  assert (c' = c) as -> by congruence. destruct D as [[[->| ->] ->]|(A & B & -> & _)].
  - now rewrite str_eqb_refl.
  - change (str_eqb [] []) with true. now rewrite orb_true_r.
  - apply str_eqb_neq in A, B. now rewrite A, B.
Qed.

(** The version of a validation, from the function itself. *)
Fixpoint drive (text : str) (cfg : config) (F : fs) (j : job) : option Z :=
  match j with
  | JEnd _ => None
  | JDoc k => drive text cfg F (k (Ok text))
  | JHas _ k => drive text cfg F (k true)
  | JLook k => drive text cfg F (k F)
  | JStore _ _ k => drive text cfg F k
  | JFetch _ k => drive text cfg F (k (Some cfg))
  | JPublish v _ _ => Some v
  | JReply _ _ => None
  end.

Lemma drive_drain : forall R text cfg F v (g : prog R) acc k, calm g -> (forall xs r, drive text cfg F (k xs r) = v) -> drive text cfg F (drain g acc k) = v.
Proof.
  intros R text cfg F v g. induction g as [r|e|x g IH|g IH|p c g IH|g IH|c g IH|m g IH]; intros acc k C H; cbn [calm drain drive] in *; auto; contradiction.
Qed.

Lemma drive_validate : forall S u p v text content (cfg : config) (F : fs), z_path S u = Some p -> z_encode S text = Ok content ->
  drive text cfg F (validate_job S u v) = Some v.
Proof.
  intros S u p v text content cfg F P En. unfold validate_job, with_results. rewrite P. cbn [drive jlift]. rewrite En. cbn [jlift load_config drive].
  apply drive_drain; [apply calm_bytes|reflexivity].
Qed.

Lemma drive_format : forall S u p text content (cfg : config) (F : fs), z_path S u = Some p -> z_encode S text = Ok content ->
  drive text cfg F (format_job S u) = None.
Proof.
  intros S u p text content cfg F P En. unfold format_job, with_results. rewrite P. cbn [drive jlift]. rewrite En. cbn [jlift load_config drive].
  apply drive_drain; [apply calm_bytes|]. intros _ [[|c l]|]; auto. cbn [drive jlift]. destruct (entire_range (splitlines text)); auto. cbn [jlift].
  destruct (z_decode S (c :: l)); auto.
Qed.

Lemma text_since : forall S u h q q', steps S q h = Some q' -> (forall t, ~ In (SetText u t) h) -> d_text (q_docs q' u) = d_text (q_docs q u).
Proof.
  intros S u h. induction h as [|l h IH]; intros q q' H N; cbn [steps] in H; [congruence|]. destruct (step S q l) as [q1|] eqn:E; [|discriminate].
  rewrite (IH _ _ H); [|intros t X; apply (N t); simpl; auto]. apply (text_step _ _ _ _ _ E). intros t ->. apply (N t). simpl. auto.
Qed.

Lemma fs_since : forall S h q q', steps S q h = Some q' -> (forall G, ~ In (Files G) h) -> q_fs q' = q_fs q.
Proof.
  intros S h. induction h as [|l h IH]; intros q q' H N; cbn [steps] in H; [congruence|]. destruct (step S q l) as [q1|] eqn:E; [|discriminate].
  rewrite (IH _ _ H); [|intros t X; apply (N t); simpl; auto]. rewrite (fs_step _ _ _ _ E). destruct l; auto. exfalso. apply (N F). simpl. auto.
Qed.

Lemma reaches_app : forall S F h1 h2 q, reaches S F (h1 ++ h2) q -> exists q1, reaches S F h1 q1 /\ steps S q1 h2 = Some q.
Proof. intros S F h1 h2 q H. unfold reaches in *. rewrite steps_app in H. destruct (steps S (init F) h1) as [q1|]; [eauto|discriminate]. Qed.

Lemma app_split : forall {A} (a b c d : list A), a ++ b = c ++ d -> (exists x, c = a ++ x /\ b = x ++ d) \/ (exists x, a = c ++ x /\ d = x ++ b).
Proof.
  intros A a. induction a as [|x a IH]; intros b c d H; [left; exists c; auto|]. destruct c as [|y c].
  - right. exists (x :: a). auto.
  - injection H as -> H. destruct (IH _ _ _ H) as [(z & -> & ->)|(z & -> & ->)]; [left|right]; exists z; auto.
Qed.

(** When the client falls silent with a document open: letting time pass and threads act publishes diagnostics for the last change, and
    whatever has been published for it is about the text that the document has now. Configurations that cannot be read are the only obstacle. *)
Theorem C81_eventually : forall S Y F h1 u v h2 q p text content,
  (forall G, fair_sets (y_world Y G)) -> serves S Y -> z_interval S <> 0%N -> z_path S u = Some p ->
  reaches S F (h1 ++ Change u v :: h2) q -> ~ In (Change u v) h1 -> (forall w, ~ In (Change u w) h2) -> (forall t, ~ In (SetText u t) h2) ->
  d_text (q_docs q u) = Some text -> z_encode S text = Ok content ->
  (forall G, was_fs S F (h1 ++ Change u v :: h2) G -> exists cfg, generate_config (y_env Y) G p None (Some (z_options S)) = Ok cfg) ->
  exists h' q' ds F1 cfg F2,
    let h := (h1 ++ Change u v :: h2) in
    reaches S F (h ++ h') q' /\ (forall l, In l h' -> l = Tick (z_interval S) \/ (exists i, l = Start u i) \/ exists i, l = Act u i) /\
    In (v, ds) (d_published (q_docs q' u)) /\
    was_fs S F h F1 /\ generate_config (y_env Y) F1 p None (Some (z_options S)) = Ok cfg /\ was_fs S F h F2 /\
    (workable Y F2 cfg p content -> exists vs, verdict Y F2 cfg p content vs /\ Forall2 shows vs ds).
Proof.
  intros S Y F h1 u v h2 q p text content Fa Sv Z P R N1 N2 Nt Tx En Cf. destruct (Cf _ (was_fs_now _ _ _ _ R)) as (cfg0 & _). cbv zeta. set (h := h1 ++ Change u v :: h2) in *.
  assert (Ch : changes u h = changes u h1 ++ [v]).
  { unfold h, changes. rewrite flat_map_app. f_equal. cbn [flat_map]. rewrite str_eqb_refl. cbn [app]. f_equal.
    clear - N2. induction h2 as [|l h IH]; [reflexivity|]. cbn [flat_map]. rewrite IH by (intros w I; apply (N2 w); simpl; auto).
    destruct l as [| | |u' w| | |]; auto. destruct (str_eqb u' u) eqn:E; auto. apply str_eqb_eq in E. subst. exfalso. apply (N2 w). simpl. auto. }
  destruct (C77_eventually _ _ _ _ _ _ _ _ Z R P Ch) as (h' & q' & t & R' & Hl & It & J & E).
  assert (Hl' : forall l, In l h' -> l = Tick (z_interval S) \/ (exists i, l = Start u i) \/ exists i, l = Act u i).
  { intros l I. destruct (Hl l I) as [X|[X|X]]; eauto. }
  (* the texts and files since the change *)
  assert (Since : forall ha hb qa, h ++ h' = ha ++ hb -> reaches S F ha qa -> In (Change u v) ha -> source S qa u = Ok text).
  { intros ha hb qa Ea Ra Ia. assert (exists x, ha = h1 ++ Change u v :: x /\ h2 ++ h' = x ++ hb) as (x & -> & Ex).
    { unfold h in Ea. rewrite <- app_assoc in Ea. cbn [app] in Ea. apply app_split in Ea. destruct Ea as [(x & -> & Ex)|(x & -> & _)].
      - destruct x as [|l x]; [exfalso; apply N1; now rewrite app_nil_r in Ia|]. cbn [app] in Ex. injection Ex as <- Ex. exists x. auto.
      - exfalso. apply N1. apply in_or_app. auto. }
    assert (Nx : forall t, ~ In (SetText u t) (h2 ++ h')).
    { intros t0 I. apply in_app_iff in I. destruct I as [I|I]; [now apply (Nt t0)|]. destruct (Hl' _ I) as [X|[[i X]|[i X]]]; discriminate. }
    change (h1 ++ Change u v :: x) with (h1 ++ [Change u v] ++ x) in Ra. rewrite app_assoc in Ra. apply reaches_app in Ra. destruct Ra as (q0 & R0 & Sx).
    assert (d_text (q_docs qa u) = d_text (q_docs q0 u)) as Ta.
    { apply (text_since _ _ _ _ _ Sx). intros t0 I. apply (Nx t0). rewrite Ex. apply in_or_app. auto. }
    unfold h in R. change (h1 ++ Change u v :: h2) with (h1 ++ [Change u v] ++ h2) in R. rewrite app_assoc in R. apply reaches_app in R. destruct R as (q0' & R0' & S2).
    assert (q0' = q0) as -> by (unfold reaches in *; congruence).
    assert (d_text (q_docs q u) = d_text (q_docs q0 u)) as Tq by (apply (text_since _ _ _ _ _ S2); exact Nt).
    apply (C77_text S qa u). congruence. }
  assert (Fs : forall G, was_fs S F (h ++ h') G -> was_fs S F h G).
  { intros G (ha & hb & qa & Ea & Ra & Eg). apply app_split in Ea. destruct Ea as [(x & -> & Ex)|(x & Ex & _)].
    - apply reaches_app in Ra. destruct Ra as (q0 & R0 & Sx). exists h, [], q0. rewrite app_nil_r. split; auto. split; auto. rewrite <- Eg. symmetry.
      apply (fs_since _ _ _ _ Sx). intros G' I. destruct (Hl' (Files G')) as [X|[[i X]|[i X]]]; try discriminate. rewrite Ex. apply in_or_app. auto.
    - exists ha, x, qa. auto. }
  assert (Pub : exists ds, In (v, ds) (d_published (q_docs q' u))).
  { assert (Ov : over (h_now t)) by (destruct E as [[-> _]|(e & ->)]; eexists; reflexivity).
    destruct (C42_complete _ _ _ _ _ _ _ _ R' P It J Ov) as [[_ X]|(e & En' & _ & [_|(G & Wg & X)])]; auto.
    - (* reading the document *)
      exfalso. destruct (thread_ok_reached _ _ _ _ R') as [_ T]. specialize (T _ _ It). pose proof (to_did _ _ _ _ _ _ T) as D. rewrite J in D.
      destruct (to_kind _ _ _ _ _ _ T) as [K|(v' & K & _ & Dr)].
      { pose proof (drive_validate S u p v text content cfg0 (q_fs q) P En) as A. rewrite <- J, K, (drive_format S u p text content cfg0 (q_fs q) P En) in A. discriminate. }
      assert (v' = v) as ->.
      { pose proof (drive_validate S u p v text content cfg0 (q_fs q) P En) as A. rewrite <- J, K, (drive_validate S u p v' text content cfg0 (q_fs q) P En) in A. congruence. }
      destruct (validate_did _ _ _ _ _ _ P D) as [[_ X]|[(Pu & e' & Ee & C)|(text' & content' & cfg & evs & r & X & _)]]; [rewrite En' in X; discriminate| |congruence].
      assert (e' = e) as -> by congruence. destruct C as [C|[(x & C & Ec)|[(G & C & X)|C]]].
      + destruct (Dr _ C) as (ha & hb & qa & A & B & C' & D'). rewrite (Since _ _ _ A B C') in D'. discriminate.
      + destruct (Dr _ C) as (ha & hb & qa & A & B & C' & D'). rewrite (Since _ _ _ A B C') in D'. injection D' as <-. congruence.
      + unfold serves in Sv. rewrite Sv in X. cbn [tool_of t_env] in X. destruct (Cf G) as (cfg & Y1); [|congruence]. apply Fs. eapply to_looked; eauto.
      + destruct (to_fetched _ _ _ _ _ _ T _ _ C) as (c' & X & _). discriminate.
    - exfalso. unfold serves in Sv. rewrite Sv in X. cbn [tool_of t_env] in X. destruct (Cf G (Fs _ Wg)) as (cfg & Y1). congruence. }
  destruct Pub as (ds & I).
  destruct (C42_published _ _ _ _ _ _ _ R' I) as (p' & text' & content' & cfg & F2 & ha & hb & qa & P' & Ea & Ra & Ia & So & En' & Ca & Wf & Sh).
  assert (p' = p) as -> by congruence. rewrite (Since _ _ _ Ea Ra Ia) in So. injection So as <-. assert (content' = content) as -> by congruence.
  destruct (C41_from_files _ _ _ _ _ Ca) as (F1 & W1 & G). unfold serves in Sv. rewrite Sv in *. cbn [tool_of t_env] in G.
  exists h', q', ds, F1, cfg, F2. split; auto. split; auto. split; auto. split; auto. split; auto. split; auto.
  intro Wo. apply workable_lint in Wo; auto. eexists. split; [apply verdict_lint; eauto|exact Sh].
Qed.

(** ** A concrete case: the file of C78 in an editor; the second import is reported and removed by formatting *)
Definition opts0 : options := Options None None [] None [].
Definition server0 : server := Server (tool_of system0) (fun _ => Some ex_file) Ok Ok opts0 0.
Definition uri0 : uri := u "file:///d/x.py".
Definition typing0 : list label :=
  [SetText uri0 (Some text0); Change uri0 1] ++ repeat (Act uri0 0) 7 ++ [Format uri0] ++ repeat (Act uri0 1) 7.

Example C81_example : exists q t ed,
  serves server0 system0 /\ (forall G, fair_sets (y_world system0 G)) /\ reaches server0 fs0 typing0 q /\
  d_published (q_docs q uri0) = [(1%Z, [Diagnostic (Range (Pos (line (rstart ex_range) - 1) (column (rstart ex_range)))
                                                         (Pos (line (rend ex_range) - 1) (column (rend ex_range)))) (u "no imports") (u "A")])] /\
  In t (d_threads (q_docs q uri0)) /\ In (VReplied (Some ed)) (h_done t) /\ e_text ed = u "import a  # lint-ignore: A" ++ nl /\
  (forall cfg, generate_config (y_env system0) fs0 ex_file None (Some opts0) = Ok cfg -> workable system0 fs0 cfg ex_file text0).
Proof.
  assert (K : sees (fun q => (d_published (q_docs q uri0),
      flat_map (fun t => flat_map (fun e => match e with VReplied (Some ed) => [e_text ed] | _ => [] end) (h_done t)) (d_threads (q_docs q uri0)))) server0 fs0 typing0 =
    Some ([(1%Z, [diagnostic_of told0])], [u "import a  # lint-ignore: A" ++ nl])) by (vm_compute; reflexivity).
  apply sees_some in K. destruct K as (q & R & K). injection K as K1 K2.
  match type of K2 with ?l = [?x] => assert (I : In x l) by (rewrite K2; simpl; auto) end. clear K2.
  apply in_flat_map in I. destruct I as (t & It & I). apply in_flat_map in I. destruct I as (e & Ie & I).
  destruct e as [| | | | | |[ed|]]; try contradiction. destruct I as [I|[]].
  exists q, t, ed. split; [reflexivity|]. split; [intros G l; apply Permutation_refl|]. split; auto. split; auto. split; auto. split; auto. split; auto.
  intros cfg G. split; [eexists; vm_compute in G; injection G as <-; vm_compute; reflexivity|].
  right. exists module0, meta0. split; [reflexivity|]. split; [reflexivity|]. intros k _. unfold completes, system0, y_code. destruct (N.eqb (fst k) 1); eexists; vm_compute; reflexivity.
Qed.

(** The hypotheses of C81_eventually are met after typing, and after some of the interval has passed. *)
Definition server1 : server := Server (tool_of system0) (fun _ => Some ex_file) Ok Ok opts0 5.
Example C81_eventually_example : exists q,
  reaches server1 fs0 ([SetText uri0 (Some text0)] ++ Change uri0 1 :: [Tick 3]) q /\ d_text (q_docs q uri0) = Some text0 /\
  (forall G, was_fs server1 fs0 ([SetText uri0 (Some text0)] ++ Change uri0 1 :: [Tick 3]) G ->
     exists cfg, generate_config (y_env system0) G ex_file None (Some (z_options server1)) = Ok cfg).
Proof.
  eexists. split; [reflexivity|]. split; [reflexivity|]. intros G (ha & hb & qa & Ea & Ra & Eg).
  assert (q_fs qa = fs0) as E.
  { apply (fs_since server1 ha (init fs0)); [exact Ra|]. intros G' I. assert (J : In (Files G') (ha ++ hb)) by (apply in_or_app; auto).
    rewrite <- Ea in J. simpl in J. decompose [or] J; try discriminate; contradiction. }
  rewrite <- Eg, E. eexists. vm_compute. reflexivity.
Qed.
