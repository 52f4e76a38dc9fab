(** * C80: the commands with everything below them *)
From Coq Require Import String List NArith ZArith Bool Arith Lia Permutation.
From Verif Require Import Base PyStr Ftypes Paths Config Collect CollectSpec CollectFacts CollectSelect CollectProps CollectTotal Suppress SuppressSpec
  SuppressProps Cst Engine EngineProps Batch BatchProps Api ApiSpec ApiFacts ApiProps ApiPaths System SystemSpec SystemProps SystemSame Session SessionSpec
  SessionFacts SessionProps Cli CliSpec CliFacts CliProps Commands CommandsSpec.
Import ListNotations.

(** ** Executions of sessions *)

Lemma session_visits : forall Y autofix opts hook ps z es z', run (in_session Y ps autofix opts hook z) es (Returned z') ->
  exists l, visits Y autofix opts hook z ps l /\ es = concat (map snd l).
Proof.
  intros Y autofix opts hook. induction ps as [|p ps IH]; intros z es z' H; cbn [in_session] in H.
  - inversion H; subst. exists []. split; [constructor|reflexivity].
  - apply run_pbind in H. destruct H as [[X _]|[(e & X & _)|(es1 & es2 & [[] seen] & -> & H1 & H2)]]; try discriminate.
    apply track_run in H1. destruct H1 as [H1 ->]. cbn [app snd] in H2. destruct (IH _ _ _ H2) as (l & A & ->).
    exists ((z, es1) :: l). split; [now constructor|reflexivity].
Qed.

Lemma session_parts : forall Y autofix opts hook ps z es o, run (in_session Y ps autofix opts hook z) es o ->
  exists l, es = concat (map snd l) /\
    Forall (fun v : path * session * list ev => In (fst (fst v)) ps /\
      exists o', run (fixit_file (tool_of (system_at Y (snd (fst v)))) (fst (fst v)) autofix opts hook) (snd v) o') l.
Proof.
  intros Y autofix opts hook. induction ps as [|p ps IH]; intros z es o H; cbn [in_session] in H.
  - exists []. split; [inversion H; reflexivity|constructor].
  - apply run_pbind in H. destruct H as [[-> H]|[(e & -> & H)|(es1 & es2 & [[] seen] & -> & H1 & H2)]].
    + apply track_run in H. exists [(p, z, es)]. split; [cbn; now rewrite app_nil_r|]. constructor; [simpl; eauto|constructor].
    + apply track_run in H. exists [(p, z, es)]. split; [cbn; now rewrite app_nil_r|]. constructor; [simpl; eauto|constructor].
    + apply track_run in H1. destruct H1 as [H1 ->]. destruct (IH _ _ _ H2) as (l & -> & A). exists ((p, z, es1) :: l). split; [reflexivity|].
      constructor; [simpl; eauto|]. eapply Forall_impl; [|exact A]. intros v (I & B). simpl. auto.
Qed.

Lemma unanswered_app : forall a b, unanswered (a ++ b) -> unanswered a /\ unanswered b.
Proof. intros a b H. now apply Forall_app in H. Qed.

Lemma unanswered_accepted : forall es, unanswered es -> accepted false (given es) = [].
Proof.
  intros es H. pose proof (unanswered_given es H) as G. unfold accepted. induction (given es) as [|[x a] l IH]; [reflexivity|].
  cbn [flat_map fst snd]. rewrite (G x a) by (simpl; auto). rewrite IH by (intros y b I; apply (G y b); simpl; auto). now destruct (x_violation x).
Qed.

Lemma unanswered_calls : forall es, unanswered es -> forall m e, ~ In (ECall m (Err e)) es.
Proof. intros es H m e I. unfold unanswered in H. rewrite Forall_forall in H. specialize (H _ I). discriminate. Qed.

Lemma heard_none : forall U M C xs, heard U M C xs [] -> forall x, In x xs -> silenced U M C x.
Proof.
  intros U M C xs H. remember [] as vs. induction H as [|x xs vs S _ IH|x v xs vs _ _ _ _]; [intros x []| |discriminate].
  intros y [<-|I]; auto.
Qed.

Lemma in_violations : forall xs v, In v (violations xs) <-> exists x, In x xs /\ x_violation x = Some v.
Proof.
  intros xs v. unfold violations. rewrite in_flat_map. split.
  - intros (x & I & H). exists x. destruct (x_violation x); simpl in H; intuition congruence.
  - intros (x & I & H). exists x. rewrite H. simpl. auto.
Qed.

(** A file that is linted: results are clean iff there is nothing to complain about. *)
Lemma fine_iff : forall Y p opts hook es, (forall F, fair_sets (y_world Y F)) ->
  run (fixit_file (tool_of Y) p false opts hook) es (Returned tt) -> unanswered es ->
  (fine Y p opts es <-> forall x, In x (results es) -> x_violation x = None /\ x_error x = None).
Proof.
  intros Y p opts hook es Fa R Un. pose proof (unanswered_accepted _ Un) as Ac.
  assert (Hk : hook = true -> forall m e, ~ In (ECall m (Err e)) es) by (intro; now apply unanswered_calls). split.
  - intros (F & F1 & F2 & rest & content & cfg & [ks d] & L & Ef & Eg & Ec & Q).
    destruct (file_fails _ _ _ _ _ _ _ _ _ R Hk Ac L) as (content' & cfg' & Ef' & Eg' & N).
    assert (content' = content) as -> by congruence. cbn [tool_of t_env] in Eg'. assert (cfg' = cfg) as -> by congruence. clear Ef' Eg'.
    destruct (collect_rules (y_world Y F2) cfg (y_py Y)) as [r0 s0] eqn:C0. cbn [fst] in Ec. subst r0.
    destruct (selected_in _ _ _ _ _ _ (Fa F2) C0) as [_ Sel].
    assert (Ne : no_errors es).
    { apply N, lint_fails. rewrite C0. exists ks, d. split; auto. destruct Q as [Q|(md & M & Ep & Ew & Q)].
      - left. destruct ks as [|k ks]; auto. destruct (Q k). apply Sel. simpl. auto.
      - right. exists md, M. split; auto. split; auto. intros k I. destruct (Q k) as [X _]; [now apply Sel|exact X]. }
    intros x I. split; [|now apply Ne]. destruct (x_violation x) as [v|] eqn:Ev; auto. exfalso.
    destruct (C78_sound Y p false opts hook es _ v Fa R) as (F' & c' & F1' & cfg' & F2' & es' & md' & M' & k & sy & -> & Ef' & Eg' & S & Ep' & Ew' & Lo & _).
    { apply in_violations. eauto. }
    cbn [looks flat_map app] in L. injection L as -> -> -> L. assert (c' = content) as -> by congruence. assert (cfg' = cfg) as -> by congruence.
    destruct Q as [Q|(md & M & Ep & Ew & Q)]; [now apply (Q k)|]. assert (md' = md) as -> by congruence. assert (M' = M) as -> by congruence.
    destruct (Q k S) as [_ Qk]. now apply (Qk sy).
  - intro Cl. assert (Ne : no_errors es) by (intros x I; now apply Cl).
    destruct (C78_exactly _ _ _ _ _ _ Fa R Ne) as (F & content & F1 & cfg & F2 & es' & ks & -> & Ef & Eg & Nd & Sel & X).
    destruct (file_fails _ _ _ _ _ F F1 F2 (looks es') R Hk Ac) as (content' & cfg' & Ef' & Eg' & N); [reflexivity|].
    assert (content' = content) as -> by congruence. cbn [tool_of t_env] in Eg'. assert (cfg' = cfg) as -> by congruence. clear Ef' Eg'.
    apply N, lint_fails in Ne. destruct Ne as (ks' & d & Ec & Ok_).
    destruct (collect_rules (y_world Y F2) cfg (y_py Y)) as [r0 s0] eqn:C0. cbn [fst] in Ec. subst r0.
    destruct (selected_in _ _ _ _ _ _ (Fa F2) C0) as [_ Sel'].
    exists F, F1, F2, (looks es'), content, cfg, (ks', d). rewrite C0. repeat split; auto.
    destruct X as [[-> _]|(md & M & parts & Ep & Ew & Hp & Vi & _)]; [left; intros k S; now apply Sel in S|].
    right. exists md, M. split; auto. split; auto. intros k S. split.
    + destruct Ok_ as [->|(md' & M' & Ep' & Ew' & Ok_)]; [apply Sel' in S; contradiction|].
      assert (md' = md) as -> by congruence. assert (M' = M) as -> by congruence. apply Ok_. now apply Sel'.
    + assert (parts_nil : forall vs, In vs parts -> vs = []).
      { intros vs I. destruct vs as [|v vs]; auto. exfalso. assert (Iv : In v (concat parts)) by (apply in_concat; exists (v :: vs); simpl; auto).
        rewrite <- Vi in Iv. apply in_violations in Iv. destruct Iv as (x & Ix & Ex). destruct (Cl x Ix). congruence. }
      intros x [Ix Nx]. apply Nx. apply Sel in S.
      assert (exists vs, In vs parts /\ heard (y_unicode Y) M (y_code Y F2 k) (says (y_code Y F2 k) md (calls (d_tree M)) (k_first (y_code Y F2 k))) vs) as (vs & Iv & Hh).
      { clear - Hp S. induction Hp as [|k0 vs ks parts H _ IH]; [contradiction|]. destruct S as [->|S]; [exists vs; simpl; auto|].
        destruct (IH S) as (vs' & I & H'). exists vs'. simpl. auto. }
      rewrite (parts_nil _ Iv) in Hh. eapply heard_none; eauto.
Qed.

Lemma fair_at : forall Y, (forall F, fair_sets (y_world Y F)) -> forall z F, fair_sets (y_world (system_at Y z) F).
Proof. intros Y H z F. exact (H F). Qed.

Lemma visits_iff : forall Y opts hook, (forall F, fair_sets (y_world Y F)) -> forall z ps l, visits Y false opts hook z ps l -> unanswered (concat (map snd l)) ->
  (Forall2 (fun p (v : session * list ev) => fine (system_at Y (fst v)) p opts (snd v)) ps l <->
   forall x, In x (results (concat (map snd l))) -> x_violation x = None /\ x_error x = None).
Proof.
  intros Y opts hook Fa z ps l H. induction H as [z|z p es ps l R _ IH]; intro Un; [split; [intros _ x []|constructor]|].
  cbn [map snd concat] in *. apply unanswered_app in Un. destruct Un as [U1 U2]. specialize (IH U2).
  pose proof (fine_iff _ p opts hook es (fair_at Y Fa z) R U1) as Fi. split.
  - intro F2. inversion F2 as [|? ? ? ? A B]; subst. cbn [fst snd] in A. intros x I. rewrite results_app in I. apply in_app_iff in I.
    destruct I as [I|I]; [now apply Fi|now apply IH].
  - intro Cl. constructor; [apply Fi|apply IH]; intros x I; apply Cl; rewrite results_app; apply in_or_app; auto.
Qed.

Lemma visits_result : forall Y opts hook, forall z ps l, visits Y false opts hook z ps l -> forall x, In x (results (concat (map snd l))) ->
  exists p zp es, In (p, (zp, es)) (combine ps l) /\ run (fixit_file (tool_of (system_at Y zp)) p false opts hook) es (Returned tt) /\ In x (results es).
Proof.
  intros Y opts hook z ps l H. induction H as [z|z p es ps l R _ IH]; intros x I; [contradiction|].
  cbn [map snd concat] in I. rewrite results_app in I. apply in_app_iff in I. destruct I as [I|I].
  - exists p, z, es. simpl. auto.
  - destruct (IH x I) as (p' & z' & es' & A & B). exists p', z', es'. simpl. auto.
Qed.

Lemma visits_part : forall Y autofix opts hook, forall z ps l, visits Y autofix opts hook z ps l -> forall p zp es, In (p, (zp, es)) (combine ps l) ->
  run (fixit_file (tool_of (system_at Y zp)) p autofix opts hook) es (Returned tt) /\
  (forall x, In x (results es) -> In x (results (concat (map snd l)))) /\ (unanswered (concat (map snd l)) -> unanswered es).
Proof.
  intros Y autofix opts hook z ps l H. induction H as [z|z p es ps l R _ IH]; intros q zq eq_ I; [contradiction|].
  cbn [combine] in I. cbn [map snd concat]. destruct I as [I|I].
  - injection I as <- <- <-. split; auto. split; [intros x Ix; rewrite results_app; apply in_or_app; auto|].
    intro U. now apply unanswered_app in U.
  - destruct (IH _ _ _ I) as (A & B & C). split; auto. split; [intros x Ix; rewrite results_app; apply in_or_app; auto|].
    intro U. apply unanswered_app in U. tauto.
Qed.

Lemma fine_not_complaint : forall Y p opts es, fine Y p opts es -> ~ complaint Y p opts es.
Proof.
  intros Y p opts es (F & F1 & F2 & rest & content & cfg & r & L & Ef & Eg & Ec & Q) (F' & F1' & F2' & rest' & content' & cfg' & md' & M' & k & x & L' & Ef' & Eg' & S & Ep' & Ew' & Lo).
  rewrite L in L'. injection L' as <- <- <- <-. assert (content' = content) as -> by congruence. assert (cfg' = cfg) as -> by congruence.
  destruct Q as [Q|(md & M & Ep & Ew & Q)]; [now apply (Q k)|]. assert (md' = md) as -> by congruence. assert (M' = M) as -> by congruence.
  destruct (Q k S) as [_ Qk]. now apply (Qk x).
Qed.

(** ** C80 *)

(** The exit status of [fixit lint]: 0 iff there is nothing to complain about in any of the files; bit 0 is set only if a rule complains
    about one of them, and it is set if a rule complains about a file for which no error is reported. *)
Theorem C80_exit : forall K Y d opts m diff paths z vs code,
  (forall F, fair_sets (y_world Y F)) ->
  crun (whole_lint K Y d opts m diff paths z) vs (Returned code) ->
  exists F0 F pl es,
    effects vs = ELook F0 :: ELook F :: api_effects es /\
    make_plan (y_walk Y F) d false (match paths with [] => [PathArg (k_cwd K)] | _ => paths end) = Ok (Some pl) /\
    match pl with
    | Input p => run (fixit_stdin (tool_of (system_at Y z)) p false (Some opts) m) es (Returned tt)
    | Parallel _ => False
    | Serial ps =>
        exists l, visits Y false (Some opts) m z ps l /\ es = concat (map snd l) /\
          (code = 0%N <-> Forall2 (fun p v => fine (system_at Y (fst v)) p (Some opts) (snd v)) ps l) /\
          (N.testbit code 0 = true -> exists p zp ep, In (p, (zp, ep)) (combine ps l) /\ complaint (system_at Y zp) p (Some opts) ep) /\
          (forall p zp ep, In (p, (zp, ep)) (combine ps l) -> no_errors ep -> complaint (system_at Y zp) p (Some opts) ep ->
             N.testbit code 0 = true)
    end.
Proof.
  intros K Y d opts m diff paths z vs code Fa H. unfold whole_lint, lint_with in H. inversion H as [| | | | |? F0 vs' ? H'| | |]; subst.
  destruct (generate_config _ _ _ _ _) as [cfg|e] eqn:G; [|inversion H'].
  change no_tally with (lint_state []) in H'. apply (lint_sim K diff cfg (whole_paths Y d (or_cwd K paths) false (Some opts) m z)) in H'. destruct H' as (es & oa & R & Ef & _ & Un & -> & -> & _).
  cbn [app]. destruct (lint_state_spec (results es)) as (_ & _ & _ & L & B0 & B1). set (code := l_exit (lint_state (results es))) in *. clearbody code.
  assert (Zero : code = 0%N <-> forall x, In x (results es) -> x_violation x = None /\ x_error x = None).
  { split.
    - intros -> x I. split.
      + destruct (x_violation x) eqn:E; auto. enough (N.testbit 0 0 = true) by discriminate. apply B0. exists x. split; auto. congruence.
      + destruct (x_error x) eqn:E; auto. enough (N.testbit 0 1 = true) by discriminate. apply B1. exists x. split; auto. congruence.
    - intro Cl. assert (T0 : N.testbit code 0 = false).
      { apply not_true_is_false. intro T. apply B0 in T. destruct T as (x & I & X). now apply X, Cl. }
      assert (T1 : N.testbit code 1 = false).
      { apply not_true_is_false. intro T. apply B1 in T. destruct T as (x & I & X). now apply X, Cl. }
      assert (code = 0 \/ code = 1 \/ code = 2 \/ code = 3)%N as [->|[->|[->| ->]]] by lia; auto; discriminate. }
  unfold whole_paths in R. inversion R as [| | | |? F es' ? R'| | | |]; subst. apply run_lift in R'.
  destruct (make_plan (y_walk Y F) d false (or_cwd K paths)) as [pl|e] eqn:P; [|destruct R' as [_ [X|X]]; discriminate].
  assert (exists pl', pl = Some pl') as (pl' & ->).
  { unfold make_plan in P. destruct (or_cwd K paths) eqn:E; [destruct paths; discriminate|]. apply bind_ok in P. destruct P as (s & _ & P).
    injection P as <-. eauto. }
  assert (forall l, pl' <> Parallel l) as NP.
  { intros l ->. unfold make_plan in P. destruct (or_cwd K paths); [discriminate|]. apply bind_ok in P. destruct P as (s & _ & P). injection P as P.
    destruct (a_stdin s); [discriminate|]. rewrite orb_true_r in P. discriminate. }
  exists F0, F, pl', es'. split; [cbn [effects flat_map app]; f_equal; exact Ef|]. split; [exact P|].
  inversion Un as [|? ? _ Un']; subst. change (results (ELook F :: es')) with (results es') in *.
  destruct pl' as [p|ps|ps]; [exact R'| |now apply (NP ps)].
  apply run_pbind in R'. destruct R' as [[X _]|[(e & X & _)|(es1 & es2 & z' & -> & R1 & R2)]]; try discriminate. inversion R2; subst. rewrite app_nil_r in *.
  apply session_visits in R1. destruct R1 as (l & Vi & ->). exists l. split; auto. split; auto.
  split; [rewrite Zero, (visits_iff Y (Some opts) m Fa _ _ _ Vi Un'); reflexivity|]. split.
  - intro T. apply B0 in T. destruct T as (x & I & X). destruct (visits_result _ _ _ _ _ _ Vi x I) as (p & zp & ep & Ip & Rp & Ix).
    exists p, zp, ep. split; auto. destruct (x_violation x) as [v|] eqn:Ev; [|congruence].
    destruct (C78_sound _ p false (Some opts) m ep _ v (fair_at Y Fa zp) Rp) as (F' & c' & F1' & cfg' & F2' & ep' & md' & M' & k & sy & -> & Ef' & Eg' & S & Ep' & Ew' & Lo & _).
    { apply in_violations. eauto. }
    exists F', F1', F2', (looks ep'), c', cfg', md', M', k, sy. repeat split; auto; apply Lo.
  - intros p zp ep Ip Ne Co. destruct (N.testbit code 0) eqn:T; auto. exfalso. destruct (visits_part _ _ _ _ _ _ _ Vi _ _ _ Ip) as (Rp & Inc & Uc).
    apply (fine_not_complaint _ _ _ _) with (2 := Co). apply (proj2 (fine_iff _ p (Some opts) m ep (fair_at Y Fa zp) Rp (Uc Un'))).
    intros x I. split; [|now apply Ne]. destruct (x_violation x) eqn:Ev; auto. enough (false = true) by discriminate. apply B0. exists x. split; auto. congruence.
Qed.

(** [fixit lint] writes no file and asks nothing. *)
Theorem C80_readonly : forall K Y d opts m diff paths z vs o,
  crun (whole_lint K Y d opts m diff paths z) vs o -> saved vs = [] /\ asked vs = [].
Proof.
  intros K Y d opts m diff paths z vs o H. unfold whole_lint, lint_with in H. inversion H as [| | | | |? F0 vs' ? H'| | |]; subst; [auto|].
  destruct (generate_config _ _ _ _ _) as [cfg|e] eqn:G; [|inversion H'; auto].
  change no_tally with (lint_state []) in H'. apply (lint_sim K diff cfg (whole_paths Y d (or_cwd K paths) false (Some opts) m z)) in H'.
  destruct H' as (es & oa & R & Ef & A & Un & _). split; [|exact A]. cbn [saved flat_map app]. fold (saved vs'). rewrite (effects_saved _ _ Ef).
  pose proof (unanswered_given _ Un) as Gi. clear - R Gi. unfold whole_paths in R.
  inversion R as [| | | |? F es' ? R'| | | |]; subst; [reflexivity|]. cbn [written given] in *. apply run_lift in R'.
  destruct (make_plan (y_walk Y F) d false (or_cwd K paths)) as [pl|e]; [|destruct R' as [-> _]; reflexivity].
  assert (S : forall ps, run (pbind (in_session Y ps false (Some opts) m z) (fun _ => Ret tt)) es' oa -> written es' = []).
  { intros ps S. assert (S' : exists o1, run (in_session Y ps false (Some opts) m z) es' o1).
    { apply run_pbind in S. destruct S as [[_ S]|[(e & _ & S)|(es1 & es2 & z' & -> & S & S2)]]; eauto.
      exists (Returned z'). inversion S2; subst; now rewrite app_nil_r. }
    destruct S' as (o1 & S'). apply session_parts in S'. destruct S' as (l & -> & Fo). clear - Fo Gi.
    induction Fo as [|[[p zp] ep] l (_ & o' & Rp) _ IH]; [reflexivity|]. cbn [map concat snd fst] in *. rewrite written_app, given_app in *.
    rewrite IH by (intros x a I; apply (Gi x); apply in_or_app; auto). rewrite app_nil_r. eapply C31_lint_only; [exact Rp|].
    intros x I. enough (Some true = None) by discriminate. apply (Gi x). apply in_or_app. auto. }
  destruct pl as [[p|ps|ps]|]; eauto.
  - apply C32_stdin in R'. tauto.
  - inversion R'; subst; reflexivity.
Qed.

(** [fixit fix], in any execution, interrupted or not: a file that is written is one of those named, and its new content is justified. *)
Theorem C80_writes : forall K Y d opts m interactive diff paths z vs o q c,
  (forall F, fair_sets (y_world Y F)) ->
  crun (whole_fix K Y d opts m interactive diff paths z) vs o -> In (q, c) (saved vs) ->
  exists F ps zq es autofix o', In (ELook F) (effects vs) /\
    make_plan (y_walk Y F) d false (match paths with [] => [PathArg (k_cwd K)] | _ => paths end) = Ok (Some (Serial ps)) /\ In q ps /\
    run (fixit_file (tool_of (system_at Y zq)) q autofix (Some opts) m) es o' /\ incl (api_effects es) (effects vs) /\
    justified (system_at Y zq) q (Some opts) es c.
Proof.
  intros K Y d opts m interactive diff paths z vs o q c Fa H I. unfold whole_fix in H. cbv zeta in H.
  inversion H as [| | | | |? F0 vs' ? H'| | |]; subst; [contradiction|].
  destruct (generate_config _ _ _ _ _) as [cfg|e] eqn:G; [|inversion H'; subst; contradiction].
  set (i := interactive && negb (first_is_dash (or_cwd K paths))) in *. change no_tally with (fix_state i []) in H'.
  apply (fix_sim K i diff _ cfg (whole_paths Y d (or_cwd K paths) (negb i) (Some opts) m z)) in H'. destruct H' as (es & oa & rest & R & Ef & _ & _ & _).
  assert (Iw : In (q, c) (written es)). { cbn [saved flat_map app] in I. fold (saved vs') in I. now rewrite (effects_saved _ _ Ef) in I. }
  unfold whole_paths in R. inversion R as [| | | |? F es' ? R'| | | |]; subst; [contradiction|]. cbn [written] in Iw. apply run_lift in R'.
  assert (IF : forall e, In e (api_effects (ELook F :: es')) -> In e (effects (VLook F0 :: vs'))).
  { intros e Ie. cbn [effects flat_map app]. right. fold (effects vs'). now rewrite Ef. }
  destruct (make_plan (y_walk Y F) d false (or_cwd K paths)) as [pl|e] eqn:P; [|destruct R' as [-> _]; contradiction].
  destruct pl as [[p|ps|ps]|].
  - apply C32_stdin in R'. destruct R' as (_ & W & _). rewrite W in Iw. contradiction.
  - assert (S : exists es1 o1, run (in_session Y ps (negb i) (Some opts) m z) es1 o1 /\ es' = es1).
    { apply run_pbind in R'. destruct R' as [[-> R1]|[(e & -> & R1)|(es1 & es2 & z' & -> & R1 & R2)]]; eauto.
      exists es1, (Returned z'). split; auto. inversion R2; subst; now rewrite app_nil_r. }
    destruct S as (es1 & o1 & S & ->). apply session_parts in S. destruct S as (l & -> & Fo). rewrite Forall_forall in Fo.
    assert (exists v, In v l /\ In (q, c) (written (snd v))) as ([[p zp] ep] & Il & Iv).
    { clear - Iw. induction l as [|v l IH]; [contradiction|]. cbn [map concat] in Iw. rewrite written_app in Iw. apply in_app_iff in Iw.
      destruct Iw as [X|X]; [exists v; simpl; auto|]. destruct (IH X) as (w & A & B). exists w. simpl. auto. }
    destruct (Fo _ Il) as (Ip & o' & Rp). cbn [fst snd] in Ip, Rp, Iv.
    destruct (C78_written _ p (negb i) (Some opts) m ep o' q c (fair_at Y Fa zp) Rp Iv) as (-> & F' & content & F1 & cfg' & F2 & F3 & ep' & md & M & vs0 & md' & b & E & A).
    exists F, ps, zp, ep, (negb i), o'. split; [apply IF; simpl; auto|]. split; [exact P|]. split; auto. split; auto. split.
    { intros e Ie. apply IF. cbn [api_effects filter]. right. apply filter_In in Ie. apply filter_In. destruct Ie as [Ie K0]. split; auto.
      apply in_concat. exists ep. split; auto. apply in_map_iff. exists (p, zp, ep). auto. }
    destruct A as (A1 & A2 & A3 & A4 & A5 & A6 & A7 & A8 & A9).
    exists F', F1, F2, F3, (looks ep'), content, cfg', md, M, vs0, md'. rewrite E. split; [reflexivity|]. repeat (split; [assumption|]). exists b. auto.
  - exfalso. unfold make_plan in P. destruct (or_cwd K paths); [discriminate|]. apply bind_ok in P. destruct P as (s & _ & P). injection P as P.
    destruct (a_stdin s); [discriminate|]. rewrite orb_true_r in P. discriminate.
  - inversion R'; subst; contradiction.
Qed.

Lemma accepted_all : forall es, accepted true (given es) = violations (results es).
Proof.
  intro es. unfold accepted, violations, results. induction (given es) as [|[x a] l IH]; [reflexivity|]. cbn [flat_map map fst snd]. rewrite IH.
  destruct (x_violation x); [|reflexivity]. now destruct a as [[|]|].
Qed.

Lemma file_fixed : forall Y p opts hook es, (forall F, fair_sets (y_world Y F)) ->
  run (fixit_file (tool_of Y) p true opts hook) es (Returned tt) -> no_errors es -> fixed Y p opts es.
Proof.
  intros Y p opts hook es Fa R Ne.
  destruct (C78_exactly _ _ _ _ _ _ Fa R Ne) as (F & content & F1 & cfg & F2 & es' & ks & E & Ef & Eg & Nd & Sel & X).
  destruct (C31_done _ _ _ _ _ _ R Ne) as (F' & content' & F1' & cfg' & F2' & rest & E' & Ef' & Eg' & D). rewrite E in E'. injection E' as <- <- <- <-.
  assert (content' = content) as -> by congruence. cbn [tool_of t_env] in Eg'. assert (cfg' = cfg) as -> by congruence. clear Ef' Eg'.
  rewrite accepted_all in D. exists F, F1, F2, (looks es'), content, cfg. split; [rewrite E; reflexivity|]. split; auto. split; auto.
  destruct X as [[-> V]|(md & M & parts & Ep & Ew & Hp & V & Sf)].
  - left. split; [intros k S; now apply Sel in S|]. rewrite V in D. destruct D as [[_ D]|[D _]]; [auto|congruence].
  - right. exists md, M, (violations (results es)). split; auto. split; auto. split.
    { exists ks, parts. rewrite V. auto. }
    destruct D as [D|(Nn & F3 & c & _ & Fx & D)]; auto. right. split; auto. unfold fixed_content in Fx. cbn [tool_of t_parse t_bytes t_style] in Fx.
    apply bind_ok in Fx. destruct Fx as (md0 & Ep0 & Fx). assert (md0 = md) as -> by congruence.
    apply bind_ok in Fx. destruct Fx as (up & Eap & Fx). destruct up as [md'|]; [|discriminate].
    exists F3, md', c. split; auto. split; auto. unfold formatted. destruct (c_formatter cfg) as [style|].
    + destruct (y_style Y style) as [fmt|] eqn:Es; [|discriminate]. apply bind_ok in Fx. destruct Fx as (b & Eb & Fx). eauto.
    + eauto.
Qed.

(** [fixit fix --automatic] of files, run to its end: every file for which no error is reported has been fixed, and nothing else is written
    but what was written for a file. *)
Theorem C80_fixed : forall K Y d opts m diff paths z vs code,
  (forall F, fair_sets (y_world Y F)) -> first_is_dash paths = false ->
  crun (whole_fix K Y d opts m false diff paths z) vs (Returned code) ->
  code = 0%N /\ exists F0 F ps l,
    make_plan (y_walk Y F) d false (match paths with [] => [PathArg (k_cwd K)] | _ => paths end) = Ok (Some (Serial ps)) /\
    visits Y true (Some opts) m z ps l /\ effects vs = ELook F0 :: ELook F :: api_effects (concat (map snd l)) /\
    saved vs = flat_map (fun v => written (snd v)) l /\
    forall p zp ep, In (p, (zp, ep)) (combine ps l) -> no_errors ep -> fixed (system_at Y zp) p (Some opts) ep.
Proof.
  intros K Y d opts m diff paths z vs code Fa Da H. unfold whole_fix in H. cbv zeta in H. cbn [andb negb] in H.
  inversion H as [| | | | |? F0 vs' ? H'| | |]; subst. destruct (generate_config _ _ _ _ _) as [cfg|e] eqn:G; [|inversion H'].
  change no_tally with (fix_state false []) in H'.
  apply (fix_sim K false diff _ cfg (whole_paths Y d (or_cwd K paths) true (Some opts) m z)) in H'. destruct H' as (es & oa & rest & R & Ef & _ & _ & O).
  cbv zeta in O. destruct O as (-> & [(-> & -> & _)|(_ & _ & X & _)]); [|discriminate]. split; auto.
  unfold whole_paths in R. inversion R as [| | | |? F es' ? R'| | | |]; subst. apply run_lift in R'.
  destruct (make_plan (y_walk Y F) d false (or_cwd K paths)) as [pl|e] eqn:P; [|destruct R' as [_ [X|X]]; discriminate].
  assert (exists ps, pl = Some (Serial ps)) as (ps & ->).
  { destruct (or_cwd K paths) as [|[|p0] rest] eqn:Ea; [destruct paths; discriminate|destruct paths as [|[|] ?]; discriminate|].
    rewrite C34_files in P. apply bind_ok in P. destruct P as (found & _ & P). cbn [negb] in P. rewrite orb_true_r in P. injection P as <-. eauto. }
  exists F0, F, ps.
  apply run_pbind in R'. destruct R' as [[X _]|[(e & X & _)|(es1 & es2 & z' & -> & R1 & R2)]]; try discriminate. inversion R2; subst. rewrite app_nil_r in *.
  apply session_visits in R1. destruct R1 as (l & Vi & ->). exists l. split; [exact P|]. split; auto.
  split; [cbn [effects flat_map app]; f_equal; exact Ef|]. split.
  - cbn [saved flat_map app]. fold (saved vs'). rewrite (effects_saved _ _ Ef). cbn [written]. clear. induction l as [|v l IH]; [reflexivity|].
    cbn [map concat flat_map]. now rewrite written_app, IH.
  - intros p zp ep I Ne. destruct (visits_part _ _ _ _ _ _ _ Vi _ _ _ I) as (Rp & _). eapply file_fixed; eauto.
Qed.

(** ** Concrete cases *)

(** Two projects: linting both exits with 1, and fixing the first writes it; a project whose only rule cannot be imported exits with 0. *)
Definition do_lint (a b : str) (paths : list arg) : cmd N :=
  whole_lint ex_cli (system2 a b) [u "d"; u "stdin"] ex_opts false false paths session0.
Definition do_fix (a b : str) (interactive : bool) (paths : list arg) : cmd N :=
  whole_fix ex_cli (system2 a b) [u "d"; u "stdin"] ex_opts false interactive false paths session0.

Example C80_example :
  let (vs1, o1) := perform (do_lint (u "rules") (u "rules") [PathArg x_py; PathArg y_py_]) fs2 [] [] false in
  let (vs2, o2) := perform (do_lint (u "nothing") (u "rules") [PathArg x_py]) fs2 [] [] false in
  let (vs3, o3) := perform (do_lint (u "bad") (u "rules") [PathArg x_py; PathArg y_py_]) fs2 [] [] false in
  let (vs4, o4) := perform (do_fix (u "rules") (u "rules") true [PathArg x_py; PathArg y_py_]) fs2 [Yes; No] [] false in
  o1 = Returned 1%N /\ o2 = Returned 0%N /\ o3 = Returned 3%N /\ o4 = Returned 0%N /\
  List.length (lines vs1) = 3 /\ saved vs1 = [] /\ asked vs4 = [Some Yes; Some No] /\ map fst (saved vs4) = [x_py] /\
  (forall F, fair_sets (y_world (system2 (u "rules") (u "rules")) F)).
Proof. vm_compute. repeat split; auto. Qed.
