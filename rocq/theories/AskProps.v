(** * C107: fixing several paths with questions *)
From Coq Require Import String List NArith ZArith Bool Arith Lia.
From Verif Require Import Base PyStr Ftypes Paths Config Suppress Cst Engine EngineProps Batch Api ApiSpec ApiFacts ApiProps ApiPaths System SystemSpec SystemSame
  Cli CliSpec CliFacts CliProps InputProps SeveralProps DiskSpec DiskProps SeveralFix ConsentProps.
Import ListNotations.

(** ** Specification *)

(** On a disk with the files [F] that only the command changes, it asks questions that are answered [told], prints [ls] and then a summary, returns 0 and leaves [F'];
    no write fails. *)
Definition leaves_told (F : fs) (c : cmd N) (told : list choice) (ls : list (stream * str)) (F' : fs) : Prop :=
  exists vs summary, crun c vs (Returned 0%N) /\ leads F (effects vs) F' /\ (forall q t w, In (VWrite q t w) vs -> w = Ok tt) /\ lines vs = ls ++ [summary] /\
    asked vs = map Some told.

(** Fixing the paths one after another, until a question is answered with quit *)
Inductive told_in_turn (fix1 : path -> cmd N) : fs -> list path -> list choice -> list (stream * str) -> fs -> Prop :=
| tt_end : forall F, told_in_turn fix1 F [] [] [] F
| tt_step : forall F p ps t l F1 ts ls F2, leaves_told F (fix1 p) t l F1 -> ~ In Quit t -> told_in_turn fix1 F1 ps ts ls F2 ->
    told_in_turn fix1 F (p :: ps) (t ++ ts) (l ++ ls) F2
| tt_quit : forall F p ps t l F1, leaves_told F (fix1 p) t l F1 -> In Quit t -> told_in_turn fix1 F (p :: ps) t l F1.

(** ** Proofs *)

Inductive isteps (K : cli) (cfg : config) : bool -> prog unit -> list cev -> Prop :=
| is_ret : forall r, isteps K cfg false (Ret r) []
| is_quit : forall x k ls d, print_result K x true false (c_format cfg) (c_template cfg) = Ok (ls, d) -> is_fixable x = true ->
    isteps K cfg true (Give x k) (map (fun l => VPrint (fst l) (snd l)) ls ++ [VPrompt (Some Quit)])
| is_give : forall b x k ls d vs, print_result K x true false (c_format cfg) (c_template cfg) = Ok (ls, d) -> is_fixable x = false -> isteps K cfg b (k None) vs ->
    isteps K cfg b (Give x k) (map (fun l => VPrint (fst l) (snd l)) ls ++ vs)
| is_yes : forall b x k ls d vs, print_result K x true false (c_format cfg) (c_template cfg) = Ok (ls, d) -> is_fixable x = true -> isteps K cfg b (k (Some true)) vs ->
    isteps K cfg b (Give x k) (map (fun l => VPrint (fst l) (snd l)) ls ++ VPrompt (Some Yes) :: vs)
| is_no : forall b x k ls d vs, print_result K x true false (c_format cfg) (c_template cfg) = Ok (ls, d) -> is_fixable x = true -> isteps K cfg b (k None) vs ->
    isteps K cfg b (Give x k) (map (fun l => VPrint (fst l) (snd l)) ls ++ VPrompt (Some No) :: vs)
| is_look : forall b k F vs, isteps K cfg b (k F) vs -> isteps K cfg b (Look k) (VLook F :: vs)
| is_write : forall b p c k w vs, isteps K cfg b (k w) vs -> isteps K cfg b (Write p c k) (VWrite p c w :: vs)
| is_in : forall b k i vs, isteps K cfg b (k i) vs -> isteps K cfg b (Stdin k) (VIn i :: vs)
| is_out : forall b c k w vs, isteps K cfg b (k w) vs -> isteps K cfg b (Stdout c k) (VOut c w :: vs)
| is_call : forall b m k vs, isteps K cfg b (k (Ok tt)) vs -> isteps K cfg b (Call m k) (VPrint Std (k_metrics K m) :: vs).

Lemma asked_app : forall a b, asked (a ++ b) = asked a ++ asked b.
Proof. intros. apply flat_map_app. Qed.

Lemma asked_loop : forall K diff cfg g t vs c, crun (fix_loop K true diff false cfg g t) vs (Returned c) ->
  exists b vs0 s, isteps K cfg b g vs0 /\ vs = vs0 ++ [VPrint (fst s) (snd s)].
Proof.
  intros K diff cfg g. induction g as [r|e|x k IH|k IH|q c0 k IH|k IH|c0 k IH|m k IH]; intros t vs c R; cbn [fix_loop orb negb andb] in *.
  - apply end_facts in R. destruct R as [-> ->]. exists false, [], (fix_last t). split; [constructor|reflexivity].
  - inversion R.
  - destruct (print_result K x true false (c_format cfg) (c_template cfg)) as [[ls d]|e] eqn:E; [|inversion R].
    apply print_all_ends in R. destruct R as (vs2 & -> & R). destruct (is_fixable x) eqn:Fx.
    + inversion R as [| | | |? a vs3 ? R3| | | |]; subst. destruct a as [[| |]|].
      * destruct (IH _ _ _ _ R3) as (b & vs0 & s & H & ->).
        exists b, (map (fun l => VPrint (fst l) (snd l)) ls ++ VPrompt (Some Yes) :: vs0), s. split; [eapply is_yes; eauto|]. now rewrite <- app_assoc.
      * destruct (IH _ _ _ _ R3) as (b & vs0 & s & H & ->).
        exists b, (map (fun l => VPrint (fst l) (snd l)) ls ++ VPrompt (Some No) :: vs0), s. split; [eapply is_no; eauto|]. now rewrite <- app_assoc.
      * apply end_facts in R3. destruct R3 as [-> _]. eexists true, (map (fun l => VPrint (fst l) (snd l)) ls ++ [VPrompt (Some Quit)]), (fix_last _).
        split; [eapply is_quit; eauto|]. rewrite <- app_assoc. reflexivity.
      * inversion R3.
    + destruct (IH _ _ _ _ R) as (b & vs0 & s & H & ->). exists b, (map (fun l => VPrint (fst l) (snd l)) ls ++ vs0), s.
      split; [eapply is_give; eauto|]. now rewrite <- app_assoc.
  - inversion R as [| | | | |? F vs1 ? R1| | |]; subst. destruct (IH _ _ _ _ R1) as (b & vs0 & s & H & ->). eexists b, (_ :: vs0), s. split; [constructor; exact H|auto].
  - inversion R as [| | | | | |? ? ? w vs1 ? R1| |]; subst. destruct (IH _ _ _ _ R1) as (b & vs0 & s & H & ->). eexists b, (_ :: vs0), s. split; [constructor; exact H|auto].
  - inversion R as [| | | | | | |? i vs1 ? R1|]; subst. destruct (IH _ _ _ _ R1) as (b & vs0 & s & H & ->). eexists b, (_ :: vs0), s. split; [constructor; exact H|auto].
  - inversion R as [| | | | | | | |? ? w vs1 ? R1]; subst. destruct (IH _ _ _ _ R1) as (b & vs0 & s & H & ->). eexists b, (_ :: vs0), s. split; [constructor; exact H|auto].
  - inversion R as [| | |? ? ? vs1 ? R1| | | | |]; subst. destruct (IH _ _ _ _ R1) as (b & vs0 & s & H & ->). eexists b, (_ :: vs0), s. split; [constructor; exact H|auto].
Qed.

Lemma loop_asked : forall K diff cfg b g vs0, isteps K cfg b g vs0 -> forall t, exists s, crun (fix_loop K true diff false cfg g t) (vs0 ++ [VPrint (fst s) (snd s)]) (Returned (l_exit t)).
Proof.
  intros K diff cfg b g vs0 H. induction H as [r|x k ls d E Fx|b x k ls d vs E Fx H IH|b x k ls d vs E Fx H IH|b x k ls d vs E Fx H IH|b k F vs H IH|b p c k w vs H IH|b k i vs H IH|b c k w vs H IH|b m k vs H IH]; intro t; cbn [fix_loop orb negb andb].
  - exists (fix_last t). apply end_runs.
  - rewrite E, Fx. exists (fix_last (offered (fix_tally false t x d))). rewrite <- app_assoc. apply print_all_ends. eexists. split; [reflexivity|]. cbn [app]. constructor.
    replace (l_exit t) with (l_exit (offered (fix_tally false t x d))) by (unfold fix_tally; destruct d; reflexivity). apply end_runs.
  - rewrite E, Fx. destruct (IH (fix_tally false t x d)) as (s & R). exists s. rewrite <- app_assoc. apply print_all_ends. eexists. split; [reflexivity|].
    replace (l_exit t) with (l_exit (fix_tally false t x d)) by (unfold fix_tally; destruct d; reflexivity). exact R.
  - rewrite E, Fx. destruct (IH (taken (offered (fix_tally false t x d)))) as (s & R). exists s. rewrite <- app_assoc. apply print_all_ends. eexists. split; [reflexivity|]. cbn [app]. constructor.
    replace (l_exit t) with (l_exit (taken (offered (fix_tally false t x d)))) by (unfold fix_tally; destruct d; reflexivity). exact R.
  - rewrite E, Fx. destruct (IH (offered (fix_tally false t x d))) as (s & R). exists s. rewrite <- app_assoc. apply print_all_ends. eexists. split; [reflexivity|]. cbn [app]. constructor.
    replace (l_exit t) with (l_exit (offered (fix_tally false t x d))) by (unfold fix_tally; destruct d; reflexivity). exact R.
  - destruct (IH t) as (s & R). exists s. cbn [app]. constructor. exact R.
  - destruct (IH t) as (s & R). exists s. cbn [app]. constructor. exact R.
  - destruct (IH t) as (s & R). exists s. cbn [app]. constructor. exact R.
  - destruct (IH t) as (s & R). exists s. cbn [app]. constructor. exact R.
  - destruct (IH t) as (s & R). exists s. cbn [app]. constructor. exact R.
Qed.

Lemma isteps_told : forall K cfg b g vs, isteps K cfg b g vs -> exists told, asked vs = map Some told /\ (b = true <-> In Quit told).
Proof.
  intros K cfg b g vs H. induction H as [r|x k ls d E Fx|b x k ls d vs E Fx H IH|b x k ls d vs E Fx H IH|b x k ls d vs E Fx H IH|b k F vs H IH|b p c k w vs H IH|b k i vs H IH|b c k w vs H IH|b m k vs H IH];
    try (destruct IH as (told & A & Q)); rewrite ?asked_through.
  - exists []. split; [reflexivity|]. split; [discriminate|intros []].
  - exists [Quit]. split; [reflexivity|]. split; [left; reflexivity|reflexivity].
  - eauto.
  - exists (Yes :: told). split; [exact (f_equal (cons _) A)|]. split; [intro X; right; apply Q; exact X|]. intros [X|X]; [discriminate|apply Q; exact X].
  - exists (No :: told). split; [exact (f_equal (cons _) A)|]. split; [intro X; right; apply Q; exact X|]. intros [X|X]; [discriminate|apply Q; exact X].
  - eauto.
  - eauto.
  - eauto.
  - eauto.
  - eauto.
Qed.

Lemma isteps_run : forall K cfg b g vs, isteps K cfg b g vs -> b = false -> exists es, run g es (Returned tt) /\ effects vs = api_effects es.
Proof.
  intros K cfg b g vs H. induction H as [r|x k ls d E Fx|b x k ls d vs E Fx H IH|b x k ls d vs E Fx H IH|b x k ls d vs E Fx H IH|b k F vs H IH|b p c k w vs H IH|b k i vs H IH|b c k w vs H IH|b m k vs H IH];
    intro B; try discriminate; try (destruct (IH B) as (es & R & Ef)).
  - exists []. destruct r. split; [constructor|reflexivity].
  - exists (EGive x None :: es). split; [now constructor|]. rewrite effects_app, effects_printed. exact Ef.
  - exists (EGive x (Some true) :: es). split; [now constructor|]. rewrite effects_app, effects_printed. exact Ef.
  - exists (EGive x None :: es). split; [now constructor|]. rewrite effects_app, effects_printed. exact Ef.
  - exists (ELook F :: es). split; [now constructor|]. cbn [effects flat_map app api_effects filter]. f_equal. exact Ef.
  - exists (EWrite p c w :: es). split; [now constructor|]. cbn [effects flat_map app api_effects filter]. f_equal. exact Ef.
  - exists (EIn i :: es). split; [now constructor|]. cbn [effects flat_map app api_effects filter]. f_equal. exact Ef.
  - exists (EOut c w :: es). split; [now constructor|]. cbn [effects flat_map app api_effects filter]. f_equal. exact Ef.
  - exists (ECall m (Ok tt) :: es). split; [now constructor|]. exact Ef.
Qed.

Lemma isteps_bind : forall K cfg b (g h : prog unit) vs, isteps K cfg b (pbind g (fun _ => h)) vs <->
  (b = true /\ isteps K cfg true g vs) \/ exists vs1 vs2, isteps K cfg false g vs1 /\ isteps K cfg b h vs2 /\ vs = vs1 ++ vs2.
Proof.
  intros K cfg b g h vs. split.
  - revert vs. induction g as [r|e|x k IH|k IH|q c0 k IH|k IH|c0 k IH|m k IH]; intros vs H; cbn [pbind] in H.
    + right. exists [], vs. repeat split; auto. constructor.
    + inversion H.
    + inversion H as [|? ? ls d E Fx|? ? ? ls d vs0 E Fx H1|? ? ? ls d vs0 E Fx H1|? ? ? ls d vs0 E Fx H1| | | | |]; subst.
      * left. split; [reflexivity|]. eapply is_quit; eauto.
      * apply IH in H1. destruct H1 as [[-> H1]|(vs1 & vs2 & H1 & H2 & ->)]; [left; split; [reflexivity|eapply is_give; eauto]|].
        right. eexists (_ ++ vs1), vs2. split; [eapply is_give; eauto|]. split; auto. now rewrite <- app_assoc.
      * apply IH in H1. destruct H1 as [[-> H1]|(vs1 & vs2 & H1 & H2 & ->)]; [left; split; [reflexivity|eapply is_yes; eauto]|].
        right. eexists (_ ++ _ :: vs1), vs2. split; [eapply is_yes; eauto|]. split; auto. now rewrite <- app_assoc.
      * apply IH in H1. destruct H1 as [[-> H1]|(vs1 & vs2 & H1 & H2 & ->)]; [left; split; [reflexivity|eapply is_no; eauto]|].
        right. eexists (_ ++ _ :: vs1), vs2. split; [eapply is_no; eauto|]. split; auto. now rewrite <- app_assoc.
    + inversion H; subst. match goal with H : isteps _ _ _ _ _ |- _ => apply IH in H; destruct H as [[-> H1]|(vs1 & vs2 & H1 & H2 & ->)] end; [left; split; [reflexivity|now constructor]|].
      right. eexists (_ :: vs1), vs2. split; [constructor; eassumption|auto].
    + inversion H; subst. match goal with H : isteps _ _ _ _ _ |- _ => apply IH in H; destruct H as [[-> H1]|(vs1 & vs2 & H1 & H2 & ->)] end; [left; split; [reflexivity|now constructor]|].
      right. eexists (_ :: vs1), vs2. split; [constructor; eassumption|auto].
    + inversion H; subst. match goal with H : isteps _ _ _ _ _ |- _ => apply IH in H; destruct H as [[-> H1]|(vs1 & vs2 & H1 & H2 & ->)] end; [left; split; [reflexivity|now constructor]|].
      right. eexists (_ :: vs1), vs2. split; [constructor; eassumption|auto].
    + inversion H; subst. match goal with H : isteps _ _ _ _ _ |- _ => apply IH in H; destruct H as [[-> H1]|(vs1 & vs2 & H1 & H2 & ->)] end; [left; split; [reflexivity|now constructor]|].
      right. eexists (_ :: vs1), vs2. split; [constructor; eassumption|auto].
    + inversion H; subst. match goal with H : isteps _ _ _ _ _ |- _ => apply IH in H; destruct H as [[-> H1]|(vs1 & vs2 & H1 & H2 & ->)] end; [left; split; [reflexivity|now constructor]|].
      right. eexists (_ :: vs1), vs2. split; [constructor; eassumption|auto].
  - intros [[-> H]|(vs1 & vs2 & H1 & H2 & ->)].
    + revert vs H. induction g as [r|e|x k IH|k IH|q c0 k IH|k IH|c0 k IH|m k IH]; intros vs H; cbn [pbind]; inversion H; subst.
      * eapply is_quit; eauto.
      * eapply is_give; eauto.
      * eapply is_yes; eauto.
      * eapply is_no; eauto.
      * constructor; auto.
      * constructor; auto.
      * constructor; auto.
      * constructor; auto.
      * constructor; auto.
    + remember false as f eqn:Ef in H1. induction H1; try discriminate; cbn [pbind app]; rewrite <- ?app_assoc; cbn [app].
      * exact H2.
      * eapply is_give; eauto.
      * eapply is_yes; eauto.
      * eapply is_no; eauto.
      * constructor; auto.
      * constructor; auto.
      * constructor; auto.
      * constructor; auto.
      * constructor; auto.
Qed.

Lemma isteps_serial : forall K cfg b T autofix opts hook ps qs vs, isteps K cfg b (serial T (ps ++ qs) autofix opts hook) vs <->
  (b = true /\ isteps K cfg true (serial T ps autofix opts hook) vs) \/
  exists vs1 vs2, isteps K cfg false (serial T ps autofix opts hook) vs1 /\ isteps K cfg b (serial T qs autofix opts hook) vs2 /\ vs = vs1 ++ vs2.
Proof.
  intros K cfg b T autofix opts hook ps qs. induction ps as [|p ps IH]; intro vs; cbn [app serial].
  - split.
    + intro H. right. exists [], vs. repeat split; auto. constructor.
    + intros [[_ H]|(vs1 & vs2 & H & H2 & ->)]; inversion H; subst. exact H2.
  - rewrite !isteps_bind. split.
    + intros [[-> H]|(vs1 & vs2 & H & H2 & ->)]; [left; auto|]. apply IH in H2. destruct H2 as [[-> H2]|(vs3 & vs4 & H3 & H4 & ->)].
      * left. split; [reflexivity|]. right. eauto 8.
      * right. exists (vs1 ++ vs3), vs4. rewrite <- !app_assoc. repeat split; auto. apply isteps_bind. right. eauto 8.
    + intros [[-> [[_ H]|(vs1 & vs2 & H & H2 & ->)]]|(vs1 & vs2 & H & H2 & ->)].
      * left. auto.
      * right. exists vs1, vs2. repeat split; auto. apply IH. auto.
      * apply isteps_bind in H. destruct H as [[X _]|(vs3 & vs4 & H3 & H4 & ->)]; [discriminate|].
        right. exists vs3, (vs4 ++ vs2). rewrite <- !app_assoc. repeat split; auto. apply IH. right. eauto 8.
Qed.

Lemma run_alike : forall T p autofix opts hook es vs F F', run (fixit_file T p autofix opts hook) es (Returned tt) -> effects vs = api_effects es -> leads F (effects vs) F' ->
  (forall q t w, In (VWrite q t w) vs -> w = Ok tt) -> alike [p] F F'.
Proof.
  intros T p autofix opts hook es vs F F' R Ef L W. rewrite Ef in L. apply (proj1 (leads_effects _ _ _)) in L.
  assert (W' : forall q t w, In (EWrite q t w) es -> w = Ok tt).
  { intros q t w I. apply (W q t). assert (I' : In (EWrite q t w) (effects vs)) by (rewrite Ef; unfold api_effects; apply filter_In; auto).
    unfold effects in I'. apply in_flat_map in I'. destruct I' as (v & I' & J). destruct v; cbn in J; try contradiction; destruct J as [J|[]]; try discriminate. injection J as -> -> ->. exact I'. }
  destruct (file_leads _ _ _ _ _ _ _ _ _ R L) as [Lk [[_ ->]|(c & w & Wr & Al & Or)]]; [apply alike_refl|].
  assert (Ex : exists content, f_file F p = Some content).
  { destruct (C31_writes _ _ _ _ _ _ _ R) as (_ & _ & [X|(Fa & content & F1 & cf & es1 & c' & w' & es2 & acc & -> & Rd & _)]); [congruence|].
    exists content. rewrite <- (Lk Fa); auto. unfold looks. simpl. auto. }
  assert (w = Ok tt).
  { assert (I : In (p, c) (written es)) by (rewrite Wr; left; reflexivity). assert (J : exists w0, In (EWrite p c w0) es).
    { clear - I. induction es as [|e es IH]; [contradiction|].
      destruct e; cbn [written] in I; try (destruct (IH I) as (w0 & J); exists w0; right; exact J).
      destruct I as [I|I]; [injection I as -> ->; eexists; left; reflexivity|]. destruct (IH I) as (w0 & J); exists w0; right; exact J. }
    destruct J as (w0 & J). rewrite <- (Al _ _ _ J). eapply W'. exact J. }
  destruct Or as [[_ ->]|(e & x & Ew & _)]; [|congruence]. destruct Ex as (content & Ex). split; [reflexivity|split].
  - intros q N. cbn [put f_file] in N. destruct (path_eqb q p) eqn:E; [|now contradiction N]. apply path_eqb_eq in E. left. auto.
  - intro q. cbn [put f_file]. destruct (path_eqb q p) eqn:E; [|reflexivity]. apply path_eqb_eq in E. subst q. rewrite Ex. split; discriminate.
Qed.

Lemma asked_alike : forall K cfg T autofix opts hook ps vs F F', isteps K cfg false (serial T ps autofix opts hook) vs -> leads F (effects vs) F' ->
  (forall q t w, In (VWrite q t w) vs -> w = Ok tt) -> alike ps F F'.
Proof.
  intros K cfg T autofix opts hook ps. induction ps as [|p ps IH]; intros vs F F' H L W; cbn [serial] in H.
  - inversion H; subst. inversion L; subst. apply alike_refl.
  - apply isteps_bind in H. destruct H as [[X _]|(vs1 & vs2 & H1 & H2 & ->)]; [discriminate|]. rewrite effects_app in L. apply leads_app in L. destruct L as (G & L1 & L2).
    destruct (isteps_run _ _ _ _ _ H1 eq_refl) as (es & R & Ef). eapply alike_trans.
    + eapply alike_more; [|eapply run_alike; [exact R|exact Ef|exact L1|intros q t w I; eapply W; apply in_or_app; left; exact I]]. intros q [<-|[]]. left. reflexivity.
    + eapply alike_more; [|eapply IH; [exact H2|exact L2|intros q t w I; eapply W; apply in_or_app; right; exact I]]. intros q I. right. exact I.
Qed.

Opaque make_plan.

Lemma map_some : forall (a b : list choice), map Some a = map Some b -> a = b.
Proof. induction a as [|x a IH]; intros [|y b] H; try discriminate; [reflexivity|]. injection H as -> H. f_equal. auto. Qed.

(** A command that ends, seen from inside; [b] tells whether it was ended by quit. *)
Definition inside (K : cli) (T : tool) (opts : options) (m b : bool) (F : fs) (ps : list path) (told : list choice) (ls : list (stream * str)) (F' : fs) : Prop :=
  exists cfg found vs, generate_config (t_env T) F (k_cwd K) None (Some opts) = Ok cfg /\ map_res (t_walk T F) ps = Ok found /\
    isteps K cfg b (serial T (concat found) false (Some opts) m) vs /\ leads F (effects vs) F' /\ (forall q t w, In (VWrite q t w) vs -> w = Ok tt) /\ ls = lines vs /\ asked vs = map Some told.

Lemma told_inside : forall K T d opts m diff F p ps told ls F',
  leaves_told F (fix_ K T d opts m true diff (map PathArg (p :: ps))) told ls F' <-> exists b, inside K T opts m b F (p :: ps) told ls F'.
Proof.
  intros K T d opts m diff F p ps told ls F'. unfold leaves_told, inside, fix_. cbn [map or_cwd first_is_dash andb negb].
  assert (Nm : flat_map named (map PathArg ps) = ps) by (induction ps as [|q ps IH]; [reflexivity|]; cbn [map flat_map named app]; now rewrite IH).
  split.
  - intros (vs & s & H & L & W & Li & A). inversion H as [| | | | |? F0 vs0 ? H0| | |]; subst.
    change (effects (VLook F0 :: vs0)) with (ELook F0 :: effects vs0) in L.
    inversion L as [|? ? ? L1| | |? ? ? ? X]; subst; [|contradiction]. change (asked (VLook F0 :: vs0)) with (asked vs0) in A.
    destruct (generate_config (t_env T) F0 (k_cwd K) None (Some opts)) as [cfg|e]; [|inversion H0].
    apply (asked_loop K diff cfg (fixit_paths_serial T d (PathArg p :: map PathArg ps) false (Some opts) m)) in H0.
    destruct H0 as (b & vs1 & s1 & H1 & ->). unfold fixit_paths_serial in H1.
    inversion H1 as [| | | | |? ? F1 vs2 H2| | | |]; subst. rewrite asked_app in A. change (asked [VPrint _ _]) with (@nil (option choice)) in A. rewrite app_nil_r in A.
    rewrite effects_app in L1. change (effects [VPrint _ _]) with (@nil ev) in L1. rewrite app_nil_r in L1. change (effects (VLook F1 :: vs2)) with (ELook F1 :: effects vs2) in L1.
    inversion L1 as [|? ? ? L2| | |? ? ? ? X]; subst; [|contradiction]. rewrite C34_files, Nm in H2.
    destruct (map_res (t_walk T F1) (p :: ps)) as [found|e]; cbn [bind lift] in H2; [|inversion H2].
    exists b, cfg, found, vs2. cbn [negb] in H2. rewrite orb_true_r in H2. repeat split; auto.
    + intros q t w I. apply (W q t). right. right. apply in_or_app. auto.
    + change (lines ((VLook F1 :: VLook F1 :: vs2) ++ [VPrint (fst s1) (snd s1)]) = ls ++ [s]) in Li.
      rewrite lines_app in Li. cbn [lines flat_map app] in Li. apply app_inj_tail in Li. destruct Li as [<- _]. reflexivity.
  - intros (b & cfg & found & vs & G & Wk & H & L & W & -> & A).
    assert (X : isteps K cfg b (fixit_paths_serial T d (PathArg p :: map PathArg ps) false (Some opts) m) (VLook F :: vs)).
    { unfold fixit_paths_serial. constructor. rewrite C34_files, Nm, Wk. cbn [bind lift negb]. rewrite orb_true_r. exact H. }
    destruct (loop_asked K diff cfg _ _ _ X no_tally) as (s & R). exists (VLook F :: VLook F :: vs ++ [VPrint (fst s) (snd s)]), (fst s, snd s). split; [|split; [|split; [|split]]].
    + constructor. rewrite G. exact R.
    + change (leads F (ELook F :: ELook F :: effects (vs ++ [VPrint (fst s) (snd s)])) F'). rewrite effects_app. change (effects [VPrint _ _]) with (@nil ev). rewrite app_nil_r. now do 2 constructor.
    + intros q t w [X1|[X1|I]]; try discriminate. apply in_app_iff in I. destruct I as [I|[X1|[]]]; [eapply W; exact I|discriminate].
    + change (lines ((VLook F :: VLook F :: vs) ++ [VPrint (fst s) (snd s)]) = lines vs ++ [(fst s, snd s)]). rewrite lines_app. reflexivity.
    + change (asked (vs ++ [VPrint (fst s) (snd s)]) = map Some told). rewrite asked_app, A. apply app_nil_r.
Qed.

Lemma inside_quit : forall K T opts m b F ps told ls F', inside K T opts m b F ps told ls F' -> (b = true <-> In Quit told).
Proof.
  intros K T opts m b F ps told ls F' (cfg & found & vs & _ & _ & H & _ & _ & _ & A). destruct (isteps_told _ _ _ _ _ H) as (told' & A' & Q).
  rewrite A in A'. apply map_some in A'. subst. exact Q.
Qed.

Lemma inside_app : forall K T opts m b F p ps f1 f2 told ls F', names_only (t_walk T) -> t_walk T F p = Ok f1 -> map_res (t_walk T F) ps = Ok f2 ->
  (forall q, In q (f1 ++ concat f2) -> ~ is_config (Some opts) q) ->
  (inside K T opts m b F (p :: ps) told ls F' <-> (b = true /\ inside K T opts m true F [p] told ls F') \/
   exists t1 t2 l1 l2 F1, inside K T opts m false F [p] t1 l1 F1 /\ inside K T opts m b F1 ps t2 l2 F' /\ told = t1 ++ t2 /\ ls = l1 ++ l2 /\ alike f1 F F1).
Proof.
  intros K T opts m b F p ps f1 f2 told ls F' Nw Wk1 Wk2 Nc. unfold inside. split.
  - intros (cfg & fd & vs & G & Wk & H & L & W & -> & A). apply map_res_cons in Wk. destruct Wk as (g1 & g2 & X1 & X2 & ->).
    rewrite Wk1 in X1. injection X1 as <-. rewrite Wk2 in X2. injection X2 as <-. cbn [concat] in H.
    apply isteps_serial in H. destruct H as [[-> H]|(vs1 & vs2 & H1 & H2 & ->)].
    { left. split; [reflexivity|]. exists cfg, [f1], vs. cbn [concat]. rewrite app_nil_r. repeat split; auto. apply map_res_cons. exists f1, []. auto. }
    right. rewrite effects_app in L. apply leads_app in L. destruct L as (F1 & L1 & L2).
    assert (W1 : forall q0 t w, In (VWrite q0 t w) vs1 -> w = Ok tt) by (intros q0 t w I; eapply W; apply in_or_app; left; exact I).
    assert (W2 : forall q0 t w, In (VWrite q0 t w) vs2 -> w = Ok tt) by (intros q0 t w I; eapply W; apply in_or_app; right; exact I).
    pose proof (asked_alike _ _ _ _ _ _ _ _ _ _ H1 L1 W1) as Al.
    destruct (isteps_told _ _ _ _ _ H1) as (t1 & A1 & Q1), (isteps_told _ _ _ _ _ H2) as (t2 & A2 & Q2).
    rewrite asked_app, A1, A2, <- map_app in A. apply map_some in A.
    exists t1, t2, (lines vs1), (lines vs2), F1. split; [|split; [|split; [auto|split; [apply lines_app|exact Al]]]].
    + exists cfg, [f1], vs1. cbn [concat]. rewrite app_nil_r. repeat split; auto. apply map_res_cons. exists f1, []. auto.
    + exists cfg, f2, vs2. rewrite (walks_alike T f1 F F1) by auto. repeat split; auto.
      rewrite (alike_config _ f1 F F1); auto. intros q0 I. apply Nc. apply in_or_app. auto.
  - intros [[-> (cfg & fd & vs & G & Wk & H & L & W & -> & A)]|
      (t1 & t2 & l1 & l2 & F1 & (cfg & fd & vs1 & G & Wk & H1 & L1 & W1 & -> & A1) & (cfg2 & fd2 & vs2 & G2 & Wkb & H2 & L2 & W2 & -> & A2) & -> & -> & Al)].
    + apply map_res_cons in Wk. destruct Wk as (g1 & g0 & X1 & X0 & ->). injection X0 as <-. rewrite Wk1 in X1. injection X1 as <-. cbn [concat] in H. rewrite app_nil_r in H.
      exists cfg, (f1 :: f2), vs. repeat split; auto; [apply map_res_cons; eauto|]. cbn [concat]. apply isteps_serial. left. auto.
    + rewrite (walks_alike T f1 F F1), Wk2 in Wkb by auto. injection Wkb as <-.
      rewrite (alike_config _ f1 F F1) in G2; auto; [|intros q0 I; apply Nc; apply in_or_app; auto]. assert (cfg2 = cfg) as -> by congruence.
      apply map_res_cons in Wk. destruct Wk as (g1 & g0 & X1 & X0 & ->). injection X0 as <-. rewrite Wk1 in X1. injection X1 as <-. cbn [concat] in H1. rewrite app_nil_r in H1.
      exists cfg, (f1 :: f2), (vs1 ++ vs2). rewrite lines_app, effects_app, asked_app, A1, A2, map_app. repeat split; auto.
      * apply map_res_cons. eauto.
      * cbn [concat]. apply isteps_serial. right. eauto 8.
      * apply leads_app. eauto.
      * intros q0 t w I. apply in_app_iff in I. destruct I as [I|I]; [eapply W1|eapply W2]; exact I.
Qed.

Lemma inside_alike : forall K T opts m F p f1 told ls F1, t_walk T F p = Ok f1 -> inside K T opts m false F [p] told ls F1 -> alike f1 F F1.
Proof.
  intros K T opts m F p f1 told ls F1 Wk1 (cfg & fd & vs1 & G & Wk & H1 & L1 & W1 & -> & A1). apply map_res_cons in Wk.
  destruct Wk as (g1 & g0 & X1 & X0 & ->). injection X0 as <-. rewrite Wk1 in X1. injection X1 as <-. cbn [concat] in H1. rewrite app_nil_r in H1.
  eapply asked_alike; eauto.
Qed.

(** [fix path1 path2 …] without [--automatic] is [fix path1 && fix path2 && …], until one of them is told to quit, with the same answers in the same order: the same
    questions, the same lines apart from the summaries, the same files.  (As long as no write fails, and no file that is fixed is a config file.) *)
Theorem C107_each : forall K T d opts m diff F ps found told ls F', ps <> [] -> names_only (t_walk T) ->
  map_res (t_walk T F) ps = Ok found -> (forall q, In q (concat found) -> ~ is_config (Some opts) q) ->
  (leaves_told F (fix_ K T d opts m true diff (map PathArg ps)) told ls F' <-> told_in_turn (fun p => fix_ K T d opts m true diff [PathArg p]) F ps told ls F').
Proof.
  intros K T d opts m diff F ps found told ls F' Ne Nw. revert F found told ls Ne. induction ps as [|p ps IH]; [congruence|]. intros F found told ls _ Wk Nc.
  apply map_res_cons in Wk. destruct Wk as (f1 & f2 & Wk1 & Wk2 & ->). cbn [concat] in Nc.
  assert (Dec : In Quit told \/ ~ In Quit told) by (destruct (in_dec (fun a b : choice => ltac:(decide equality)) Quit told); auto).
  destruct ps as [|q ps].
  - split.
    + intro H. destruct Dec as [Q|Q].
      * apply tt_quit; auto.
      * rewrite <- (app_nil_r ls), <- (app_nil_r told). econstructor; [exact H|exact Q|constructor].
    + intro H. inversion H as [|? ? ? t l F1 t2 l2 ? H1 Q H2|? ? ? t l F1 H1 Q]; subst; [|exact H1]. inversion H2; subst. rewrite !app_nil_r. exact H1.
  - assert (Rec : forall F1 t2 l2, alike f1 F F1 -> ((exists b, inside K T opts m b F1 (q :: ps) t2 l2 F') <-> told_in_turn (fun p => fix_ K T d opts m true diff [PathArg p]) F1 (q :: ps) t2 l2 F')).
    { intros F1 t2 l2 Al. rewrite <- (told_inside K T d opts m diff). apply (IH F1 f2); [discriminate|rewrite (walks_alike T f1 F F1); auto|].
      intros q0 I. apply Nc. apply in_or_app. auto. }
    split.
    + intro H. apply (proj1 (told_inside K T d opts m diff F p (q :: ps) told ls F')) in H. destruct H as (b & H). apply (inside_app K T opts m b F p (q :: ps) f1 f2) in H; auto.
      destruct H as [[-> H]|(t1 & t2 & l1 & l2 & F1 & H1 & H2 & -> & -> & Al)].
      * apply tt_quit; [|apply (inside_quit _ _ _ _ _ _ _ _ _ _ H); reflexivity]. exact (proj2 (told_inside K T d opts m diff F p [] told ls F') (ex_intro _ true H)).
      * econstructor.
        -- exact (proj2 (told_inside K T d opts m diff F p [] t1 l1 F1) (ex_intro _ false H1)).
        -- intro Q. apply (inside_quit _ _ _ _ _ _ _ _ _ _ H1) in Q. discriminate.
        -- apply Rec; eauto.
    + intro H. inversion H as [|? ? ? t1 l1 F1 t2 l2 ? H1 Q H2|? ? ? t1 l1 F1 H1 Q]; subst.
      * apply (proj1 (told_inside K T d opts m diff F p [] t1 l1 F1)) in H1. destruct H1 as (b & H1).
        assert (b = false) as -> by (destruct b; [|reflexivity]; exfalso; apply Q; apply (inside_quit _ _ _ _ _ _ _ _ _ _ H1); reflexivity).
        pose proof (inside_alike K T opts m F p f1 t1 l1 F1 Wk1 H1) as Al. apply Rec in H2; auto. destruct H2 as (b & H2).
        apply (proj2 (told_inside K T d opts m diff F p (q :: ps) (t1 ++ t2) (l1 ++ l2) F')). exists b. apply (inside_app K T opts m b F p (q :: ps) f1 f2); auto.
        right. exists t1, t2, l1, l2, F1. repeat split; auto; apply Al.
      * apply (proj1 (told_inside K T d opts m diff F p [] told ls F')) in H1. destruct H1 as (b & H1).
        assert (b = true) as -> by (apply (inside_quit _ _ _ _ _ _ _ _ _ _ H1); exact Q).
        apply (proj2 (told_inside K T d opts m diff F p (q :: ps) told ls F')). exists true. apply (inside_app K T opts m true F p (q :: ps) f1 f2); auto.
Qed.

(** ** The claim is not vacuous *)

Transparent make_plan fixit_bytes.
Lemma lived_told : forall (c : cmd N) F told vs F' ls s, live c F told = (vs, Returned 0%N, F') -> lines vs = ls ++ [s] ->
  forallb (fun v => match v with VWrite _ _ (Err _) => false | _ => true end) vs = true -> asked vs = map Some told -> leaves_told F c told ls F'.
Proof.
  intros c F told vs F' ls s H L W A. destruct (live_run _ _ _ _ _ _ _ H) as [R Ld]. exists vs, s. repeat split; auto.
  intros q t w I. rewrite forallb_forall in W. apply W in I. destruct w as [[]|]; [reflexivity|discriminate].
Qed.

(** Two files, two questions each; in each file one fix is taken and the other is not.  Quitting at the second question leaves both files as they were. *)
Example C107_example : exists l1 l2 l3 F1 F2 F3,
  names_only (t_walk ex_fix_tool) /\ map_res (t_walk ex_fix_tool ex_F2) [ex_file; ex_other] = Ok [[ex_file]; [ex_other]] /\
  (forall q, In q (concat [[ex_file]; [ex_other]]) -> ~ is_config (Some ex_opts) q) /\
  leaves_told ex_F2 (fix_ ex_cli ex_fix_tool [u "d"; u "stdin"] ex_opts false true false [PathArg ex_file]) [Yes; No] l1 F1 /\
  leaves_told F1 (fix_ ex_cli ex_fix_tool [u "d"; u "stdin"] ex_opts false true false [PathArg ex_other]) [No; Yes] l2 F2 /\
  leaves_told ex_F2 (ex_both true false) ([Yes; No] ++ [No; Yes]) (l1 ++ l2) F2 /\
  f_file F1 ex_other = f_file ex_F2 ex_other /\ f_file F1 ex_file <> f_file ex_F2 ex_file /\ f_file F2 ex_file = f_file F1 ex_file /\
  f_file F2 ex_other <> f_file ex_F2 ex_other /\ f_file F2 ex_other <> f_file F2 ex_file /\
  leaves_told ex_F2 (ex_both true false) [Yes; Quit] l3 F3 /\ f_file F3 ex_file = f_file ex_F2 ex_file /\ f_file F3 ex_other = f_file ex_F2 ex_other.
Proof.
  pose (r1 := live (fix_ ex_cli ex_fix_tool [u "d"; u "stdin"] ex_opts false true false [PathArg ex_file]) ex_F2 [Yes; No]).
  pose (r2 := live (fix_ ex_cli ex_fix_tool [u "d"; u "stdin"] ex_opts false true false [PathArg ex_other]) (snd r1) [No; Yes]).
  pose (r3 := live (ex_both true false) ex_F2 [Yes; Quit]).
  exists (removelast (lines (fst (fst r1)))), (removelast (lines (fst (fst r2)))), (removelast (lines (fst (fst r3)))), (snd r1), (snd r2), (snd r3).
  split; [intros F G p _ _; reflexivity|]. split; [reflexivity|]. split.
  { intros q I [(dd & n & -> & N)|(o & f & E & Ef & _)].
    - cbn [concat app] in I. destruct I as [I|[I|[]]]; apply (f_equal (@rev str)) in I; rewrite rev_app_distr in I; cbn in I; injection I as <- _; vm_compute in N; intuition discriminate.
    - injection E as <-. discriminate. }
  split; [eapply lived_told; vm_compute; reflexivity|]. split; [eapply lived_told; vm_compute; reflexivity|]. split; [eapply lived_told; vm_compute; reflexivity|].
  split; [vm_compute; reflexivity|]. split; [vm_compute; discriminate|]. split; [vm_compute; reflexivity|]. split; [vm_compute; discriminate|]. split; [vm_compute; discriminate|].
  split; [eapply lived_told; vm_compute; reflexivity|]. vm_compute. split; reflexivity.
Qed.
