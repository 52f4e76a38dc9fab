(** * C101: fixing several paths at once *)
From Coq Require Import String List NArith ZArith Bool Arith Lia.
From Verif Require Import Base PyStr Ftypes Paths Config Suppress Cst Engine EngineProps Batch Api ApiSpec ApiFacts ApiProps ApiPaths System SystemSpec SystemSame
  Cli CliSpec CliFacts CliProps InputProps SeveralProps DiskSpec DiskProps.
Import ListNotations.

(** ** Specification *)

(** On a disk with the files [F] that only the command changes, it prints [ls] and then a summary, returns 0 and leaves [F']; no write fails. *)
Definition leaves (F : fs) (c : cmd N) (ls : list (stream * str)) (F' : fs) : Prop :=
  exists vs summary, crun c vs (Returned 0%N) /\ leads F (effects vs) F' /\ (forall q t w, In (VWrite q t w) vs -> w = Ok tt) /\ lines vs = ls ++ [summary].

(** Fixing the paths one after another *)
Inductive in_turn (fix1 : path -> cmd N) : fs -> list path -> list (stream * str) -> fs -> Prop :=
| it_end : forall F, in_turn fix1 F [] [] F
| it_step : forall F p ps l F1 ls F2, leaves F (fix1 p) l F1 -> in_turn fix1 F1 ps ls F2 -> in_turn fix1 F (p :: ps) (l ++ ls) F2.

(** Which files are below a path depends on which files and directories there are, not on what is in them. *)
Definition names_only (walk : fs -> path -> res (list path)) : Prop :=
  forall F G p, (forall q, f_isdir G q = f_isdir F q) -> (forall q, f_file G q = None <-> f_file F q = None) -> walk G p = walk F p.

(** ** Proofs *)

Definition alike (qs : list path) (F G : fs) : Prop :=
  (forall q, f_isdir G q = f_isdir F q) /\ (forall q, f_file G q <> f_file F q -> In q qs) /\ (forall q, f_file G q = None <-> f_file F q = None).

Lemma alike_refl : forall qs F, alike qs F F.
Proof. intros. repeat split; auto. intros q H. now contradiction H. Qed.
Lemma alike_trans : forall qs F G H, alike qs F G -> alike qs G H -> alike qs F H.
Proof.
  intros qs F G H (A1 & A2 & A3) (B1 & B2 & B3). split; [|split].
  - intro q. now rewrite B1.
  - intros q N. destruct (list_eq_dec (list_eq_dec (list_eq_dec N.eq_dec)) [q] [q]); [|congruence].
    destruct (f_file G q) as [a|] eqn:EG, (f_file F q) as [b|] eqn:EF.
    + destruct (list_eq_dec N.eq_dec a b) as [->|Ne]; [apply B2; congruence|apply A2; congruence].
    + apply A2. congruence.
    + apply A2. congruence.
    + apply B2. congruence.
  - intro q. rewrite B3. apply A3.
Qed.
Lemma alike_more : forall qs rs F G, (forall q, In q qs -> In q rs) -> alike qs F G -> alike rs F G.
Proof. intros qs rs F G H (A & B & C). repeat split; auto; apply C. Qed.

(** The loop of the command, as for lint *)
Definition fix_summed (t : tally) (xs : list result) : tally := fold_left (fun t x => fix_tally true t x (dirty x)) xs t.
Definition fix_last (t : tally) : stream * str := splash (l_visited t) (l_dirty t) (l_autofixes t) (l_fixed t).

Lemma fix_summed_exit : forall xs t, l_exit (fix_summed t xs) = l_exit t.
Proof. induction xs as [|x xs IH]; intro t; [reflexivity|]. unfold fix_summed in *. cbn [fold_left]. rewrite IH. unfold fix_tally. destruct (dirty x); reflexivity. Qed.

Lemma fix_steps : forall K diff cfg g t vs c, crun (fix_loop K false diff false cfg g t) vs (Returned c) <->
  exists vs0 xs, steps K diff cfg g vs0 xs /\ vs = vs0 ++ [VPrint (fst (fix_last (fix_summed t xs))) (snd (fix_last (fix_summed t xs)))] /\ c = l_exit t.
Proof.
  intros K diff cfg g. induction g as [r|e|x k IH|k IH|q c0 k IH|k IH|c0 k IH|m k IH]; intros t vs c; cbn [fix_loop].
  - split.
    + intro H. apply print_all_ends in H. destruct H as (vs2 & -> & H). inversion H; subst. exists [], []. split; [constructor|]. split; reflexivity.
    + intros (vs0 & xs & H & -> & ->). inversion H; subst. apply print_all_ends. eexists. split; [|constructor]. reflexivity.
  - split; intro H; [inversion H|]. destruct H as (vs0 & xs & H & _). inversion H.
  - cbn [orb andb]. destruct (print_result K x diff false (c_format cfg) (c_template cfg)) as [[ls d]|e] eqn:E.
    + pose proof (printed_dirty _ _ _ _ _ _ _ _ E) as ->. cbn [negb]. split.
      * intro H. apply print_all_ends in H. destruct H as (vs2 & -> & H). apply IH in H. destruct H as (vs0 & xs & H & -> & ->).
        exists (map (fun l => VPrint (fst l) (snd l)) ls ++ vs0), (x :: xs). split; [econstructor; eauto|]. rewrite <- !app_assoc. split; [reflexivity|].
        unfold fix_tally. destruct (dirty x); reflexivity.
      * intros (vs0 & xs & H & -> & ->). inversion H as [|? ? ls' d' vs1 xs1 E' H1| | | | |]; subst. rewrite E in E'. injection E' as <- _.
        apply print_all_ends. rewrite <- app_assoc. eexists. split; [reflexivity|]. apply IH. exists vs1, xs1. split; auto. split; [reflexivity|].
        unfold fix_tally. destruct (dirty x); reflexivity.
    + split; intro H; [inversion H|]. destruct H as (vs0 & xs & H & _). inversion H; congruence.
  - split.
    + intro H. inversion H; subst. match goal with H : crun _ _ _ |- _ => apply IH in H; destruct H as (vs9 & xs9 & H9 & -> & ->) end. eexists (_ :: vs9), xs9. split; [constructor; exact H9|auto].
    + intros (vs0 & xs & H & -> & ->). inversion H; subst. constructor. apply IH. eauto.
  - split.
    + intro H. inversion H; subst. match goal with H : crun _ _ _ |- _ => apply IH in H; destruct H as (vs9 & xs9 & H9 & -> & ->) end. eexists (_ :: vs9), xs9. split; [constructor; exact H9|auto].
    + intros (vs0 & xs & H & -> & ->). inversion H; subst. constructor. apply IH. eauto.
  - split.
    + intro H. inversion H; subst. match goal with H : crun _ _ _ |- _ => apply IH in H; destruct H as (vs9 & xs9 & H9 & -> & ->) end. eexists (_ :: vs9), xs9. split; [constructor; exact H9|auto].
    + intros (vs0 & xs & H & -> & ->). inversion H; subst. constructor. apply IH. eauto.
  - split.
    + intro H. inversion H; subst. match goal with H : crun _ _ _ |- _ => apply IH in H; destruct H as (vs9 & xs9 & H9 & -> & ->) end. eexists (_ :: vs9), xs9. split; [constructor; exact H9|auto].
    + intros (vs0 & xs & H & -> & ->). inversion H; subst. constructor. apply IH. eauto.
  - split.
    + intro H. inversion H; subst. match goal with H : crun _ _ _ |- _ => apply IH in H; destruct H as (vs9 & xs9 & H9 & -> & ->) end. eexists (_ :: vs9), xs9. split; [constructor; exact H9|auto].
    + intros (vs0 & xs & H & -> & ->). inversion H; subst. constructor. apply IH. eauto.
Qed.

Lemma effects_app : forall a b, effects (a ++ b) = effects a ++ effects b.
Proof. intros. apply flat_map_app. Qed.
Lemma effects_printed : forall (ls : list (stream * str)), effects (map (fun l => VPrint (fst l) (snd l)) ls) = [].
Proof. induction ls as [|l ls IH]; auto. Qed.

Lemma steps_run : forall K diff cfg g vs xs, steps K diff cfg g vs xs -> exists es, run g es (Returned tt) /\ effects vs = api_effects es.
Proof.
  intros K diff cfg g vs xs H. induction H as [r|x k ls d vs xs E H (es & R & Ef)|k F vs xs H (es & R & Ef)|p c k w vs xs H (es & R & Ef)|k i vs xs H (es & R & Ef)|c k w vs xs H (es & R & Ef)|m k vs xs H (es & R & Ef)].
  - exists []. destruct r. split; [constructor|reflexivity].
  - exists (EGive x None :: es). split; [now constructor|]. rewrite effects_app, effects_printed. exact Ef.
  - exists (ELook F :: es). split; [now constructor|]. cbn [effects flat_map app api_effects filter]. f_equal. exact Ef.
  - exists (EWrite p c w :: es). split; [now constructor|]. cbn [effects flat_map app api_effects filter]. f_equal. exact Ef.
  - exists (EIn i :: es). split; [now constructor|]. cbn [effects flat_map app api_effects filter]. f_equal. exact Ef.
  - exists (EOut c w :: es). split; [now constructor|]. cbn [effects flat_map app api_effects filter]. f_equal. exact Ef.
  - exists (ECall m (Ok tt) :: es). split; [now constructor|]. exact Ef.
Qed.

Lemma file_alike : forall K diff cfg T p autofix opts hook vs xs F F', steps K diff cfg (fixit_file T p autofix opts hook) vs xs -> leads F (effects vs) F' ->
  (forall q t w, In (VWrite q t w) vs -> w = Ok tt) -> alike [p] F F'.
Proof.
  intros K diff cfg T p autofix opts hook vs xs F F' H L W. destruct (steps_run _ _ _ _ _ _ H) as (es & R & Ef).
  rewrite Ef in L. apply (proj1 (leads_effects _ _ _)) in L.
  assert (W' : forall q t w, In (EWrite q t w) es -> w = Ok tt).
  { intros q t w I. apply (W q t). assert (I' : In (EWrite q t w) (effects vs)) by (rewrite Ef; unfold api_effects; apply filter_In; auto).
    unfold effects in I'. apply in_flat_map in I'. destruct I' as (v & I' & J). destruct v; cbn in J; try contradiction; destruct J as [J|[]]; try discriminate. injection J as -> -> ->. exact I'. }
  destruct (file_leads _ _ _ _ _ _ _ _ _ R L) as [Lk [[_ ->]|(c & w & Wr & Al & Or)]]; [apply alike_refl|].
  assert (Ex : exists content, f_file F p = Some content).
  { destruct (C31_writes _ _ _ _ _ _ _ R) as (_ & _ & [X|(Fa & content & F1 & cf & es1 & c' & w' & es2 & acc & -> & Rd & _)]); [congruence|].
    exists content. rewrite <- (Lk Fa); auto. unfold looks. simpl. auto. }
  assert (w = Ok tt).
  { assert (I : In (p, c) (written es)) by (rewrite Wr; left; reflexivity). assert (J : exists w0, In (EWrite p c w0) es).
    { clear - I. induction es as [|e es IH]; [contradiction|].
      destruct e; cbn [written] in I; try (destruct (IH I) as (w0 & J); exists w0; right; exact J).
      destruct I as [I|I]; [injection I as -> ->; eexists; left; reflexivity|]. destruct (IH I) as (w0 & J); exists w0; right; exact J. }
    destruct J as (w0 & J). rewrite <- (Al _ _ _ J). eapply W'. exact J. }
  destruct Or as [[_ ->]|(e & x & Ew & _)]; [|congruence]. destruct Ex as (content & Ex). split; [reflexivity|split].
  - intros q N. cbn [put f_file] in N. destruct (path_eqb q p) eqn:E; [|now contradiction N]. apply path_eqb_eq in E. left. auto.
  - intro q. cbn [put f_file]. destruct (path_eqb q p) eqn:E; [|reflexivity]. apply path_eqb_eq in E. subst q. rewrite Ex. split; discriminate.
Qed.

Lemma alike_config : forall E qs F G p opts, alike qs F G -> (forall q, In q qs -> ~ is_config opts q) -> generate_config E G p None opts = generate_config E F p None opts.
Proof.
  intros E qs F G p opts (D1 & D2 & _) Nc. apply config_same; auto. intros q Cq. destruct (f_file G q) as [a|] eqn:E1, (f_file F q) as [b|] eqn:E2; auto.
  - destruct (list_eq_dec N.eq_dec a b) as [->|Ne_]; auto. destruct (Nc q); auto. apply D2. congruence.
  - destruct (Nc q); auto. apply D2. congruence.
  - destruct (Nc q); auto. apply D2. congruence.
Qed.

Lemma serial_alike : forall K diff cfg T autofix opts hook ps vs xs F F', steps K diff cfg (serial T ps autofix opts hook) vs xs -> leads F (effects vs) F' ->
  (forall q t w, In (VWrite q t w) vs -> w = Ok tt) -> alike ps F F'.
Proof.
  intros K diff cfg T autofix opts hook ps. induction ps as [|p ps IH]; intros vs xs F F' H L W; cbn [serial] in H.
  - inversion H; subst. inversion L; subst. apply alike_refl.
  - apply steps_bind in H. destruct H as (vs1 & xs1 & vs2 & xs2 & H1 & H2 & -> & ->). rewrite effects_app in L. apply leads_app in L. destruct L as (G & L1 & L2).
    eapply alike_trans.
    + eapply alike_more; [|eapply file_alike; [exact H1|exact L1|intros q t w I; eapply W; apply in_or_app; left; exact I]]. intros q [<-|[]]. left. reflexivity.
    + eapply alike_more; [|eapply IH; [exact H2|exact L2|intros q t w I; eapply W; apply in_or_app; right; exact I]]. intros q I. right. exact I.
Qed.

Opaque make_plan.

Lemma fix_leaves : forall K T d opts m diff F p ps ls F', leaves F (fix_ K T d opts m false diff (map PathArg (p :: ps))) ls F' <->
  exists cfg found vs xs, generate_config (t_env T) F (k_cwd K) None (Some opts) = Ok cfg /\ map_res (t_walk T F) (p :: ps) = Ok found /\
    steps K diff cfg (serial T (concat found) true (Some opts) m) vs xs /\ leads F (effects vs) F' /\ (forall q t w, In (VWrite q t w) vs -> w = Ok tt) /\ ls = lines vs.
Proof.
  intros K T d opts m diff F p ps ls F'. unfold leaves, fix_. cbn [map or_cwd first_is_dash andb negb].
  assert (Nm : flat_map named (map PathArg ps) = ps) by (induction ps as [|q ps IH]; [reflexivity|]; cbn [map flat_map named app]; now rewrite IH).
  split.
  - intros (vs & s & H & L & W & Li). inversion H as [| | | | |? F0 vs0 ? H0| | |]; subst.
    change (effects (VLook F0 :: vs0)) with (ELook F0 :: effects vs0) in L.
    inversion L as [|? ? ? L1| | |? ? ? ? X]; subst; [|contradiction].
    destruct (generate_config (t_env T) F0 (k_cwd K) None (Some opts)) as [cfg|e]; [|inversion H0].
    apply (fix_steps K diff cfg (fixit_paths_serial T d (PathArg p :: map PathArg ps) true (Some opts) m)) in H0. destruct H0 as (vs1 & xs & H1 & -> & _). unfold fixit_paths_serial in H1.
    inversion H1 as [| |? F1 vs2 ? H2| | | |]; subst. change (effects ((VLook F1 :: vs2) ++ [VPrint (fst (fix_last (fix_summed no_tally xs))) (snd (fix_last (fix_summed no_tally xs)))])) with
      (ELook F1 :: effects (vs2 ++ [VPrint (fst (fix_last (fix_summed no_tally xs))) (snd (fix_last (fix_summed no_tally xs)))])) in L1.
    rewrite effects_app in L1. change (effects [VPrint _ _]) with (@nil ev) in L1. rewrite app_nil_r in L1.
    inversion L1 as [|? ? ? L2| | |? ? ? ? X]; subst; [|contradiction]. rewrite C34_files, Nm in H2.
    destruct (map_res (t_walk T F1) (p :: ps)) as [found|e]; cbn [bind lift] in H2; [|inversion H2].
    exists cfg, found, vs2, xs. cbn [negb] in H2. rewrite orb_true_r in H2. repeat split; auto.
    + intros q t w I. apply (W q t). right. right. apply in_or_app. auto.
    + change (lines ((VLook F1 :: VLook F1 :: vs2) ++ [VPrint (fst (fix_last (fix_summed no_tally xs))) (snd (fix_last (fix_summed no_tally xs)))]) = ls ++ [s]) in Li.
      rewrite lines_app in Li. cbn [lines flat_map app] in Li. apply app_inj_tail in Li. destruct Li as [<- _]. reflexivity.
  - intros (cfg & found & vs & xs & G & Wk & H & L & W & ->). set (s := fix_last (fix_summed no_tally xs)).
    exists (VLook F :: VLook F :: vs ++ [VPrint (fst s) (snd s)]), (fst s, snd s). split; [|split; [|split]].
    + constructor. rewrite G. apply (fix_steps K diff cfg (fixit_paths_serial T d (PathArg p :: map PathArg ps) true (Some opts) m)). exists (VLook F :: vs), xs. split; [|auto].
      unfold fixit_paths_serial. constructor. rewrite C34_files, Nm, Wk. cbn [bind lift negb]. rewrite orb_true_r. exact H.
    + change (leads F (ELook F :: ELook F :: effects (vs ++ [VPrint (fst s) (snd s)])) F'). rewrite effects_app. change (effects [VPrint _ _]) with (@nil ev). rewrite app_nil_r. now do 2 constructor.
    + intros q t w [X|[X|I]]; try discriminate. apply in_app_iff in I. destruct I as [I|[X|[]]]; [eapply W; exact I|discriminate].
    + change (lines ((VLook F :: VLook F :: vs) ++ [VPrint (fst s) (snd s)]) = lines vs ++ [(fst s, snd s)]). rewrite lines_app. reflexivity.
Qed.

Lemma walks_alike : forall T qs F G ps, names_only (t_walk T) -> alike qs F G -> map_res (t_walk T G) ps = map_res (t_walk T F) ps.
Proof. intros T qs F G ps Nw (A & _ & B). induction ps as [|p ps IH]; [reflexivity|]. cbn [map_res]. rewrite IH, (Nw F G p); auto. Qed.

(** ** C101 *)

(** Fixing several paths prints, in the order of the paths and with one summary at the end, what fixing them one after another prints, and leaves the same files -
    unless a file that is fixed is a configuration file. *)
Theorem C101_each : forall K T d opts m diff F ps found ls F', ps <> [] -> names_only (t_walk T) ->
  map_res (t_walk T F) ps = Ok found -> (forall q, In q (concat found) -> ~ is_config (Some opts) q) ->
  (leaves F (fix_ K T d opts m false diff (map PathArg ps)) ls F' <-> in_turn (fun p => fix_ K T d opts m false diff [PathArg p]) F ps ls F').
Proof.
  intros K T d opts m diff F ps found ls F' Ne Nw. revert F found ls Ne. induction ps as [|p ps IH]; [congruence|]. intros F found ls _ Wk Nc.
  apply map_res_cons in Wk. destruct Wk as (f1 & f2 & Wk1 & Wk2 & ->). cbn [concat] in Nc.
  destruct ps as [|q ps].
  - split.
    + intro H. rewrite <- (app_nil_r ls). econstructor; [exact H|constructor].
    + intro H. inversion H as [|? ? ? l F1 l2 ? H1 H2]; subst. inversion H2; subst. rewrite app_nil_r. exact H1.
  - assert (Two : leaves F (fix_ K T d opts m false diff (map PathArg (p :: q :: ps))) ls F' <->
      exists l1 l2 F1, leaves F (fix_ K T d opts m false diff [PathArg p]) l1 F1 /\ leaves F1 (fix_ K T d opts m false diff (map PathArg (q :: ps))) l2 F' /\ ls = l1 ++ l2 /\ alike f1 F F1).
    { rewrite fix_leaves. split.
      - intros (cfg & fd & vs & xs & G & Wk & H & L & W & ->). apply map_res_cons in Wk. destruct Wk as (g1 & g2 & X1 & X2 & ->).
        rewrite Wk1 in X1. injection X1 as <-. rewrite Wk2 in X2. injection X2 as <-. cbn [concat] in H.
        apply steps_serial in H. destruct H as (vs1 & xs1 & vs2 & xs2 & H1 & H2 & -> & ->). rewrite effects_app in L. apply leads_app in L. destruct L as (F1 & L1 & L2).
        assert (W1 : forall q0 t w, In (VWrite q0 t w) vs1 -> w = Ok tt) by (intros q0 t w I; eapply W; apply in_or_app; left; exact I).
        assert (W2 : forall q0 t w, In (VWrite q0 t w) vs2 -> w = Ok tt) by (intros q0 t w I; eapply W; apply in_or_app; right; exact I).
        pose proof (serial_alike _ _ _ _ _ _ _ _ _ _ _ _ H1 L1 W1) as Al.
        exists (lines vs1), (lines vs2), F1. split; [|split; [|split; [apply lines_app|exact Al]]].
        + apply (fix_leaves K T d opts m diff F p []). exists cfg, [f1], vs1, xs1. cbn [concat]. rewrite app_nil_r. repeat split; auto. apply map_res_cons. exists f1, []. auto.
        + apply fix_leaves. exists cfg, f2, vs2, xs2. rewrite (walks_alike T f1 F F1) by auto. repeat split; auto.
          rewrite (alike_config _ f1 F F1); auto. intros q0 I. apply Nc. apply in_or_app. auto.
      - intros (l1 & l2 & F1 & H1 & H2 & -> & Al). apply (fix_leaves K T d opts m diff F p []) in H1. apply fix_leaves in H2.
        destruct H1 as (cfg & fd & vs1 & xs1 & G & Wk & H1 & L1 & W1 & ->), H2 as (cfg2 & fd2 & vs2 & xs2 & G2 & Wkb & H2 & L2 & W2 & ->).
        rewrite (walks_alike T f1 F F1), Wk2 in Wkb by auto. injection Wkb as <-.
        rewrite (alike_config _ f1 F F1) in G2; auto; [|intros q0 I; apply Nc; apply in_or_app; auto]. assert (cfg2 = cfg) as -> by congruence.
        apply map_res_cons in Wk. destruct Wk as (g1 & g0 & X1 & X0 & ->). injection X0 as <-. rewrite Wk1 in X1. injection X1 as <-. cbn [concat] in H1. rewrite app_nil_r in H1.
        exists cfg, (f1 :: f2), (vs1 ++ vs2), (xs1 ++ xs2). rewrite lines_app, effects_app. repeat split; auto.
        + apply map_res_cons. eauto.
        + cbn [concat]. apply steps_serial. eauto 8.
        + apply leads_app. eauto.
        + intros q0 t w I. apply in_app_iff in I. destruct I as [I|I]; [eapply W1|eapply W2]; exact I. }
    assert (Alk : forall l1 F1, leaves F (fix_ K T d opts m false diff [PathArg p]) l1 F1 -> alike f1 F F1).
    { intros l1 F1 H1. apply (fix_leaves K T d opts m diff F p []) in H1. destruct H1 as (cfg & fd & vs1 & xs1 & G & Wk & H1 & L1 & W1 & ->).
      apply map_res_cons in Wk. destruct Wk as (g1 & g0 & X1 & X0 & ->). injection X0 as <-. rewrite Wk1 in X1. injection X1 as <-. cbn [concat] in H1. rewrite app_nil_r in H1.
      eapply serial_alike; eauto. }
    assert (Rec : forall F1 l2, alike f1 F F1 -> (leaves F1 (fix_ K T d opts m false diff (map PathArg (q :: ps))) l2 F' <-> in_turn (fun p => fix_ K T d opts m false diff [PathArg p]) F1 (q :: ps) l2 F')).
    { intros F1 l2 Al. apply (IH F1 f2); [discriminate|rewrite (walks_alike T f1 F F1); auto|]. intros q0 I. apply Nc. apply in_or_app. auto. }
    rewrite Two. split.
    + intros (l1 & l2 & F1 & H1 & H2 & -> & Al). econstructor; [exact H1|]. now apply Rec.
    + intro H. inversion H as [|? ? ? l1 F1 l2 ? H1 H2]; subst. pose proof (Alk _ _ H1) as Al. exists l1, l2, F1. repeat split; auto; try apply Al. now apply Rec.
Qed.


(** ** The claims are not vacuous *)

Definition ex_other : path := [u "d"; u "b.py"].
Definition ex_F2 : fs := put ex_F ex_other (Some (code ex_module)).
Definition ex_fix_tool : tool := ex_tool false ex_rules.

Transparent make_plan fixit_bytes.
Lemma lived : forall (c : cmd N) F vs F' ls s, live c F [] = (vs, Returned 0%N, F') -> lines vs = ls ++ [s] ->
  forallb (fun v => match v with VWrite _ _ (Err _) => false | _ => true end) vs = true -> leaves F c ls F'.
Proof.
  intros c F vs F' ls s H L W. destruct (live_run _ _ _ _ _ _ _ H) as [R Ld]. exists vs, s. repeat split; auto.
  intros q t w I. rewrite forallb_forall in W. apply W in I. destruct w as [[]|]; [reflexivity|discriminate].
Qed.

Example C101_example : exists l1 l2 F1 F2,
  names_only (t_walk ex_fix_tool) /\ map_res (t_walk ex_fix_tool ex_F2) [ex_file; ex_other] = Ok [[ex_file]; [ex_other]] /\
  (forall q, In q (concat [[ex_file]; [ex_other]]) -> ~ is_config (Some ex_opts) q) /\
  leaves ex_F2 (ex_fix false false false [PathArg ex_file]) l1 F1 /\ leaves F1 (ex_fix false false false [PathArg ex_other]) l2 F2 /\
  leaves ex_F2 (ex_fix false false false [PathArg ex_file; PathArg ex_other]) (l1 ++ l2) F2 /\
  List.length l1 = 3 /\ List.length l2 = 3 /\
  f_file F1 ex_file = Some (u "x = f(99, 2)" ++ nl) /\ f_file F1 ex_other = f_file ex_F2 ex_other /\
  f_file F2 ex_file = Some (u "x = f(99, 2)" ++ nl) /\ f_file F2 ex_other = Some (u "x = f(99, 2)" ++ nl).
Proof.
  pose (F1 := put ex_F2 ex_file (Some (u "x = f(99, 2)" ++ nl))). pose (F2 := put F1 ex_other (Some (u "x = f(99, 2)" ++ nl))).
  pose (r1 := live (ex_fix false false false [PathArg ex_file]) ex_F2 []). pose (r2 := live (ex_fix false false false [PathArg ex_other]) F1 []).
  exists (removelast (lines (fst (fst r1)))), (removelast (lines (fst (fst r2)))), F1, F2.
  split; [intros F G p _ _; reflexivity|]. split; [reflexivity|]. split.
  { intros q I [(dd & n & -> & N)|(o & f & E & Ef & _)].
    - cbn [concat app] in I. destruct I as [I|[I|[]]]; apply (f_equal (@rev str)) in I; rewrite rev_app_distr in I; cbn in I; injection I as <- _; vm_compute in N; intuition discriminate.
    - injection E as <-. discriminate. }
  split; [eapply lived; vm_compute; reflexivity|]. split; [eapply lived; vm_compute; reflexivity|]. split; [eapply lived; vm_compute; reflexivity|].
  vm_compute. repeat split.
Qed.
