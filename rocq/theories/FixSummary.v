(** * C110: the summary of fixing several paths *)
From Coq Require Import String List NArith ZArith Bool Arith Lia Permutation.
From Verif Require Import Base PyStr Ftypes Paths Config Suppress Cst Engine EngineProps Batch Api ApiSpec ApiFacts ApiProps ApiPaths System SystemSpec SystemSame
  Cli CliSpec CliFacts CliProps InputProps SeveralProps DiskSpec DiskProps SeveralFix SummaryProps.
Import ListNotations.

(** ** Specification *)

(** On a disk with the files [F] that only the command changes, it succeeds with [s] as the last line it prints and leaves [F']; no write fails. *)
Definition finishes (F : fs) (c : cmd N) (s : stream * str) (F' : fs) : Prop :=
  exists vs ls, crun c vs (Returned 0%N) /\ leads F (effects vs) F' /\ (forall q t w, In (VWrite q t w) vs -> w = Ok tt) /\ lines vs = ls ++ [s].

(** Fixing the paths one after another *)
Inductive summaries (fix1 : path -> cmd N) : fs -> list path -> list (stream * str) -> fs -> Prop :=
| su_end : forall F, summaries fix1 F [] [] F
| su_step : forall F p ps s F1 each F2, finishes F (fix1 p) s F1 -> summaries fix1 F1 ps each F2 -> summaries fix1 F (p :: ps) (s :: each) F2.

(** "🛠️  3 files checked, 2 files with errors, 4 auto-fixes available, 4 fixes applied 🛠️": as many fixes are applied as are available. *)
Definition tells_fixes (s : stream * str) (n : counts) : Prop :=
  s = (Diag, summary (n_checked n) (n_errors n) (n_available n) (n_available n)) /\ n_errors n <= n_checked n /\ (n_errors n = 0 -> n_available n = 0).

(** ** Proofs *)

Lemma fix_like_lint : forall xs, let t := fix_summed no_tally xs in let t' := lint_state xs in
  l_visited t = l_visited t' /\ l_dirty t = l_dirty t' /\ l_autofixes t = l_autofixes t' /\ l_fixed t = l_autofixes t'.
Proof.
  induction xs as [|x xs IH] using rev_ind; [repeat split|]. cbn zeta in *. destruct IH as (A & B & C & D).
  unfold fix_summed, lint_state in *. rewrite !fold_left_app. cbn [fold_left]. unfold fix_tally at 1 3 5 7. unfold lint_tally at 1 3 5 7.
  destruct (dirty x); cbn [andb l_visited l_dirty l_autofixes l_fixed]; rewrite ?A, ?B, ?C, ?D; repeat split; destruct (is_fixable x); reflexivity.
Qed.

Lemma fix_tells : forall xs, tells_fixes (fix_last (fix_summed no_tally xs)) (counted xs).
Proof.
  intro xs. destruct (summed_tells xs) as (_ & B & C). split; [|auto]. unfold fix_last. destruct (fix_like_lint xs) as (E1 & E2 & E3 & E4).
  rewrite E1, E2, E3, E4. destruct (lint_state_spec xs) as (L1 & L2 & L3 & _). now rewrite splash_summary, L1, L2, L3.
Qed.

Opaque make_plan.
Lemma fix_says : forall K T d opts m diff F p ps s F', finishes F (fix_ K T d opts m false diff (map PathArg (p :: ps))) s F' <->
  exists cfg found vs xs, generate_config (t_env T) F (k_cwd K) None (Some opts) = Ok cfg /\ map_res (t_walk T F) (p :: ps) = Ok found /\
    steps K diff cfg (serial T (concat found) true (Some opts) m) vs xs /\ leads F (effects vs) F' /\ (forall q t w, In (VWrite q t w) vs -> w = Ok tt) /\ s = fix_last (fix_summed no_tally xs).
Proof.
  intros K T d opts m diff F p ps s F'. unfold finishes, fix_. cbn [map or_cwd first_is_dash andb negb].
  assert (Nm : flat_map named (map PathArg ps) = ps) by (induction ps as [|q ps IH]; [reflexivity|]; cbn [map flat_map named app]; now rewrite IH).
  split.
  - intros (vs & ls & H & L & W & Li). inversion H as [| | | | |? F0 vs0 ? H0| | |]; subst.
    change (effects (VLook F0 :: vs0)) with (ELook F0 :: effects vs0) in L.
    inversion L as [|? ? ? L1| | |? ? ? ? X]; subst; [|contradiction].
    destruct (generate_config (t_env T) F0 (k_cwd K) None (Some opts)) as [cfg|e]; [|inversion H0].
    apply (fix_steps K diff cfg (fixit_paths_serial T d (PathArg p :: map PathArg ps) true (Some opts) m)) in H0. destruct H0 as (vs1 & xs & H1 & -> & _). unfold fixit_paths_serial in H1.
    inversion H1 as [| |? F1 vs2 ? H2| | | |]; subst. change (effects ((VLook F1 :: vs2) ++ [VPrint (fst (fix_last (fix_summed no_tally xs))) (snd (fix_last (fix_summed no_tally xs)))])) with
      (ELook F1 :: effects (vs2 ++ [VPrint (fst (fix_last (fix_summed no_tally xs))) (snd (fix_last (fix_summed no_tally xs)))])) in L1.
    rewrite effects_app in L1. change (effects [VPrint _ _]) with (@nil ev) in L1. rewrite app_nil_r in L1.
    inversion L1 as [|? ? ? L2| | |? ? ? ? X]; subst; [|contradiction]. rewrite C34_files, Nm in H2.
    destruct (map_res (t_walk T F1) (p :: ps)) as [found|e]; cbn [bind lift] in H2; [|inversion H2].
    exists cfg, found, vs2, xs. cbn [negb] in H2. rewrite orb_true_r in H2. repeat split; auto.
    + intros q t w I. apply (W q t). right. right. apply in_or_app. auto.
    + change (lines ((VLook F1 :: VLook F1 :: vs2) ++ [VPrint (fst (fix_last (fix_summed no_tally xs))) (snd (fix_last (fix_summed no_tally xs)))]) = ls ++ [s]) in Li.
      rewrite lines_app in Li. cbn [lines flat_map app] in Li. apply app_inj_tail in Li. destruct Li as [_ <-]. destruct (fix_last (fix_summed no_tally xs)). reflexivity.
  - intros (cfg & found & vs & xs & G & Wk & H & L & W & ->). set (s := fix_last (fix_summed no_tally xs)).
    exists (VLook F :: VLook F :: vs ++ [VPrint (fst s) (snd s)]), (lines vs). split; [|split; [|split]].
    + constructor. rewrite G. apply (fix_steps K diff cfg (fixit_paths_serial T d (PathArg p :: map PathArg ps) true (Some opts) m)). exists (VLook F :: vs), xs. split; [|auto].
      unfold fixit_paths_serial. constructor. rewrite C34_files, Nm, Wk. cbn [bind lift negb]. rewrite orb_true_r. exact H.
    + change (leads F (ELook F :: ELook F :: effects (vs ++ [VPrint (fst s) (snd s)])) F'). rewrite effects_app. change (effects [VPrint _ _]) with (@nil ev). rewrite app_nil_r. now do 2 constructor.
    + intros q t w [X|[X|I]]; try discriminate. apply in_app_iff in I. destruct I as [I|[X|[]]]; [eapply W; exact I|discriminate].
    + change (lines ((VLook F :: VLook F :: vs) ++ [VPrint (fst s) (snd s)]) = lines vs ++ [s]). rewrite lines_app. f_equal. cbn. destruct s. reflexivity.
Qed.

Lemma disjoint_parts : forall (f1 : list path) f2, NoDup (f1 ++ f2) -> NoDup f2 /\ forall p, In p f1 -> ~ In p f2.
Proof.
  intros f1 f2 Nd. induction f1 as [|q f1 IH]; [split; [exact Nd|intros p []]|]. cbn [app] in Nd. inversion Nd as [|? ? Nq N']; subst. destruct (IH N') as [A B]. split; [exact A|].
  intros p [<-|I]; [|auto]. intro J. apply Nq. apply in_or_app. auto.
Qed.

(** What is done for the files of all paths, and what for those of one path after another *)
Lemma parts : forall K T d opts m diff cfg ps F found F', names_only (t_walk T) ->
  map_res (t_walk T F) ps = Ok found -> NoDup (concat found) -> (forall q, In q (concat found) -> ~ is_config (Some opts) q) ->
  generate_config (t_env T) F (k_cwd K) None (Some opts) = Ok cfg ->
  (forall vs xs, steps K diff cfg (serial T (concat found) true (Some opts) m) vs xs -> leads F (effects vs) F' -> (forall q t w, In (VWrite q t w) vs -> w = Ok tt) ->
    exists each ns, summaries (fun p => fix_ K T d opts m false diff [PathArg p]) F ps each F' /\ Forall2 tells_fixes each ns /\ counted xs = fold_right plus_counts (Counts 0 0 0) ns) /\
  (forall each, summaries (fun p => fix_ K T d opts m false diff [PathArg p]) F ps each F' ->
    exists ns vs xs, steps K diff cfg (serial T (concat found) true (Some opts) m) vs xs /\ leads F (effects vs) F' /\ (forall q t w, In (VWrite q t w) vs -> w = Ok tt) /\
      Forall2 tells_fixes each ns /\ counted xs = fold_right plus_counts (Counts 0 0 0) ns).
Proof.
  intros K T d opts m diff cfg ps. induction ps as [|p ps IH]; intros F found F' Nw Wk Nd Nc G.
  - injection Wk as <-. split.
    + intros vs xs H L W. inversion H; subst. inversion L; subst. exists [], []. repeat split; constructor.
    + intros each H. inversion H; subst. exists [], [], []. split; [constructor|]. split; [constructor|]. split; [intros q t w []|]. split; [constructor|reflexivity].
  - apply map_res_cons in Wk. destruct Wk as (f1 & f2 & W1 & W2 & ->). cbn [concat] in Nd, Nc |- *. destruct (disjoint_parts _ _ Nd) as [N2 Dj].
    assert (Rest : forall F1, alike f1 F F1 -> map_res (t_walk T F1) ps = Ok f2 /\ generate_config (t_env T) F1 (k_cwd K) None (Some opts) = Ok cfg).
    { intros F1 Al. split; [now rewrite (walks_alike T f1 F F1)|]. rewrite (alike_config _ f1 F F1); auto. intros q I. apply Nc. apply in_or_app. auto. }
    assert (Nc2 : forall q, In q (concat f2) -> ~ is_config (Some opts) q) by (intros q I; apply Nc; apply in_or_app; auto).
    split.
    + intros vs xs H L W. apply steps_serial in H. destruct H as (vs1 & xs1 & vs2 & xs2 & H1 & H2 & -> & ->). rewrite effects_app in L. apply leads_app in L. destruct L as (F1 & L1 & L2).
      assert (V1 : forall q0 t w, In (VWrite q0 t w) vs1 -> w = Ok tt) by (intros q0 t w I; eapply W; apply in_or_app; left; exact I).
      assert (V2 : forall q0 t w, In (VWrite q0 t w) vs2 -> w = Ok tt) by (intros q0 t w I; eapply W; apply in_or_app; right; exact I).
      destruct (Rest F1 (serial_alike _ _ _ _ _ _ _ _ _ _ _ _ H1 L1 V1)) as [Wk1 G1].
      destruct (IH F1 f2 F' Nw Wk1 N2 Nc2 G1) as [Fwd _]. destruct (Fwd _ _ H2 L2 V2) as (each & ns & Su & Fa & Eq).
      exists (fix_last (fix_summed no_tally xs1) :: each), (counted xs1 :: ns). split; [|split; [constructor; [apply fix_tells|exact Fa]|]].
      * econstructor; [|exact Su]. apply (fix_says K T d opts m diff F p []). exists cfg, [f1], vs1, xs1. cbn [concat]. rewrite app_nil_r. repeat split; auto. apply map_res_cons. exists f1, []. auto.
      * cbn [fold_right]. rewrite <- Eq. apply counted_app. intros x y I J E. apply (serial_paths _ _ _ _ _ _ _ _ _ _ H1) in I. apply (serial_paths _ _ _ _ _ _ _ _ _ _ H2) in J.
        rewrite E in I. exact (Dj _ I J).
    + intros each0 H. inversion H as [|? ? ? s F1 each ? H1 H2]; subst.
      apply (fix_says K T d opts m diff F p []) in H1. destruct H1 as (cfg' & fd & vs1 & xs1 & G' & Wk & H1 & L1 & V1 & ->). assert (cfg' = cfg) as -> by congruence.
      apply map_res_cons in Wk. destruct Wk as (g1 & g0 & X1 & X0 & ->). injection X0 as <-. assert (g1 = f1) as -> by congruence. cbn [concat] in H1. rewrite app_nil_r in H1.
      destruct (Rest F1 (serial_alike _ _ _ _ _ _ _ _ _ _ _ _ H1 L1 V1)) as [Wk1 G1].
      destruct (IH F1 f2 F' Nw Wk1 N2 Nc2 G1) as [_ Bwd]. destruct (Bwd _ H2) as (ns & vs2 & xs2 & H3 & L2 & V2 & Fa & Eq).
      exists (counted xs1 :: ns), (vs1 ++ vs2), (xs1 ++ xs2). rewrite effects_app. split; [apply steps_serial; eauto 8|]. split; [apply leads_app; eauto|]. split; [|split].
      * intros q0 t w I. apply in_app_iff in I. destruct I as [I|I]; [eapply V1|eapply V2]; exact I.
      * constructor; [apply fix_tells|exact Fa].
      * cbn [fold_right]. rewrite <- Eq. apply counted_app. intros x y I J E. apply (serial_paths _ _ _ _ _ _ _ _ _ _ H1) in I. apply (serial_paths _ _ _ _ _ _ _ _ _ _ H3) in J.
        rewrite E in I. exact (Dj _ I J).
Qed.

(** If no file is found in two of the paths and none of them is a configuration file, then whenever [fix path1 path2 …] succeeds, so does fixing the paths one after another,
    with the same files in the end, and its numbers are the sums of theirs. *)
Theorem C110_together : forall K T d opts m diff F ps found s F', ps <> [] -> names_only (t_walk T) ->
  map_res (t_walk T F) ps = Ok found -> NoDup (concat found) -> (forall q, In q (concat found) -> ~ is_config (Some opts) q) ->
  finishes F (fix_ K T d opts m false diff (map PathArg ps)) s F' ->
  exists each ns, summaries (fun p => fix_ K T d opts m false diff [PathArg p]) F ps each F' /\
    Forall2 tells_fixes each ns /\ tells_fixes s (fold_right plus_counts (Counts 0 0 0) ns).
Proof.
  intros K T d opts m diff F ps found s F' Ne Nw Wk Nd Nc H. destruct ps as [|p ps]; [congruence|].
  apply fix_says in H. destruct H as (cfg & fd & vs & xs & G & Wk' & H & L & W & ->). assert (fd = found) as -> by congruence.
  destruct (parts K T d opts m diff cfg (p :: ps) F found F' Nw Wk Nd Nc G) as [Fwd _]. destruct (Fwd _ _ H L W) as (each & ns & Su & Fa & Eq).
  exists each, ns. split; [exact Su|]. split; [exact Fa|]. rewrite <- Eq. apply fix_tells.
Qed.

(** And conversely, whenever fixing them one after another succeeds. *)
Theorem C110_apart : forall K T d opts m diff F ps found each F', ps <> [] -> names_only (t_walk T) ->
  map_res (t_walk T F) ps = Ok found -> NoDup (concat found) -> (forall q, In q (concat found) -> ~ is_config (Some opts) q) ->
  summaries (fun p => fix_ K T d opts m false diff [PathArg p]) F ps each F' ->
  exists s ns, finishes F (fix_ K T d opts m false diff (map PathArg ps)) s F' /\
    Forall2 tells_fixes each ns /\ tells_fixes s (fold_right plus_counts (Counts 0 0 0) ns).
Proof.
  intros K T d opts m diff F ps found each F' Ne Nw Wk Nd Nc H. destruct ps as [|p ps]; [congruence|].
  assert (exists cfg, generate_config (t_env T) F (k_cwd K) None (Some opts) = Ok cfg) as (cfg & G).
  { inversion H as [|? ? ? s F1 e ? H1 H2]; subst. apply (fix_says K T d opts m diff F p []) in H1. destruct H1 as (cfg & _ & _ & _ & G & _). eauto. }
  destruct (parts K T d opts m diff cfg (p :: ps) F found F' Nw Wk Nd Nc G) as [_ Bwd]. destruct (Bwd _ H) as (ns & vs & xs & St & L & W & Fa & Eq).
  exists (fix_last (fix_summed no_tally xs)), ns. split; [|split; [exact Fa|rewrite <- Eq; apply fix_tells]].
  apply fix_says. exists cfg, found, vs, xs. auto 8.
Qed.

(** ** The claims are not vacuous *)

Transparent make_plan fixit_bytes.
Lemma lived_says : forall (c : cmd N) F vs F' ls s, live c F [] = (vs, Returned 0%N, F') -> lines vs = ls ++ [s] ->
  forallb (fun v => match v with VWrite _ _ (Err _) => false | _ => true end) vs = true -> finishes F c s F'.
Proof.
  intros c F vs F' ls s H L W. destruct (live_run _ _ _ _ _ _ _ H) as [R Ld]. exists vs, ls. repeat split; auto.
  intros q t w I. rewrite forallb_forall in W. apply W in I. destruct w as [[]|]; [reflexivity|discriminate].
Qed.

Example C110_example : exists s1 s2 s F',
  names_only (t_walk ex_fix_tool) /\ map_res (t_walk ex_fix_tool ex_F2) [ex_file; ex_other] = Ok [[ex_file]; [ex_other]] /\
  NoDup (concat [[ex_file]; [ex_other]]) /\ (forall q, In q (concat [[ex_file]; [ex_other]]) -> ~ is_config (Some ex_opts) q) /\
  summaries (fun p => ex_fix false false false [PathArg p]) ex_F2 [ex_file; ex_other] [s1; s2] F' /\
  finishes ex_F2 (ex_fix false false false [PathArg ex_file; PathArg ex_other]) s F' /\
  tells_fixes s1 (Counts 1 1 2) /\ tells_fixes s2 (Counts 1 1 2) /\ tells_fixes s (Counts 2 2 4).
Proof.
  pose (F1 := put ex_F2 ex_file (Some (u "x = f(99, 2)" ++ nl))). pose (F2 := put F1 ex_other (Some (u "x = f(99, 2)" ++ nl))).
  pose (r1 := live (ex_fix false false false [PathArg ex_file]) ex_F2 []). pose (r2 := live (ex_fix false false false [PathArg ex_other]) F1 []).
  pose (r := live (ex_fix false false false [PathArg ex_file; PathArg ex_other]) ex_F2 []).
  exists (last (lines (fst (fst r1))) (Diag, [])), (last (lines (fst (fst r2))) (Diag, [])), (last (lines (fst (fst r))) (Diag, [])), F2.
  split; [intros F G p _ _; reflexivity|]. split; [reflexivity|]. split.
  { repeat constructor; vm_compute; intuition congruence. } split.
  { intros q I [(dd & n & -> & N)|(o & f & E & Ef & _)].
    - cbn [concat app] in I. destruct I as [I|[I|[]]]; apply (f_equal (@rev str)) in I; rewrite rev_app_distr in I; cbn in I; injection I as <- _; vm_compute in N; intuition discriminate.
    - injection E as <-. discriminate. }
  split; [|split; [|split; [|split]]].
  - apply su_step with F1; [|apply su_step with F2; [|constructor]].
    + eapply lived_says with (ls := removelast (lines (fst (fst r1)))); vm_compute; reflexivity.
    + eapply lived_says with (ls := removelast (lines (fst (fst r2)))); vm_compute; reflexivity.
  - eapply lived_says with (ls := removelast (lines (fst (fst r)))); vm_compute; reflexivity.
  - split; [vm_compute; reflexivity|cbn; lia].
  - split; [vm_compute; reflexivity|cbn; lia].
  - split; [vm_compute; reflexivity|cbn; lia].
Qed.
