(** * C113: paths whose files are linted already *)
From Coq Require Import String List NArith ZArith Bool Arith Lia Permutation.
From Verif Require Import Base PyStr Ftypes Paths Config Suppress Cst Engine EngineProps Batch Api ApiSpec ApiFacts ApiProps ApiPaths System SystemSpec SystemSame
  Cli CliSpec CliFacts CliProps InputProps SeveralProps DiskSpec DiskProps SeveralFix SummaryProps PathOrder.
Import ListNotations.

(** The vocabulary is that of C109 and C111: [outputs], [counts], [tells_counts]. *)

(** ** Proofs *)

Lemma file_among : forall K diff cfg T autofix opts hook ps vs xs p, steps K diff cfg (serial T ps autofix opts hook) vs xs -> In p ps ->
  exists v x, steps K diff cfg (fixit_file T p autofix opts hook) v x /\ incl v vs /\ incl x xs.
Proof.
  intros K diff cfg T autofix opts hook ps. induction ps as [|q ps IH]; intros vs xs p H I; [contradiction|]. cbn [serial] in H.
  apply steps_bind in H. destruct H as (v1 & x1 & v2 & x2 & H1 & H2 & -> & ->). destruct I as [<-|I].
  - exists v1, x1. split; [exact H1|]. split; apply incl_appl, incl_refl.
  - destruct (IH _ _ _ H2 I) as (v & x & H & A & B). exists v, x. split; [exact H|]. split; now apply incl_appr.
Qed.

Lemma files_among : forall K diff cfg T autofix opts hook ps vs xs, steps K diff cfg (serial T ps autofix opts hook) vs xs -> forall qs, incl qs ps ->
  exists v x, steps K diff cfg (serial T qs autofix opts hook) v x /\ incl v vs /\ incl x xs.
Proof.
  intros K diff cfg T autofix opts hook ps vs xs H. induction qs as [|q qs IH]; intro Sub; cbn [serial].
  - exists [], []. split; [constructor|]. split; intros ? [].
  - destruct (file_among _ _ _ _ _ _ _ _ _ _ q H (Sub q (or_introl eq_refl))) as (v1 & x1 & H1 & A1 & B1).
    destruct IH as (v2 & x2 & H2 & A2 & B2); [intros r I; apply Sub; right; exact I|].
    exists (v1 ++ v2), (x1 ++ x2). split; [apply steps_bind; eauto 8|]. split; now apply incl_app.
Qed.

Lemma set_again : forall f xs ys, incl ys xs -> List.length (set_of f (xs ++ ys)) = List.length (set_of f xs).
Proof.
  intros f xs ys Sub. destruct (set_of_distinct f xs) as [N1 S1], (set_of_distinct f (xs ++ ys)) as [N2 S2]. apply Permutation_length. apply NoDup_Permutation; auto.
  intro p. rewrite S1, S2. split; intros (x & I & A & B); exists x; split; auto; [|apply in_or_app; auto]. apply in_app_iff in I. destruct I; auto.
Qed.

Lemma exit_again : forall xs ys, incl ys xs -> l_exit (lint_state (xs ++ ys)) = l_exit (lint_state xs).
Proof.
  intros xs ys Sub. destruct (lint_state_spec (xs ++ ys)) as (_ & _ & _ & D1 & E1 & F1), (lint_state_spec xs) as (_ & _ & _ & D2 & E2 & F2).
  assert (Ex : forall (p : result -> Prop), (exists x, In x (xs ++ ys) /\ p x) <-> exists x, In x xs /\ p x).
  { intro p. split; intros (x & I & Px); exists x; split; auto; [apply in_app_iff in I; destruct I; auto|apply in_or_app; auto]. }
  apply N.bits_inj. intro n. destruct (N.lt_ge_cases n 2) as [L|L].
  - assert (n = 0%N \/ n = 1%N) as [-> | ->] by lia; apply eq_true_iff_eq; [rewrite E1, E2|rewrite F1, F2]; apply Ex.
  - assert (Hi : forall a, (a < 4)%N -> N.testbit a n = false).
    { intros a La. destruct (N.eq_dec a 0) as [->|Na]; [apply N.bits_0|]. apply N.bits_above_log2. apply N.log2_lt_pow2; [lia|].
      apply N.lt_le_trans with 4%N; [exact La|]. change 4%N with (2 ^ 2)%N. apply N.pow_le_mono_r; lia. }
    now rewrite !Hi.
Qed.

Lemma walks_app : forall (W : path -> res (list path)) ps qs a b, map_res W ps = Ok a -> map_res W qs = Ok b -> map_res W (ps ++ qs) = Ok (a ++ b).
Proof.
  intros W ps. induction ps as [|p ps IH]; intros qs a b H H2.
  - injection H as <-. exact H2.
  - apply map_res_cons in H. destruct H as (f1 & f2 & H1 & H3 & ->). cbn [app]. apply map_res_cons. exists f1, (f2 ++ b). auto.
Qed.

(** If all files found in more paths are found in the first ones, naming these paths too prints again lines that are printed before: as many files are checked, as many have
    errors, and the exit status is the same. *)
Theorem C113_again : forall K T d opts m diff F ps qs found more ls s code, ps <> [] ->
  map_res (t_walk T F) ps = Ok found -> map_res (t_walk T F) qs = Ok more -> incl (concat more) (concat found) ->
  outputs F (lint K T d opts m diff (map PathArg ps)) ls s code ->
  exists ls2 s' n n', outputs F (lint K T d opts m diff (map PathArg (ps ++ qs))) (ls ++ ls2) s' code /\ incl ls2 ls /\
    tells_counts s n /\ tells_counts s' n' /\ n_checked n' = n_checked n /\ n_errors n' = n_errors n /\ n_available n <= n_available n'.
Proof.
  intros K T d opts m diff F ps qs found more ls s code Ne Wk Wm Sub H. destruct ps as [|p ps]; [congruence|].
  apply lint_outputs in H. destruct H as (cfg & fd & vs & xs & G & W & H & Fr & -> & -> & ->). assert (fd = found) as -> by congruence.
  destruct (files_among _ _ _ _ _ _ _ _ _ _ H _ Sub) as (v2 & x2 & H2 & Sv & Sx).
  exists (lines v2), (summed (xs ++ x2)), (counted xs), (counted (xs ++ x2)). split; [|split; [|split; [apply summed_tells|split; [apply summed_tells|split; [|split]]]]].
  - cbn [app]. apply lint_outputs. exists cfg, (found ++ more), (vs ++ v2), (xs ++ x2). split; [exact G|]. split; [exact (walks_app _ _ _ _ _ Wk Wm)|].
    split; [rewrite concat_app; apply steps_serial; eauto 8|]. split; [intros F' I; apply in_app_iff in I; destruct I; auto|].
    split; [symmetry; apply lines_app|]. split; [reflexivity|]. symmetry. now apply exit_again.
  - intros l I. unfold lines in *. apply in_flat_map in I. destruct I as (v & I & J). apply in_flat_map. exists v. auto.
  - cbn [counted n_checked]. now apply set_again.
  - cbn [counted n_errors]. now apply set_again.
  - cbn [counted n_available]. unfold number. rewrite filter_app, app_length. lia.
Qed.

(** ** The claim is not vacuous *)

Transparent make_plan fixit_bytes.
Definition thrice : list path := two_paths ++ [ex_file].
Example C113_example : exists l1 l2 s s',
  map_res (t_walk (ex_tool false ex_rules) ex_F) [ex_file] = Ok [[ex_file]] /\ incl (concat [[ex_file]]) (concat [[ex_file]; [[u "d"; u "b.py"]]]) /\
  outputs ex_F (ex_lint (map PathArg two_paths)) (l1 ++ l2) s 3 /\ outputs ex_F (ex_lint (map PathArg thrice)) ((l1 ++ l2) ++ l1) s' 3 /\
  tells_counts s (Counts 2 2 2) /\ tells_counts s' (Counts 2 2 4).
Proof.
  pose (l := lines (fst (perform (ex_lint (map PathArg two_paths)) ex_F [] [] false))). pose (l' := lines (fst (perform (ex_lint (map PathArg thrice)) ex_F [] [] false))).
  exists (firstn 3 l), (firstn 2 (skipn 3 l)), (last l (Diag, [])), (last l' (Diag, [])).
  split; [reflexivity|]. split; [intros r [<-|[]]; left; reflexivity|].
  split; [eapply performed_outputs; vm_compute; reflexivity|]. split; [eapply performed_outputs; vm_compute; reflexivity|].
  split; (split; [vm_compute; reflexivity|cbn; lia]).
Qed.
