(** * C104: a directory and the files in it *)
From Coq Require Import String List NArith ZArith Bool Arith Lia.
From Verif Require Import Base PyStr Ftypes Paths Config Suppress Cst Engine EngineProps Batch Api ApiSpec ApiFacts ApiProps ApiPaths System SystemSpec SystemSame
  Cli CliSpec CliFacts CliProps Session Commands Jobs InputProps SeveralProps DiskSpec DiskProps SeveralFix ConsentProps.
Import ListNotations.

(** ** Specification *)

(** The files that paths stand for, in order: the files found at each. A "-" stands for none. *)
Inductive stand_for (walk : path -> res (list path)) : list arg -> list path -> Prop :=
| st_none : stand_for walk [] []
| st_dash : forall rest files, stand_for walk rest files -> stand_for walk (Dash :: rest) files
| st_path : forall p found rest files, walk p = Ok found -> stand_for walk rest files -> stand_for walk (PathArg p :: rest) (found ++ files).

(** Whenever the command looks, the paths stand for these files, and each of these files for itself. *)
Definition throughout (walk : fs -> path -> res (list path)) (vs : list cev) (paths : list arg) (files : list path) : Prop :=
  forall F, In (VLook F) vs -> stand_for (walk F) paths files /\ (forall f, In f files -> walk F f = Ok [f]).

(** ** Proofs *)

Lemma stand_for_named : forall walk rest files, stand_for walk rest files -> exists found, map_res walk (flat_map named rest) = Ok found /\ concat found = files.
Proof.
  intros walk rest files H. induction H as [|rest files H (found & W & C)|p f rest files Hp H (found & W & C)].
  - exists []. split; reflexivity.
  - exists found. split; assumption.
  - exists (f :: found). cbn [flat_map named app map_res]. rewrite Hp. cbn [bind]. rewrite W. split; [reflexivity|]. cbn [concat]. now rewrite C.
Qed.

Lemma themselves : forall (walk : path -> res (list path)) files, (forall f, In f files -> walk f = Ok [f]) -> map_res walk files = Ok (map (fun f => [f]) files).
Proof.
  intros walk files H. induction files as [|f fs IH]; [reflexivity|]. cbn [map_res map]. rewrite H by (left; reflexivity). cbn [bind]. rewrite IH; [reflexivity|]. intros g I. apply H. right. exact I.
Qed.

Lemma plan_same : forall walk d par p rest files, stand_for walk (PathArg p :: rest) files -> (forall f, In f files -> walk f = Ok [f]) -> files <> [] ->
  make_plan walk d par (PathArg p :: rest) = make_plan walk d par (map PathArg files).
Proof.
  intros walk d par p rest files H Fi Ne. destruct files as [|f fs]; [contradiction|]. cbn [map]. rewrite !C34_files.
  destruct (stand_for_named _ _ _ H) as (found & W & C). cbn [flat_map named app] in W. rewrite W. cbn [bind]. rewrite C.
  assert (Nm : flat_map named (map PathArg fs) = fs) by (clear; induction fs as [|q qs IH]; [reflexivity|]; cbn [map flat_map named app]; now rewrite IH).
  rewrite Nm, (themselves walk (f :: fs) Fi). cbn [bind].
  assert (Cc : concat (map (fun f => [f]) (f :: fs)) = f :: fs) by (clear; generalize (f :: fs); induction l as [|x l IH]; [reflexivity|]; cbn; now rewrite IH).
  rewrite Cc. reflexivity.
Qed.

Lemma look_same : forall (c c' : fs -> cmd N) vs o, (forall F, In (VLook F) vs -> c F = c' F) -> crun (CLook c) vs o -> crun (CLook c') vs o.
Proof. intros c c' vs o H R. inversion R; subst; constructor. rewrite <- H by (left; reflexivity). assumption. Qed.

Lemma config_then : forall E K opts (c c' : config -> cmd N) vs o, (forall cfg ws, (forall F, In (VLook F) ws -> In (VLook F) vs) -> crun (c cfg) ws o -> crun (c' cfg) ws o) ->
  crun (CLook (fun F => match generate_config E F (k_cwd K) None (Some opts) with Err e => CFail e | Ok cfg => c cfg end)) vs o ->
  crun (CLook (fun F => match generate_config E F (k_cwd K) None (Some opts) with Err e => CFail e | Ok cfg => c' cfg end)) vs o.
Proof.
  intros E K opts c c' vs o H R. inversion R as [| | | | |k F0 ws o0 R0| | |]; subst; constructor.
  destruct (generate_config E F0 (k_cwd K) None (Some opts)) as [cfg|e] eqn:G.
  - apply H; [intros F I; right; exact I|exact R0].
  - exact R0.
Qed.

Opaque make_plan.

(** ** C104 *)

(** Linting a directory, or several and files, is linting the files that are found there, one after another: every execution of one command is one of the other. *)
Theorem C104_lint : forall K T d opts m diff p rest files vs o, throughout (t_walk T) vs (PathArg p :: rest) files -> files <> [] ->
  (crun (lint K T d opts m diff (PathArg p :: rest)) vs o <-> crun (lint K T d opts m diff (map PathArg files)) vs o).
Proof.
  intros K T d opts m diff p rest files vs o H Ne.
  assert (Cwd : or_cwd K (map PathArg files) = map PathArg files) by (destruct files; [contradiction|reflexivity]).
  unfold lint, lint_with. rewrite Cwd. cbn [or_cwd]. split; apply config_then; intros cfg ws Sub; unfold fixit_paths_serial; cbn [lint_loop]; apply look_same; intros F I;
    destruct (H F (Sub F I)) as [A B]; rewrite (plan_same _ d false p rest files A B Ne); reflexivity.
Qed.

(** With the process pool as well: the same files are handed to it. *)
Theorem C104_lint_jobs : forall K Y d opts m diff p rest z pool files vs o, throughout (y_walk Y) vs (PathArg p :: rest) files -> files <> [] ->
  (crun (lint_jobs K Y d opts m diff (PathArg p :: rest) z pool) vs o <-> crun (lint_jobs K Y d opts m diff (map PathArg files) z pool) vs o).
Proof.
  intros K Y d opts m diff p rest z pool files vs o H Ne.
  assert (Cwd : or_cwd K (map PathArg files) = map PathArg files) by (destruct files; [contradiction|reflexivity]).
  unfold lint_jobs, lint_with. rewrite Cwd. cbn [or_cwd]. split; apply config_then; intros cfg ws Sub; unfold pool_paths; cbn [lint_loop]; apply look_same; intros F I;
    destruct (H F (Sub F I)) as [A B]; rewrite (plan_same _ d true p rest files A B Ne); reflexivity.
Qed.

(** Fixing a directory, with questions or without, is fixing the files found there: the same files are written, the same questions asked, the same lines printed. *)
Theorem C104_fix : forall K T d opts m inter diff p rest files vs o, throughout (t_walk T) vs (PathArg p :: rest) files -> files <> [] ->
  (crun (fix_ K T d opts m inter diff (PathArg p :: rest)) vs o <-> crun (fix_ K T d opts m inter diff (map PathArg files)) vs o).
Proof.
  intros K T d opts m inter diff p rest files vs o H Ne.
  assert (Cwd : or_cwd K (map PathArg files) = map PathArg files) by (destruct files; [contradiction|reflexivity]).
  assert (Fd : first_is_dash (map PathArg files) = false) by (destruct files; [contradiction|reflexivity]).
  unfold fix_. rewrite Cwd, Fd. cbn [or_cwd first_is_dash]. split; apply config_then; intros cfg ws Sub; unfold fixit_paths_serial; cbn [fix_loop]; apply look_same; intros F I;
    destruct (H F (Sub F I)) as [A B]; rewrite (plan_same _ d false p rest files A B Ne); reflexivity.
Qed.

(** With all of the implementation below, too. *)
Theorem C104_whole_lint : forall K Y d opts m diff p rest z files vs o, throughout (y_walk Y) vs (PathArg p :: rest) files -> files <> [] ->
  (crun (whole_lint K Y d opts m diff (PathArg p :: rest) z) vs o <-> crun (whole_lint K Y d opts m diff (map PathArg files) z) vs o).
Proof.
  intros K Y d opts m diff p rest z files vs o H Ne.
  assert (Cwd : or_cwd K (map PathArg files) = map PathArg files) by (destruct files; [contradiction|reflexivity]).
  unfold whole_lint, lint_with. rewrite Cwd. cbn [or_cwd]. split; apply config_then; intros cfg ws Sub; unfold whole_paths; cbn [lint_loop]; apply look_same; intros F I;
    destruct (H F (Sub F I)) as [A B]; rewrite (plan_same _ d false p rest files A B Ne); reflexivity.
Qed.

Theorem C104_whole_fix : forall K Y d opts m inter diff p rest z files vs o, throughout (y_walk Y) vs (PathArg p :: rest) files -> files <> [] ->
  (crun (whole_fix K Y d opts m inter diff (PathArg p :: rest) z) vs o <-> crun (whole_fix K Y d opts m inter diff (map PathArg files) z) vs o).
Proof.
  intros K Y d opts m inter diff p rest z files vs o H Ne.
  assert (Cwd : or_cwd K (map PathArg files) = map PathArg files) by (destruct files; [contradiction|reflexivity]).
  assert (Fd : first_is_dash (map PathArg files) = false) by (destruct files; [contradiction|reflexivity]).
  unfold whole_fix. cbv zeta. rewrite Cwd, Fd. cbn [or_cwd first_is_dash]. split; apply config_then; intros cfg ws Sub; unfold whole_paths; cbn [fix_loop]; apply look_same; intros F I;
    destruct (H F (Sub F I)) as [A B]; rewrite (plan_same _ d false p rest files A B Ne); reflexivity.
Qed.

(** A directory in which nothing is found is not the same as no path at all, which is the current directory. *)
Theorem C104_nothing_found : forall K T d opts m diff p rest vs code, throughout (t_walk T) vs (PathArg p :: rest) [] ->
  crun (lint K T d opts m diff (PathArg p :: rest)) vs (Returned code) -> code = 0%N /\ exists F F' s t, vs = [VLook F; VLook F'; VPrint s t].
Proof.
  intros K T d opts m diff p rest vs code H R. unfold lint, lint_with in R. cbn [or_cwd] in R. inversion R as [| | | | |k F0 ws o0 R0| | |]; subst.
  destruct (generate_config (t_env T) F0 (k_cwd K) None (Some opts)) as [cfg|e]; [|inversion R0]. unfold fixit_paths_serial in R0. cbn [lint_loop] in R0.
  inversion R0 as [| | | | |k F1 ws1 o1 R1| | |]; subst. destruct (H F1) as [A _]; [right; left; reflexivity|]. rewrite C34_files in R1.
  destruct (stand_for_named _ _ _ A) as (found & W & C). cbn [flat_map named app] in W. rewrite W in R1. cbn [bind] in R1. rewrite C in R1. cbn [List.length Nat.eqb orb negb lift serial lint_loop] in R1.
  apply print_all_ends in R1. destruct R1 as (vs2 & -> & R1). inversion R1; subst. split; [reflexivity|]. repeat eexists.
Qed.

Transparent make_plan.

(** A directory with two files, and a "-" that is ignored: four questions are asked, and each file is written. *)
Definition walk_tool : tool :=
  Tool (t_env ex_fix_tool) (t_collect ex_fix_tool) (t_parse ex_fix_tool) (t_visit ex_fix_tool) (t_udiff ex_fix_tool) (t_bytes ex_fix_tool) (t_style ex_fix_tool)
    (fun _ p => if path_eqb p [u "d"] then Ok [ex_file; ex_other] else Ok [p]).
Definition walk_fix (inter : bool) (paths : list arg) : cmd N := fix_ ex_cli walk_tool [u "d"; u "stdin"] ex_opts false inter false paths.

Example C104_example :
  let '(vs, o, F') := live (walk_fix true [PathArg [u "d"]; Dash]) ex_F2 [Yes; No; No; Yes] in
  throughout (t_walk walk_tool) vs [PathArg [u "d"]; Dash] [ex_file; ex_other] /\ crun (walk_fix true [PathArg [u "d"]; Dash]) vs o /\
  crun (walk_fix true (map PathArg [ex_file; ex_other])) vs o /\ o = Returned 0%N /\ List.length (asked vs) = 4 /\ List.length (saved vs) = 2.
Proof.
  destruct (live (walk_fix true [PathArg [u "d"]; Dash]) ex_F2 [Yes; No; No; Yes]) as [[vs o] F'] eqn:E.
  assert (T1 : throughout (t_walk walk_tool) vs [PathArg [u "d"]; Dash] [ex_file; ex_other]).
  { intros F _. split; [|intros f [<-|[<-|[]]]; reflexivity]. apply (st_path (t_walk walk_tool F) [u "d"] [ex_file; ex_other] [Dash] []); [reflexivity|]. do 2 constructor. }
  destruct (live_run _ _ _ _ _ _ _ E) as [R _]. split; [exact T1|]. split; [exact R|]. split.
  { apply (proj1 (C104_fix ex_cli walk_tool [u "d"; u "stdin"] ex_opts false true false [u "d"] [Dash] [ex_file; ex_other] vs o T1 ltac:(discriminate))). exact R. }
  assert (X : (o, List.length (asked vs), List.length (saved vs)) =
    (fun r => (snd (fst r), List.length (asked (fst (fst r))), List.length (saved (fst (fst r))))) (live (walk_fix true [PathArg [u "d"]; Dash]) ex_F2 [Yes; No; No; Yes])) by now rewrite E.
  revert X. generalize o (List.length (asked vs)) (List.length (saved vs)). intros o1 n1 n2 X. vm_compute in X. injection X as -> -> ->. repeat split.
Qed.
