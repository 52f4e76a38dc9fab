(** * Jobs: [fixit lint] with several files (fixit/cli.py 122-165, fixit/api.py 302-310)

    With more than one file, files are linted in a process pool, and the results of each file are handed on when it is done. *)
From Coq Require Import String List NArith ZArith Bool Arith.
From Verif Require Import Base PyStr Ftypes Paths Config Collect Suppress Cst Engine Batch Api System Session Cli.
Import ListNotations.

(** api.py 309-310 [for _, results in ...: yield from results]: the answers go nowhere *)
Fixpoint deliver (xs : list result) : prog unit :=
  match xs with
  | [] => Ret tt
  | x :: xs' => Give x (fun _ => deliver xs')
  end.

(** api.py 276-310 [fixit_paths] with [parallel=True]; [pool ps]: what comes from trailrunner.run_iter (api.py 309) for the files [ps], in
    the order in which it comes. Simplification: handing on results does not fail, as it would if a worker were killed. *)
Definition pool_paths (Y : system) (default_name : path) (paths : list arg) (autofix : bool) (opts : option options) (hook : bool)
    (z : session) (pool : list path -> list result) : prog unit :=
  Look (fun F => lift (make_plan (y_walk Y F) default_name true paths) (fun pl =>
    match pl with
    | None => Ret tt
    | Some (Input p) => fixit_stdin (tool_of (system_at Y z)) p autofix opts hook
    | Some (Serial ps) => pbind (in_session Y ps autofix opts hook z) (fun _ => Ret tt)
    | Some (Parallel ps) => deliver (pool ps)
    end)).

(** cli.py 122-165. Simplification: the metrics that workers print are not shown here. *)
Definition lint_jobs (K : cli) (Y : system) (default_name : path) (opts : options) (metrics_ diff : bool) (paths : list arg) (z : session)
    (pool : list path -> list result) : cmd N :=
  lint_with K (y_env Y) opts diff (pool_paths Y default_name (or_cwd K paths) false (Some opts) metrics_ z pool).
