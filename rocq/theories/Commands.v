(** * Commands: [fixit lint] and [fixit fix] with everything below them (fixit/cli.py 122-244)

    The commands of Cli.v with the files linted one after the other in one process, as in Session.v. *)
From Coq Require Import String List NArith ZArith Bool Arith.
From Verif Require Import Base PyStr Ftypes Paths Config Collect Suppress Cst Engine Batch Api System Session Cli.
Import ListNotations.

(** api.py 276-301 [fixit_paths] with [parallel=False], or with one file; the interpreter is in state [z] *)
Definition whole_paths (Y : system) (default_name : path) (paths : list arg) (autofix : bool) (opts : option options) (hook : bool)
    (z : session) : prog unit :=
  Look (fun F => lift (make_plan (y_walk Y F) default_name false paths) (fun pl =>
    match pl with
    | None => Ret tt
    | Some (Input p) => fixit_stdin (tool_of (system_at Y z)) p autofix opts hook
    | Some (Serial ps) | Some (Parallel ps) => pbind (in_session Y ps autofix opts hook z) (fun _ => Ret tt)
    end)).

(** cli.py 122-165 *)
Definition whole_lint (K : cli) (Y : system) (default_name : path) (opts : options) (metrics_ diff : bool) (paths : list arg) (z : session) : cmd N :=
  lint_with K (y_env Y) opts diff (whole_paths Y default_name (or_cwd K paths) false (Some opts) metrics_ z).

(** cli.py 168-244 *)
Definition whole_fix (K : cli) (Y : system) (default_name : path) (opts : options) (metrics_ interactive diff : bool)
    (paths : list arg) (z : session) : cmd N :=
  let paths := or_cwd K paths in
  let is_stdin := first_is_dash paths in
  let interactive := interactive && negb is_stdin in
  CLook (fun F =>
    match generate_config (y_env Y) F (k_cwd K) None (Some opts) with
    | Err e => CFail e
    | Ok cfg =>
        fix_loop K interactive diff is_stdin cfg
          (whole_paths Y default_name paths (negb interactive) (Some opts) metrics_ z) no_tally
    end).
