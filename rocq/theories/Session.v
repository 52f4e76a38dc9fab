(** * Session: several files in one process

    System.v says what happens to a file with the interpreter in a given state. Linting a file changes that state: modules stay in
    sys.modules, and sys.path may stay changed (C19). Here the state goes from file to file. *)
From Coq Require Import String List NArith ZArith Bool Arith.
From Verif Require Import Base PyStr Ftypes Paths Config Collect Suppress Cst Engine Batch Api System.
Import ListNotations.

(** sys.path; for each top-level module that fixit has imported, what sys.path was then; how many local lookups succeeded *)
Record session := Session { z_path : list str; z_loaded : dict (list str); z_gen : nat }.

(** [name.partition(".")[0]] *)
Definition top (name : str) : str := match split 46 name with x :: _ => x | [] => [] end.

(** importlib: a top-level module in sys.modules is not looked up again, and submodules come from the directory it was found in. So
    importing [n] gives what it would have given when its top-level module was first imported. Simplifications: files with modules do
    not change meanwhile; what importing a local module gives does not depend on earlier imports. *)
Definition remembering (loaded : dict (list str)) (W : world) : world :=
  World (fun sp n => w_import W (match dget (top n) loaded with Some sp' => sp' | None => sp end) n)
        (w_local W) (w_tags W) (w_version W) (w_matches W) (w_new W) (w_iter W) (w_posix W).

Definition learn (sp : list str) (names : list str) (loaded : dict (list str)) : dict (list str) :=
  fold_left (fun d n => match dget (top n) d with Some _ => d | None => dset (top n) sp d end) names loaded.

(** The state after collect_rules (config.py 202-272); while it runs, sys.path does not change *)
Definition after_collect (W : world) (cfg : config) (z : session) : session :=
  let s := snd (collect_rules (remembering (z_loaded z) W) cfg (PyState (z_path z) [] (z_gen z))) in
  let sp := match import_dir W cfg with None => z_path z | Some d => snd (enter_path d (z_path z)) end in
  Session (ps_path s) (learn sp (ps_modules s) (z_loaded z)) (ps_gen s).

(** The system with the interpreter in that state *)
Definition system_at (Y : system) (z : session) : system :=
  MkSystem (y_env Y) (y_unicode Y) (fun F => remembering (z_loaded z) (y_world Y F)) (PyState (z_path z) [] (z_gen z))
    (y_code Y) (y_parse Y) (y_wrap Y) (y_took Y) (y_udiff Y) (y_bytes Y) (y_style Y) (y_walk Y).

(** A generator and the file systems it has looked at *)
Fixpoint track {R} (p : prog R) (seen : list fs) : prog (R * list fs) :=
  match p with
  | Ret r => Ret (r, seen)
  | Raise e => Raise e
  | Give x k => Give x (fun a => track (k a) seen)
  | Look k => Look (fun F => track (k F) (seen ++ [F]))
  | Write q c k => Write q c (fun o => track (k o) seen)
  | Stdin k => Stdin (fun o => track (k o) seen)
  | Stdout c k => Stdout c (fun o => track (k o) seen)
  | Call m k => Call m (fun o => track (k o) seen)
  end.

(** fixit_file (api.py 186-219) reads the file, then the configuration, then calls collect_rules *)
Definition after_file (Y : system) (p : path) (opts : option options) (looked : list fs) (z : session) : session :=
  match looked with
  | _ :: F1 :: F2 :: _ =>
      match generate_config (y_env Y) F1 p None opts with
      | Ok cfg => after_collect (y_world Y F2) cfg z
      | Err _ => z
      end
  | _ => z
  end.

(** api.py 297-301: one file after the other in one process, as [serial] of Api.v *)
Fixpoint in_session (Y : system) (ps : list path) (autofix : bool) (opts : option options) (hook : bool) (z : session) : prog session :=
  match ps with
  | [] => Ret z
  | p :: ps' =>
      pbind (track (fixit_file (tool_of (system_at Y z)) p autofix opts hook) []) (fun q =>
        in_session Y ps' autofix opts hook (after_file Y p opts (snd q) z))
  end.
