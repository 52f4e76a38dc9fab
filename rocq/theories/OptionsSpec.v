(** * Vocabulary for C93: configuration files without options for rules *)
From Coq Require Import String List NArith ZArith Bool Arith.
From Verif Require Import Base PyStr Ftypes Paths Config ConfigSpec Collect Suppress Cst Engine Batch Api ApiSpec System Cli CliSpec.
Import ListNotations.

(** A table with the value of a key replaced; what is in a table, and the elements of an array, replaced. *)
Definition at_key (k : string) (f : toml -> toml) (d : table) : table :=
  map (fun kv => if str_eqb (u k) (fst kv) then (fst kv, f (snd kv)) else kv) d.
Definition inside (f : table -> table) (v : toml) : toml := match v with TTab d => TTab (f d) | _ => v end.
Definition each (f : toml -> toml) (v : toml) : toml := match v with TArr l => TArr (map f l) | _ => v end.

(** A file with every [tool.fixit.options], and every options table of an override, emptied. *)
Definition emptied (d : table) : table := at_key "options" (fun _ => TTab []) d.
Definition section_emptied (d : table) : table := at_key "overrides" (each (inside emptied)) (emptied d).
Definition file_emptied (d : table) : table := at_key "tool" (inside (at_key "fixit" (inside section_emptied))) d.

(** Everything as before, but configuration files are read as if their options tables were empty. *)
Definition read_emptied (E : env) : env :=
  Env (fun content => match e_load E content with Ok d => Ok (file_emptied d) | Err e => Err e end)
      (e_version_ok E) (e_running E) (e_styles E) (e_iter E).
Definition without_options (Y : system) : system :=
  MkSystem (read_emptied (y_env Y)) (y_unicode Y) (y_world Y) (y_py Y) (y_code Y) (y_parse Y) (y_wrap Y) (y_took Y) (y_udiff Y)
    (y_bytes Y) (y_style Y) (y_walk Y).

(** The options tables in a file are tables of tables of strings, numbers and booleans. *)
Definition valid_section (d : table) : Prop :=
  valid_options d /\ forall o, In (TTab o) (elements "overrides" d) -> valid_options o.
Definition valid_file (d : table) : Prop :=
  forall tool section, dget (u "tool") d = Some (TTab tool) -> dget (u "fixit") tool = Some (TTab section) -> valid_section section.
Definition valid_files (E : env) (F : fs) : Prop :=
  forall q content d, f_file F q = Some content -> e_load E content = Ok d -> valid_file d.

(** A configuration without options, everything else the same. *)
Definition optionless (c : config) : config :=
  Config (c_path c) (c_root c) (c_import c) (c_enable c) (c_disable c) [] (c_python c) (c_tags c) (c_formatter c) (c_format c) (c_template c).

(** The file systems that a generator, and a command, look at. *)
Definition sees (es : list ev) (F : fs) : Prop := In (ELook F) es.
Definition command_sees (vs : list cev) (F : fs) : Prop := In (VLook F) vs.
