(** * Vocabulary for C86: what is on the disk afterwards *)
From Coq Require Import String List NArith ZArith Bool Arith.
From Verif Require Import Base PyStr Ftypes Paths Config Collect CollectSpec Suppress SuppressSpec Cst Engine Batch Api ApiSpec System SystemSpec
  Session SessionSpec Cli CliSpec CommandsSpec FixSpec.
Import ListNotations.

(** The file system with one file replaced (or removed). *)
Definition put (F : fs) (p : path) (c : option str) : fs := FS (fun q => if path_eqb q p then c else f_file F q) (f_isdir F).

(** Nobody else changes files: whenever the program looks, it finds what it has written so far. A write that fails may leave anything in that file. *)
Inductive leads : fs -> list ev -> fs -> Prop :=
| ld_end : forall F, leads F [] F
| ld_look : forall F es F', leads F es F' -> leads F (ELook F :: es) F'
| ld_write : forall F p c es F', leads (put F p (Some c)) es F' -> leads F (EWrite p c (Ok tt) :: es) F'
| ld_broken : forall F p c e x es F', leads (put F p x) es F' -> leads F (EWrite p c (Err e) :: es) F'
| ld_other : forall F e es F', match e with ELook _ | EWrite _ _ _ => False | _ => True end -> leads F es F' -> leads F (e :: es) F'.

(** The files that configurations are read from. *)
Definition is_config (opts : option options) (p : path) : Prop :=
  (exists d n, p = d ++ [n] /\ In n [u "fixit.toml"; u ".fixit.toml"; u "pyproject.toml"]) \/
  exists o f, opts = Some o /\ o_config_file o = Some f /\ p = resolve f.

(** [vs] is all that selected rules report about [old] where no comment silences them, and [new] is [old] with [acc] applied, and formatted. *)
Definition comes_from (Y : system) (F : fs) (p : path) (opts : option options) (vs acc : list viol) (old new : str) : Prop :=
  exists cfg, generate_config (y_env Y) F p None opts = Ok cfg /\
    ((forall k, ~ selected Y F cfg k) /\ vs = [] /\ new = old \/
     exists md M, y_parse Y old = Ok md /\ y_wrap Y md = Ok M /\ all_complaints Y F cfg p md M vs /\
       (acc = [] /\ new = old \/
        acc <> [] /\ exists md' c, apply_replacements md acc = Ok (Some md') /\ formatted Y F cfg p md' c /\
          (c = [] /\ new = old \/ c <> [] /\ new = c))).
