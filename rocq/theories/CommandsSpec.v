(** * Vocabulary for C80: commands and what they do to files *)
From Coq Require Import String List NArith ZArith Bool Arith.
From Verif Require Import Base PyStr Ftypes Paths Config Collect CollectSpec Suppress SuppressSpec Cst Engine Batch Api ApiSpec System SystemSpec
  Session SessionSpec.
Import ListNotations.

(** Files visited one after the other: the state of the interpreter before each, and what happens to it. *)
Inductive visits (Y : system) (autofix : bool) (opts : option options) (hook : bool) : session -> list path -> list (session * list ev) -> Prop :=
| vs_end : forall z, visits Y autofix opts hook z [] []
| vs_file : forall z p es ps l, run (fixit_file (tool_of (system_at Y z)) p autofix opts hook) es (Returned tt) ->
    visits Y autofix opts hook (after_file Y p opts (looks es) z) ps l -> visits Y autofix opts hook z (p :: ps) ((z, es) :: l).

(** The rule goes through the file without an exception. *)
Definition completes (Y : system) (F : fs) (p : path) (md : module) (M : metadata) (k : cls) : Prop :=
  exists n, snd (collect_violations (y_udiff Y p) md
                   (visit_batched (y_took Y) (d_tree M) [fresh (y_unicode Y) M md (y_code Y F k)]) false) = Ok n.

(** There is nothing to complain about in a file: it can be read, as can its configuration, its rules can be imported, and if there are
    any, the file can be parsed, and every rule goes through it and reports nothing, but where a comment silences it. *)
Definition fine (Y : system) (p : path) (opts : option options) (es : list ev) : Prop :=
  exists F F1 F2 rest content cfg r, looks es = F :: F1 :: F2 :: rest /\ f_file F p = Some content /\
    generate_config (y_env Y) F1 p None opts = Ok cfg /\ fst (collect_rules (y_world Y F2) cfg (y_py Y)) = Ok r /\
    ((forall k, ~ selected Y F2 cfg k) \/
     exists md M, y_parse Y content = Ok md /\ y_wrap Y md = Ok M /\
       forall k, selected Y F2 cfg k -> completes Y F2 p md M k /\ forall x, ~ loud Y F2 md M k x).

(** A selected rule reports something that no comment silences. *)
Definition complaint (Y : system) (p : path) (opts : option options) (es : list ev) : Prop :=
  exists F F1 F2 rest content cfg md M k x, looks es = F :: F1 :: F2 :: rest /\ f_file F p = Some content /\
    generate_config (y_env Y) F1 p None opts = Ok cfg /\ selected Y F2 cfg k /\ y_parse Y content = Ok md /\ y_wrap Y md = Ok M /\
    loud Y F2 md M k x.

(** What the formatter makes of the code of a module. *)
Definition formatted (Y : system) (F : fs) (cfg : config) (p : path) (md : module) (c : str) : Prop :=
  exists b, y_bytes Y md = Ok b /\
    match c_formatter cfg with
    | None => c = b
    | Some style => exists fmt, y_style Y style = Some fmt /\ fmt F b p = Ok c
    end.

(** Content to be written to a file: made from what was read by applying replacements that selected rules propose where no comment
    silences them, and formatting. *)
Definition justified (Y : system) (p : path) (opts : option options) (es : list ev) (c : str) : Prop :=
  exists F F1 F2 F3 rest content cfg md M vs md', looks es = F :: F1 :: F2 :: rest /\ f_file F p = Some content /\
    generate_config (y_env Y) F1 p None opts = Ok cfg /\ y_parse Y content = Ok md /\ y_wrap Y md = Ok M /\ vs <> [] /\
    (forall v, In v vs -> exists k x, selected Y F2 cfg k /\ loud Y F2 md M k x /\ tells M (y_code Y F2 k) x v) /\
    apply_replacements md vs = Ok (Some md') /\ formatted Y F3 cfg p md' c.

(** All that selected rules report where no comment silences them. *)
Definition all_complaints (Y : system) (F : fs) (cfg : config) (p : path) (md : module) (M : metadata) (vs : list viol) : Prop :=
  exists ks parts, NoDup ks /\ (forall k, In k ks <-> selected Y F cfg k) /\
    Forall2 (fun k l => let C := y_code Y F k in heard (y_unicode Y) M C (says C md (calls (d_tree M)) (k_first C)) l) ks parts /\
    vs = concat parts /\ Forall (shows_fix Y p md) vs.

(** A file has been fixed: all that is reported has been applied, and if this makes a difference, the result has been written. *)
Definition fixed (Y : system) (p : path) (opts : option options) (es : list ev) : Prop :=
  exists F F1 F2 rest content cfg, looks es = F :: F1 :: F2 :: rest /\ f_file F p = Some content /\
    generate_config (y_env Y) F1 p None opts = Ok cfg /\
    ((forall k, ~ selected Y F2 cfg k) /\ written es = [] \/
     exists md M vs, y_parse Y content = Ok md /\ y_wrap Y md = Ok M /\ all_complaints Y F2 cfg p md M vs /\
       (vs = [] /\ written es = [] \/
        vs <> [] /\ exists F3 md' c, apply_replacements md vs = Ok (Some md') /\ formatted Y F3 cfg p md' c /\
          ((c = content \/ c = []) /\ written es = [] \/ c <> content /\ c <> [] /\ written es = [(p, c)] /\ In (EWrite p c (Ok tt)) es))).
