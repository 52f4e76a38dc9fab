(** * Cli: the commands (fixit/cli.py) and printing results (fixit/api.py 34-94) *)
From Coq Require Import String List NArith ZArith Bool Arith DecimalString.
From Verif Require Import Base PyStr Ftypes Paths Config Suppress Cst Engine Api Collect.
Import ListNotations.
Set Implicit Arguments.

(** ** What commands do

    Commands look at files, write files, use standard input and output as the generators of Api.v
    do, print lines, and ask the user. Simplifications: printing does not fail; colours are left
    out. *)
Inductive stream := Std | Diag.      (* standard output, standard error *)
Inductive choice := Yes | No | Quit. (* click.prompt asks until the answer is one of these *)

Inductive cmd (R : Type) :=
| CRet (r : R)
| CFail (e : exn)
| CPrint (s : stream) (t : str) (k : cmd R)
| CPrompt (k : option choice -> cmd R)                (* None: the user interrupts *)
| CLook (k : fs -> cmd R)
| CWrite (p : path) (c : str) (k : res unit -> cmd R)
| CStdin (k : res str -> cmd R)
| CStdout (c : str) (k : res unit -> cmd R).
Arguments CRet {R} r.
Arguments CFail {R} e.
Arguments CPrint {R} s t k.
Arguments CPrompt {R} k.
Arguments CLook {R} k.
Arguments CWrite {R} p c k.
Arguments CStdin {R} k.
Arguments CStdout {R} c k.

Fixpoint print_all {R} (l : list (stream * str)) (k : cmd R) : cmd R :=
  match l with [] => k | (s, t) :: l' => CPrint s t (print_all l' k) end.

(** The surroundings: the current directory, [str.format] for a template that may be any TOML
    value, the texts of metrics, exceptions and tracebacks. *)
Record cli := Cli {
  k_cwd : path;
  k_format : toml -> str -> str -> result -> str -> Z -> Z -> res str;
  k_metrics : metrics -> str;
  k_exn : exn -> str;
  k_traceback : exn -> str }.

(** ** api.py 34-94 [print_result] *)

(** [f"{n}"] *)
Definition dec (n : Z) : str := u (NilZero.string_of_int (Z.to_int n)).

Definition slash : str := u "/".
Fixpoint join_parts (l : list str) : str :=
  match l with
  | [] => []
  | [x] => x
  | x :: l' => x ++ slash ++ join_parts l'
  end.

(** [str(path)] for an absolute path and for a relative one *)
Definition show_abs (p : path) : str := slash ++ join_parts p.
Definition show_rel (p : path) : str := match p with [] => u "." | _ => join_parts p end.

(** api.py 50-54 *)
Definition show_path (cwd p : path) : str :=
  if is_prefix cwd p then show_rel (skipn (List.length cwd) p) else show_abs p.

(** api.py 34-94: the lines printed and whether the result is dirty *)
Definition print_result (K : cli) (x : result) (show_diff stderr : bool) (fmt : output_format) (tmpl : toml)
  : res (list (stream * str) * bool) :=
  let path := show_path (k_cwd K) (x_path x) in
  let out := if stderr then Diag else Std in
  match x_violation x with
  | Some v =>
      let start := rstart (v_range v) in
      let message := v_message v ++ (if autofixable v then u " (has autofix)" else []) in
      let! line :=
        match fmt with
        | OFfixit => Ok (path ++ u "@" ++ dec (line start) ++ u ":" ++ dec (column start) ++ u " " ++ v_rule v ++ u ": " ++ message)
        | OFvscode => Ok (path ++ u ":" ++ dec (line start) ++ u ":" ++ dec (column start) ++ u " " ++ v_rule v ++ u ": " ++ message)
        | OFcustom => k_format K tmpl message path x (v_rule v) (column start) (line start)
        end in
      Ok ((out, line) ::
          (if show_diff then match v_diff v with [] => [] | d => [(Std, d)] end else []),  (* not [out] *)
          true)
  | None =>
      match x_error x with
      | Some e => Ok ([(out, path ++ u ": EXCEPTION: " ++ k_exn K e); (out, strip (k_traceback K e))], true)
      | None => Ok ([], false)
      end
  end.

(** ** cli.py 24-47 [splash] *)

Definition plural (n : nat) (one many : string) : str := u (if Nat.eqb n 1 then one else many).
Definition decn (n : nat) : str := dec (Z.of_nat n).
Definition tools : str := [128736; 65039]%N.
Definition soap : str := [129532]%N.

Fixpoint commas (l : list str) : str :=
  match l with
  | [] => []
  | [x] => x
  | x :: l' => x ++ u ", " ++ commas l'
  end.

Definition splash (visited dirty : list path) (autofixes fixed : nat) : stream * str :=
  let v := List.length visited in
  let d := List.length dirty in
  match dirty with
  | _ :: _ =>
      let message := commas
        ([decn v ++ u " " ++ plural v "file" "files" ++ u " checked";
          decn d ++ u " " ++ plural d "file" "files" ++ u " with errors"]
         ++ (if Nat.eqb autofixes 0 then [] else [decn autofixes ++ u " auto-" ++ plural autofixes "fix" "fixes" ++ u " available"])
         ++ (if Nat.eqb fixed 0 then [] else [decn fixed ++ u " " ++ plural fixed "fix" "fixes" ++ u " applied"])) in
      (Diag, tools ++ u "  " ++ message ++ u " " ++ tools)
  | [] => (Diag, soap ++ u " " ++ decn v ++ u " " ++ plural v "file" "files" ++ u " clean " ++ soap)
  end.

(** ** cli.py 122-165 [lint] *)

Record tally := Tally { l_visited : list path; l_dirty : list path; l_autofixes : nat; l_fixed : nat; l_exit : N }.

Definition no_tally : tally := Tally [] [] 0 0 0.

Definition is_fixable (x : result) : bool := match x_violation x with Some v => autofixable v | None => false end.
Definition is_violation (x : result) : bool := match x_violation x with Some _ => true | None => false end.
Definition is_error (x : result) : bool := match x_error x with Some _ => true | None => false end.

(** cli.py 150-163: the body of the loop after printing *)
Definition lint_tally (t : tally) (x : result) (dirty : bool) : tally :=
  let visited := sadd path_eqb (x_path x) (l_visited t) in
  if dirty then
    let code := if is_violation x then N.lor (l_exit t) 1 else l_exit t in
    Tally visited (sadd path_eqb (x_path x) (l_dirty t))
      (if is_fixable x then S (l_autofixes t) else l_autofixes t) (l_fixed t)
      (if is_error x then N.lor code 2 else code)
  else Tally visited (l_dirty t) (l_autofixes t) (l_fixed t) (l_exit t).

(** cli.py 147-165: the loop over the results of fixit_paths, a generator that is not answered.
    The metrics hook is [print]. *)
Fixpoint lint_loop (K : cli) (diff : bool) (cfg : config) (g : prog unit) (t : tally) : cmd N :=
  match g with
  | Ret _ => print_all [splash (l_visited t) (l_dirty t) (l_autofixes t) 0] (CRet (l_exit t))
  | Raise e => CFail e
  | Give x k =>
      match print_result K x diff false (c_format cfg) (c_template cfg) with
      | Err e => CFail e
      | Ok (lines, dirty) => print_all lines (lint_loop K diff cfg (k None) (lint_tally t x dirty))
      end
  | Look k => CLook (fun F => lint_loop K diff cfg (k F) t)
  | Write p c k => CWrite p c (fun o => lint_loop K diff cfg (k o) t)
  | Stdin k => CStdin (fun i => lint_loop K diff cfg (k i) t)
  | Stdout c k => CStdout c (fun o => lint_loop K diff cfg (k o) t)
  | Call m k => CPrint Std (k_metrics K m) (lint_loop K diff cfg (k (Ok tt)) t)
  end.

(** [paths or [Path.cwd()]] *)
Definition or_cwd (K : cli) (paths : list arg) : list arg :=
  match paths with [] => [PathArg (k_cwd K)] | _ => paths end.

(** cli.py 122-165; [api] is the call of fixit_paths, which starts when its first result is
    taken. *)
Definition lint_with (K : cli) (E : env) (opts : options) (diff : bool) (api : prog unit) : cmd N :=
  CLook (fun F => match generate_config E F (k_cwd K) None (Some opts) with
                  | Err e => CFail e
                  | Ok cfg => lint_loop K diff cfg api no_tally
                  end).

(** For several files fixit_paths uses processes, which is not a [prog]: the properties of lint
    hold for every [api]. This is the case of one file, or of standard input. *)
Definition lint (K : cli) (T : tool) (default_name : path) (opts : options) (metrics_ diff : bool) (paths : list arg) : cmd N :=
  lint_with K (t_env T) opts diff (fixit_paths_serial T default_name (or_cwd K paths) false (Some opts) metrics_).

(** ** cli.py 168-244 [fix] *)

(** cli.py 218-231 *)
Definition fix_tally (autofix : bool) (t : tally) (x : result) (dirty : bool) : tally :=
  let visited := sadd path_eqb (x_path x) (l_visited t) in
  if dirty then
    let n := if autofix && is_fixable x then 1 else 0 in
    Tally visited (sadd path_eqb (x_path x) (l_dirty t)) (n + l_autofixes t) (n + l_fixed t) (l_exit t)
  else Tally visited (l_dirty t) (l_autofixes t) (l_fixed t) (l_exit t).

Definition offered (t : tally) : tally := Tally (l_visited t) (l_dirty t) (S (l_autofixes t)) (l_fixed t) (l_exit t).
Definition taken (t : tally) : tally := Tally (l_visited t) (l_dirty t) (l_autofixes t) (S (l_fixed t)) (l_exit t).

Definition fix_end (t : tally) : cmd N :=
  print_all [splash (l_visited t) (l_dirty t) (l_autofixes t) (l_fixed t)] (CRet (l_exit t)).

(** cli.py 217-244: the loop. [generator.respond(True)] while handling a result is the answer to
    that result, and no respond is the answer None (util.py 43-61, see C33_routing). *)
Fixpoint fix_loop (K : cli) (interactive diff is_stdin : bool) (cfg : config) (g : prog unit) (t : tally) : cmd N :=
  let loop := fix_loop K interactive diff is_stdin cfg in
  match g with
  | Ret _ => fix_end t
  | Raise e => CFail e
  | Give x k =>
      match print_result K x (interactive || diff) is_stdin (c_format cfg) (c_template cfg) with
      | Err e => CFail e
      | Ok (lines, dirty) =>
          let t := fix_tally (negb interactive) t x dirty in
          print_all lines
            (if interactive && is_fixable x then
               CPrompt (fun a => match a with
                                 | None => CFail (OtherError 1)   (* click.Abort *)
                                 | Some Yes => loop (k (Some true)) (taken (offered t))
                                 | Some No => loop (k None) (offered t)
                                 | Some Quit => fix_end (offered t)
                                 end)
             else loop (k None) t)
      end
  | Look k => CLook (fun F => loop (k F) t)
  | Write p c k => CWrite p c (fun o => loop (k o) t)
  | Stdin k => CStdin (fun i => loop (k i) t)
  | Stdout c k => CStdout c (fun o => loop (k o) t)
  | Call m k => CPrint Std (k_metrics K m) (loop (k (Ok tt)) t)
  end.

(** cli.py 196-198 *)
Definition first_is_dash (paths : list arg) : bool := match paths with Dash :: _ => true | _ => false end.

Definition fix_ (K : cli) (T : tool) (default_name : path) (opts : options) (metrics_ interactive diff : bool)
    (paths : list arg) : cmd N :=
  let paths := or_cwd K paths in
  let is_stdin := first_is_dash paths in
  let interactive := interactive && negb is_stdin in
  CLook (fun F =>
    match generate_config (t_env T) F (k_cwd K) None (Some opts) with
    | Err e => CFail e
    | Ok cfg =>
        fix_loop K interactive diff is_stdin cfg
          (fixit_paths_serial T default_name paths (negb interactive) (Some opts) metrics_) no_tally
    end).

(** cli.py 305-317 [upgrade] *)
Definition upgrade_rule : qrule := QRule (u "fixit.upgrade") None None None.

Definition upgrade_options (o : options) : options :=
  Options (o_config_file o) (o_tags o) [upgrade_rule] (o_format o) (o_template o).

Definition upgrade (K : cli) (T : tool) (default_name : path) (opts : options) (metrics_ : bool) (paths : list arg) : cmd N :=
  fix_ K T default_name (upgrade_options opts) metrics_ false false paths.

(** ** cli.py 105-119 [main]: the options. [iter] is the order of a set of rules. *)
Definition parse_rules_option (iter : list qrule -> list qrule) (cwd : path) (rules : str) : res (list qrule) :=
  let! qs := map_res (fun r => parse_rule r cwd) (filter (fun r => negb (str_eqb r [])) (map strip (split 44 rules))) in
  Ok (sorted qrule_leb (iter (fold_left (fun s q => sadd qrule_eqb q s) qs []))).

Definition main_options (U : unicode) (iter : list qrule -> list qrule) (cwd : path) (config_file : option path)
    (tags rules : str) (fmt : option output_format) (tmpl : str) : res options :=
  let! t := tags_parse U tags in
  let! qs := parse_rules_option iter cwd rules in
  Ok (Options config_file (Some t) qs fmt tmpl).

(** ** cli.py 354-371 [validate-config]: the exit status; [exit(-1)] is 255 *)
Definition validate_command (W : world) (E : env) (F : fs) (p : path) (py : pystate) : list message * N :=
  let msgs := fst (validate_config W E F p py) in
  (msgs, match msgs with [] => 0%N | _ => 255%N end).
