(** * Config: locating, reading, merging and validating configuration (fixit/config.py) *)
From Coq Require Import String List NArith ZArith Bool Arith.
From Verif Require Import Base PyStr Regex Ftypes Paths.
Import ListNotations.
Set Implicit Arguments.

(** ** TOML values, as tomllib returns them *)
Inductive toml :=
| TStr (s : str)
| TInt (z : Z)
| TFloat (zero : bool) (repr : str)   (* only its truth value and identity matter *)
| TBool (b : bool)
| TDate (repr : str)                  (* dates and times: always true *)
| TArr (l : list toml)
| TTab (d : list (str * toml)).

Definition table := dict toml.

(** [bool(v)] *)
Definition truthy (v : toml) : bool :=
  match v with
  | TStr [] => false | TStr _ => true
  | TInt z => negb (Z.eqb z 0)
  | TFloat zero _ => negb zero
  | TBool b => b
  | TDate _ => true
  | TArr [] => false | TArr _ => true
  | TTab [] => false | TTab _ => true
  end.

Definition truthy_opt (v : option toml) : bool :=
  match v with Some x => truthy x | None => false end.

(** [d.pop(k, default)], the default being represented by [None] *)
Definition pop (k : str) (d : table) : option toml * table := (dget k d, ddel k d).

(** ** The outside world: everything fixit asks other libraries about *)
Record env := Env {
  e_load : str -> res table;          (* tomllib.loads of a file's content *)
  e_version_ok : str -> bool;         (* packaging: Version(s) does not raise InvalidVersion *)
  e_running : str;                    (* platform.python_version() *)
  e_styles : list str;                (* the string keys of FORMAT_STYLES *)
  e_iter : list qrule -> list qrule   (* the iteration order of a set of rules *)
}.

Record fs := FS {
  f_file : path -> option str;        (* content of a regular file *)
  f_isdir : path -> bool }.

(** config.py 57 [FIXIT_CONFIG_FILENAMES] *)
Definition config_filenames : list str := [u "fixit.toml"; u ".fixit.toml"; u "pyproject.toml"].

Definition is_file (F : fs) (p : path) : bool :=
  match f_file F p with Some _ => true | None => false end.

(** config.py 296-305: the loop of [locate_configs]; the current path is reversed, so that
    the recursion goes from child to parent. *)
Fixpoint locate_loop (F : fs) (root : path) (rpath : path) : list path :=
  let path := rev rpath in
  filter (is_file F) (map (fun name => path ++ [name]) config_filenames) ++
  match rpath with
  | [] => []                            (* path == path.parent *)
  | _ :: up => if path_eqb path root then [] else locate_loop F root up
  end.

(** config.py 275-307 [locate_configs] *)
Definition locate_configs (F : fs) (path : path) (root : option Ftypes.path) : res (list Ftypes.path) :=
  let path := if f_isdir F path then path else parent path in
  let root := match root with Some r => resolve r | None => [] end in
  if is_prefix root path then Ok (locate_loop F root (rev path)) else Err ValueError.

(** ftypes.py 246-252 [RawConfig] *)
Record raw := Raw { rc_path : path; rc_data : table }.
Definition rc_dir (c : raw) : path := parent (rc_path c).

(** config.py 325 [data.get("tool", {}).get("fixit", {})]: [Ok None] when missing or false *)
Definition fixit_section (data : table) : res (option toml) :=
  match dget (u "tool") data with
  | None => Ok None
  | Some (TTab tool) =>
      match dget (u "fixit") tool with
      | Some v => Ok (if truthy v then Some v else None)
      | None => Ok None
      end
  | Some _ => Err AttributeError
  end.

(** config.py 310-334 [read_configs] *)
Fixpoint read_configs (E : env) (F : fs) (paths : list path) : res (list raw) :=
  match paths with
  | [] => Ok []
  | p :: rest =>
      let p := resolve p in
      match f_file F p with
      | None => Err OSError
      | Some content =>
          let! data := e_load E content in
          let! section := fixit_section data in
          match section with
          | None => read_configs E F rest
          | Some (TTab d) =>
              if truthy_opt (dget (u "root") d) then Ok [Raw p d]
              else let! more := read_configs E F rest in Ok (Raw p d :: more)
          | Some _ => Err AttributeError       (* config.data.get on a non-table *)
          end
      end
  end.

(** config.py 337-351 [get_sequence]. The table popped from is [config.data], or the override
    when one is given: an override is never empty when this is called, as its true "path" entry
    is not popped, so [if data] always selects it. ftypes.py 112-113 [is_sequence]: of all TOML
    values only arrays qualify. *)
Definition get_sequence (key : str) (d : table) : res (list toml * table) :=
  match pop key d with
  | (None, d') => Ok ([], d')
  | (Some (TArr l), d') => Ok (l, d')
  | (Some _, _) => Err ConfigError
  end.

Definition rule_options := dict toml.

(** ftypes.py 43 [RuleOptionTypes]: str, int, float; bool is a subclass of int *)
Definition option_scalar (v : toml) : bool :=
  match v with TStr _ | TInt _ | TFloat _ _ | TBool _ => true | _ => false end.

(** config.py 370-377: the entries of one rule's options *)
Definition options_entry (acc : rule_options) (kv : str * toml) : res rule_options :=
  if option_scalar (snd kv) then Ok (dset (fst kv) (snd kv) acc) else Err ConfigError.

(** config.py 368-377: one rule of the options table *)
Definition options_rule (acc : dict rule_options) (kv : str * toml) : res (dict rule_options) :=
  match snd kv with
  | TTab entries => let! o := fold_res options_entry entries [] in Ok (dset (fst kv) o acc)
  | _ => Err AttributeError
  end.

(** config.py 354-379 [get_options] *)
Definition get_options (key : str) (d : table) : res (dict rule_options * table) :=
  match pop key d with
  | (None, d') => Ok ([], d')
  | (Some (TTab m), d') => let! o := fold_res options_rule m [] in Ok (o, d')
  | (Some _, _) => Err ConfigError
  end.

(** The variables that [process_subpath] updates (config.py 411-419) *)
Record mstate := MState {
  s_enable : list qrule;               (* a set *)
  s_disable : list qrule;              (* a set *)
  s_options : dict rule_options;
  s_python : option str;
  s_formatter : option str }.

(** [QualifiedRuleRegex.match(rule)] raises TypeError unless [rule] is a str *)
Definition parse_rule_toml (v : toml) (root : path) : res qrule :=
  match v with TStr s => parse_rule s root | _ => Err TypeError end.

(** config.py 440-443 *)
Definition add_enable (dir : path) (s : mstate) (rule : toml) : res mstate :=
  let! q := parse_rule_toml rule dir in
  Ok (MState (sadd qrule_eqb q (s_enable s)) (sdiscard qrule_eqb q (s_disable s))
             (s_options s) (s_python s) (s_formatter s)).

(** config.py 445-448 *)
Definition add_disable (dir : path) (s : mstate) (rule : toml) : res mstate :=
  let! q := parse_rule_toml rule dir in
  Ok (MState (sdiscard qrule_eqb q (s_enable s)) (sadd qrule_eqb q (s_disable s))
             (s_options s) (s_python s) (s_formatter s)).

(** config.py 453-464: [Version(python_version)] raises InvalidVersion for a bad string and
    TypeError for anything but a string *)
Definition set_python (E : env) (v : option toml) (s : mstate) : res mstate :=
  match v with
  | None => Ok s
  | Some x =>
      if truthy x then
        match x with
        | TStr t => if e_version_ok E t
                    then Ok (MState (s_enable s) (s_disable s) (s_options s) (Some t) (s_formatter s))
                    else Err ConfigError
        | _ => Err TypeError
        end
      else Ok (MState (s_enable s) (s_disable s) (s_options s) None (s_formatter s))
  end.

(** config.py 466-472: [formatter not in FORMAT_STYLES] is a dict lookup; arrays and tables
    are unhashable, other non-strings are not found *)
Definition set_formatter (E : env) (v : option toml) (s : mstate) : res mstate :=
  match v with
  | None => Ok s
  | Some x =>
      if truthy x then
        match x with
        | TStr t => if existsb (str_eqb t) (e_styles E)
                    then Ok (MState (s_enable s) (s_disable s) (s_options s) (s_python s) (Some t))
                    else Err ConfigError
        | TArr _ | TTab _ => Err TypeError
        | _ => Err ConfigError
        end
      else Ok s
  end.

(** config.py 421-472 [process_subpath] *)
Definition process_subpath (E : env) (path dir subpath : path)
    (enable disable : list toml) (options : dict rule_options)
    (python formatter : option toml) (s : mstate) : res mstate :=
  if negb (is_prefix (resolve subpath) path) then Ok s
  else
    let! s := fold_res (add_enable dir) enable s in
    let! s := fold_res (add_disable dir) disable s in
    let s := match options with
             | [] => s
             | _ => MState (s_enable s) (s_disable s) (dupdate (s_options s) options)
                           (s_python s) (s_formatter s)
             end in
    let! s := set_python E python s in
    set_formatter E formatter s.

(** config.py 512-519 and 532-539: the five settings of a table or override, popped in
    the order of the call's arguments, and the call; also returns the remaining table *)
Definition process_table (E : env) (path dir subpath : path) (d : table) (s : mstate) : res (mstate * table) :=
  let! '(enable, d) := get_sequence (u "enable") d in
  let! '(disable, d) := get_sequence (u "disable") d in
  let! '(options, d) := get_options (u "options") d in
  let (python, d) := pop (u "python-version") d in
  let (formatter, d) := pop (u "formatter") d in
  let! s := process_subpath E path dir subpath enable disable options python formatter s in
  Ok (s, d).

(** config.py 521-539: one override; [config.path.parent / subpath] is a TypeError unless
    subpath is a string *)
Definition process_override (E : env) (path dir : path) (s : mstate) (override : toml) : res mstate :=
  match override with
  | TTab o =>
      match dget (u "path") o with
      | None => Err ConfigError
      | Some sub =>
          if truthy sub then
            match sub with
            | TStr t => let! '(s, _) := process_table E path dir (joinpath dir t) o s in Ok s
            | _ => Err TypeError
            end
          else Err ConfigError
      end
  | _ => Err ConfigError
  end.

(** ftypes.py 56-60 [OutputFormat] *)
Inductive output_format := OFcustom | OFfixit | OFvscode.

Definition parse_output_format (v : toml) : res output_format :=
  match v with
  | TStr s => if str_eqb s (u "custom") then Ok OFcustom
              else if str_eqb s (u "fixit") then Ok OFfixit
              else if str_eqb s (u "vscode") then Ok OFvscode
              else Err ConfigError
  | _ => Err ConfigError
  end.

(** enable-root-import: False, True or a relative Path *)
Inductive root_import := RIFalse | RITrue | RIPath (parts : list str).

(** The variables of [merge_configs] itself *)
Record gstate := GState {
  g_root : option path;
  g_import : root_import;
  g_format : output_format;
  g_template : toml;                    (* any true TOML value is accepted unchecked *)
  g_warn : list str;                    (* unknown options logged *)
  g_m : mstate }.

(** config.py 482-499: enable-root-import *)
Definition root_import_of (root dir : path) (v : option toml) (cur : root_import) : res root_import :=
  if truthy_opt v then
    if negb (path_eqb root dir) then Err ConfigError
    else match v with
         | Some (TStr s) =>
             if is_absolute s then Err ConfigError
             else if existsb (str_eqb (u "..")) (parts s) then Err ConfigError
             else Ok (RIPath (parts s))
         | _ => Ok RITrue
         end
  else Ok cur.

(** config.py 474-542: one iteration of the loop over the configs *)
Definition merge_one (E : env) (path : path) (g : gstate) (c : raw) : res gstate :=
  let dir := rc_dir c in
  let root := match g_root g with None => dir | Some r => r end in
  let (rootv, d) := pop (u "root") (rc_data c) in
  let root := if truthy_opt rootv then dir else root in
  let (impv, d) := pop (u "enable-root-import") d in
  let! import := root_import_of root dir impv (g_import g) in
  let (fmtv, d) := pop (u "output-format") d in
  let! format := (match fmtv with
                  | Some v => if truthy v then parse_output_format v else Ok (g_format g)
                  | None => Ok (g_format g)
                  end) in
  let (tmplv, d) := pop (u "output-template") d in
  let template := match tmplv with
                  | Some v => if truthy v then v else g_template g
                  | None => g_template g
                  end in
  let! '(s, d) := process_table E path dir dir d (g_m g) in
  let! '(overrides, d) := get_sequence (u "overrides") d in
  let! s := fold_res (process_override E path dir) overrides s in
  Ok (GState (Some root) import format template (g_warn g ++ dkeys d) s).

(** ftypes.py 209-243 [Config] *)
Record config := Config {
  c_path : path;
  c_root : path;
  c_import : root_import;
  c_enable : list qrule;
  c_disable : list qrule;
  c_options : dict rule_options;
  c_python : option str;
  c_tags : tags;
  c_formatter : option str;
  c_format : output_format;
  c_template : toml }.

(** config.py 411-419: initial values *)
Definition default_rules : qrule := QRule (u "fixit.rules") None None None.

Definition init_state (E : env) (root : option path) : gstate :=
  GState root RIFalse OFfixit (TStr []) []
    (MState [default_rules] [] [] (Some (e_running E)) None).

(** config.py 402-555 [merge_configs]; also returns the options warned about *)
Definition merge_configs (E : env) (path : path) (raws : list raw) (root : option Ftypes.path)
  : res (config * list str) :=
  let! g := fold_res (merge_one E path) (rev raws) (init_state E root) in
  let s := g_m g in
  Ok (Config path
        (match g_root g with Some r => r | None => [] end)
        (g_import g)
        (sorted qrule_leb (e_iter E (s_enable s)))
        (sorted qrule_leb (e_iter E (s_disable s)))
        (s_options s) (s_python s) no_tags (s_formatter s)
        (g_format g) (g_template g),
      g_warn g).

(** ftypes.py 182-194 [Options] (the fields generate_config uses) *)
Record options := Options {
  o_config_file : option path;
  o_tags : option tags;
  o_rules : list qrule;
  o_format : option output_format;
  o_template : str }.

(** config.py 580-592: command line options override the merged config *)
Definition apply_options (o : options) (c : config) : config :=
  Config (c_path c) (c_root c) (c_import c)
    (match o_rules o with [] => c_enable c | r => r end)
    (match o_rules o with [] => c_disable c | _ => [] end)
    (c_options c) (c_python c)
    (match o_tags o with Some t => if tags_bool t then t else c_tags c | None => c_tags c end)
    (c_formatter c)
    (match o_format o with Some f => f | None => c_format c end)
    (match o_template o with [] => c_template c | t => TStr t end).

(** config.py 558-594 [generate_config], for an absolute path *)
Definition generate_config (E : env) (F : fs) (path : path) (root : option Ftypes.path)
    (opts : option options) : res config :=
  let path := resolve path in
  let root := match root with Some r => Some (resolve r) | None => None end in
  let! paths := (match opts with
                 | Some o => match o_config_file o with
                             | Some f => Ok [f]
                             | None => locate_configs F path root
                             end
                 | None => locate_configs F path root
                 end) in
  let! raws := read_configs E F paths in
  let! '(c, _) := merge_configs E path raws root in
  Ok (match opts with Some o => apply_options o c | None => c end).
