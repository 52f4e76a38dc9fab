(** * What a configuration means, as documented (docs/guide/configuration.rst)

    Vocabulary for the theorems C01-C12. It speaks about TOML tables, paths and rule
    names only; nothing here refers to the model of the merging code. *)
From Coq Require Import String List NArith Bool Arith.
From Verif Require Import Base PyStr Ftypes Paths RuleNameSpec Config.
Import ListNotations.

(** ** Generalities *)

(** The last / first value that is there. *)
Fixpoint last_some {A} (l : list (option A)) : option A :=
  match l with
  | [] => None
  | x :: l' => match last_some l' with Some y => Some y | None => x end
  end.

Fixpoint first_some {A} (l : list (option A)) : option A :=
  match l with
  | [] => None
  | Some x :: _ => Some x
  | None :: l' => first_some l'
  end.

(** A setting that is present and not empty. *)
Definition given (key : string) (d : table) : option toml :=
  match dget (u key) d with
  | Some v => if truthy v then Some v else None
  | None => None
  end.

(** The elements of an array setting. *)
Definition elements (key : string) (d : table) : list toml :=
  match dget (u key) d with Some (TArr l) => l | _ => [] end.

(** ** Which tables apply to a file *)

(** [dir] is the file or one of its parents. *)
Definition above (dir file : path) : Prop := exists below, file = dir ++ below.

(** An override of a config in [dir] that applies to [file]: its path, relative to [dir],
    is the file or one of its parents. *)
Definition override_applies (dir file : path) (o : toml) : Prop :=
  exists t p, o = TTab t /\ dget (u "path") t = Some (TStr p) /\
              above (resolve (joinpath dir p)) file.

(** The tables that apply, in increasing priority, each with the directory of its config:
    configs from the furthest to the nearest, each followed by its applying overrides in order. *)
Inductive overrides_layers (file dir : path) : list toml -> list (path * table) -> Prop :=
| ol_nil : overrides_layers file dir [] []
| ol_yes : forall t os ls, override_applies dir file (TTab t) -> overrides_layers file dir os ls ->
    overrides_layers file dir (TTab t :: os) ((dir, t) :: ls)
| ol_no : forall o os ls, ~ override_applies dir file o -> overrides_layers file dir os ls ->
    overrides_layers file dir (o :: os) ls.

Inductive layers (file : path) : list raw -> list (path * table) -> Prop :=
| l_nil : layers file [] []
| l_yes : forall c cs ls lo, layers file cs ls -> above (resolve (rc_dir c)) file ->
    overrides_layers file (rc_dir c) (elements "overrides" (rc_data c)) lo ->
    layers file (c :: cs) (ls ++ (rc_dir c, rc_data c) :: lo)
| l_no : forall c cs ls lo, layers file cs ls -> ~ above (resolve (rc_dir c)) file ->
    overrides_layers file (rc_dir c) (elements "overrides" (rc_data c)) lo ->
    layers file (c :: cs) (ls ++ lo).

(** ** Mentions of rules *)

Record mention := Mention { m_dir : path; m_enable : bool; m_value : toml }.

Definition mentions_of (l : path * table) : list mention :=
  map (Mention (fst l) true) (elements "enable" (snd l)) ++
  map (Mention (fst l) false) (elements "disable" (snd l)).

(** fixit.rules counts as enabled before everything else. *)
Definition mentions (ls : list (path * table)) : list mention :=
  Mention [] true (TStr (u "fixit.rules")) :: flat_map mentions_of ls.

(** The mention names the rule written [t] (a trailing newline is tolerated by the parser). *)
Definition names (t : str) (x : mention) : Prop :=
  m_value x = TStr t \/ m_value x = TStr (t ++ [10%N]).

(** The last mention of [t] in [ms] is one that enables (disables) it. *)
Definition last_mention (t : str) (enable : bool) (ms : list mention) : Prop :=
  exists before x after, ms = before ++ x :: after /\ names t x /\ m_enable x = enable /\
    forall y, In y after -> ~ names t y.

(** ** Valid configurations *)

Definition is_rule_name (v : toml) : Prop :=
  exists local mm n s, rule_name local mm n s /\ (v = TStr s \/ v = TStr (s ++ [10%N])).

Definition array_or_absent (key : string) (d : table) : Prop :=
  dget (u key) d = None \/ exists l, dget (u key) d = Some (TArr l).

Definition scalar (v : toml) : Prop :=
  match v with TStr _ | TInt _ | TFloat _ _ | TBool _ => True | _ => False end.

Definition valid_options (d : table) : Prop :=
  dget (u "options") d = None \/
  exists m, dget (u "options") d = Some (TTab m) /\
    forall rule v, In (rule, v) m -> exists e, v = TTab e /\ forall k x, In (k, x) e -> scalar x.

(** What is required of every table and override. *)
Definition valid_types (d : table) : Prop :=
  array_or_absent "enable" d /\ array_or_absent "disable" d /\ valid_options d.

(** What is required, beyond that, of those that apply to the file. *)
Definition valid_content (E : env) (d : table) : Prop :=
  (forall v, In v (elements "enable" d) \/ In v (elements "disable" d) -> is_rule_name v) /\
  (forall v, given "python-version" d = Some v -> exists s, v = TStr s /\ e_version_ok E s = true) /\
  (forall v, given "formatter" d = Some v -> exists s, v = TStr s /\ In s (e_styles E)).

Definition valid_override (E : env) (file dir : path) (o : toml) : Prop :=
  exists t, o = TTab t /\ (exists p, p <> [] /\ dget (u "path") t = Some (TStr p)) /\
    valid_types t /\ (override_applies dir file o -> valid_content E t).

(** The project root once config [c] is taken into account: its own directory if it says
    root = true or if no root is known yet. *)
Definition root_after (root : option path) (c : raw) : path :=
  match given "root" (rc_data c), root with
  | None, Some r => r
  | _, _ => rc_dir c
  end.

Definition valid_root_import (root : path) (c : raw) : Prop :=
  forall v, given "enable-root-import" (rc_data c) = Some v ->
    rc_dir c = root /\
    forall s, v = TStr s -> is_absolute s = false /\ ~ In (u "..") (parts s).

Definition valid_format (d : table) : Prop :=
  forall v, given "output-format" d = Some v ->
    v = TStr (u "custom") \/ v = TStr (u "fixit") \/ v = TStr (u "vscode").

Definition valid_raw (E : env) (file root : path) (c : raw) : Prop :=
  valid_root_import root c /\ valid_format (rc_data c) /\ valid_types (rc_data c) /\
  (above (resolve (rc_dir c)) file -> valid_content E (rc_data c)) /\
  array_or_absent "overrides" (rc_data c) /\
  (forall o, In o (elements "overrides" (rc_data c)) -> valid_override E file (rc_dir c) o).

(** A sequence of configs, the furthest first. *)
Fixpoint valid_configs (E : env) (file : path) (root : option path) (cs : list raw) : Prop :=
  match cs with
  | [] => True
  | c :: cs' => valid_raw E file (root_after root c) c /\
                valid_configs E file (Some (root_after root c)) cs'
  end.

(** TOML tables have distinct keys; only the option tables matter here. *)
Definition distinct_options (d : table) : Prop :=
  forall m, dget (u "options") d = Some (TTab m) ->
    NoDup (dkeys m) /\ forall rule e, In (rule, TTab e) m -> NoDup (dkeys e).

(** The options a table gives for one rule. *)
Definition options_for (rule : str) (d : table) : option (dict toml) :=
  match dget (u "options") d with
  | Some (TTab m) => match dget rule m with Some (TTab e) => Some e | _ => None end
  | _ => None
  end.

(** The iteration order of a set is some order of its elements. *)
Definition fair_iteration (E : env) : Prop := forall l, Permutation.Permutation (e_iter E l) l.
