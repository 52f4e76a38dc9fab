(** * Collect: importing and selecting lint rules (fixit/config.py) *)
From Coq Require Import String List NArith ZArith Bool Arith.
From Verif Require Import Base PyStr Regex Ftypes Paths Config.
Import ListNotations.
Set Implicit Arguments.

(** ** Python modules as importlib shows them *)

(** What a module attribute is bound to. A rule class is identified by the class statement that
    creates it; [fresh] says that the statement is in the package being imported itself (so that
    importing it again creates a new class) and not in a module that stays in sys.modules. *)
Inductive pyobj := ORule (id : N) (fresh : bool) | OLintRule | OOther.

(** A module: its attributes and, if it is a package, what [pkgutil.iter_modules] lists: name,
    is_pkg, and the outcome of importing it. *)
Inductive pymod := PyMod (attrs : list (str * pyobj)) (subs : option (list (str * bool * res pymod))).

(** A class object: the class statement and, if it was created by a local import, by which one. *)
Definition cls := (N * option nat)%type.

Definition cls_eqb (a b : cls) : bool :=
  N.eqb (fst a) (fst b) &&
  match snd a, snd b with
  | None, None => true
  | Some i, Some j => Nat.eqb i j
  | _, _ => false
  end.

(** config.py 79-84 [is_rule], applied to an attribute: [gen] is the local import in progress *)
Definition rule_of (gen : option nat) (o : pyobj) : option cls :=
  match o with
  | ORule id true => Some (id, gen)
  | ORule id false => Some (id, None)
  | OLintRule | OOther => None
  end.

(** [inspect.getmembers(module, is_rule)]: sorted by name; attribute names are distinct *)
Definition members (gen : option nat) (attrs : list (str * pyobj)) : list (str * cls) :=
  flat_map (fun nv => match rule_of gen (snd nv) with Some c => [(fst nv, c)] | None => [] end)
    (sorted (fun a b => str_leb (fst a) (fst b)) attrs).

(** config.py 177-199 [walk_module] *)
Fixpoint walk_module (gen : option nat) (m : pymod) : res (dict cls) :=
  match m with
  | PyMod attrs subs =>
      let rules := dupdate [] (members gen attrs) in
      match subs with
      | None => Ok rules
      | Some l =>
          (fix loop (l : list (str * bool * res pymod)) (rules : dict cls) : res (dict cls) :=
             match l with
             | [] => Ok rules
             | (_, is_pkg, r) :: l' =>
                 if is_pkg : bool then loop l' rules
                 else match r with
                      | Err e => Err e
                      | Ok sub => match walk_module gen sub with
                                  | Err e => Err e
                                  | Ok d => loop l' (dupdate rules d)
                                  end
                      end
             end) l rules
      end
  end.

(** ** The interpreter state *)

Record world := World {
  (* importlib.import_module of a global module, given sys.path: the modules this adds to
     sys.modules and the outcome. Simplification: the outcome does not depend on earlier imports *)
  w_import : list str -> str -> list str * res pymod;
  (* the same for a local module (leading dot), given the directory it is looked up in *)
  w_local : list str -> path -> str -> list str * res pymod;
  w_tags : N -> list str;                       (* the class attribute TAGS *)
  w_version : N -> str;                         (* the class attribute PYTHON_VERSION *)
  w_matches : str -> str -> res bool;           (* version in SpecifierSet(spec) *)
  w_new : N -> res unit;                        (* R() *)
  w_iter : list cls -> list cls;                (* iteration order of a set of classes *)
  w_posix : path -> str }.                      (* Path.as_posix() *)

Record pystate := PyState {
  ps_path : list str;                           (* sys.path *)
  ps_modules : list str;                        (* the keys of sys.modules *)
  ps_gen : nat }.                               (* how many local lookups succeeded: the identity of
                                                   the classes the next one creates *)

Definition fixit_local : str := u "fixit.local".

(** config.py 121-124: the finally clause of [local_rule_loader] *)
Definition purge_local (mods : list str) : list str :=
  filter (fun k => negb (startswith fixit_local k)) mods.

(** config.py 139-168: the import part of [find_rules]; for a local rule inside
    [local_rule_loader] (config.py 87-124), which asserts that the rule has a root, and whose
    import of fixit.local puts that name into sys.modules *)
Definition import_rules (W : world) (q : qrule) (s : pystate) : res (dict cls) * pystate :=
  match q_local q with
  | Some (_ :: _) =>
      match q_root q with
      | None => (Err AssertionError, PyState (ps_path s) (purge_local (fixit_local :: ps_modules s)) (ps_gen s))
      | Some root =>
          let (added, r) := w_local W (ps_path s) root (q_module q) in
          let rules := let! m := r in walk_module (Some (ps_gen s)) m in
          (rules, PyState (ps_path s) (purge_local (added ++ fixit_local :: ps_modules s)) (ps_gen s))
      end
  | _ =>
      let (added, r) := w_import W (ps_path s) (q_module q) in
      (let! m := r in walk_module None m,
       PyState (ps_path s) (added ++ ps_modules s) (ps_gen s))
  end.

(** config.py 128-174 [find_rules], consumed completely (as all callers do). The branch for
    collections is dead: the values of [walk_module] are rule classes. *)
Definition find_rules (W : world) (q : qrule) (s : pystate) : res (list cls) * pystate :=
  let (r, s') := import_rules W q s in
  let found :=
    let! rules := r in
    match q_name q with
    | Some (c :: n) => match dget (c :: n) rules with
                       | Some k => Ok [k]
                       | None => Err CollectionError
                       end
    | _ => Ok (flat_map (fun name => match dget name rules with Some k => [k] | None => [] end)
                 (sorted str_leb (dkeys rules)))
    end in
  (match found with Err ImportError => Err CollectionError | _ => found end,
   match found, q_local q with
   | Ok _, Some (_ :: _) => PyState (ps_path s') (ps_modules s') (S (ps_gen s'))
   | _, _ => s'
   end).

(** ** Sets and dicts of classes *)

Definition kmem (k : cls) (l : list cls) : bool := existsb (cls_eqb k) l.
Definition kunion (a b : list cls) : list cls := fold_left (fun s k => sadd cls_eqb k s) b a.
Definition kminus (a b : list cls) : list cls := filter (fun k => negb (kmem k b)) a.

(** debug_reasons *)
Inductive reason := RDisabled | RTags | RVersion.
Definition reasons := list (cls * reason).

Fixpoint rget (k : cls) (d : reasons) : option reason :=
  match d with
  | [] => None
  | (k', r) :: d' => if cls_eqb k k' then Some r else rget k d'
  end.

Fixpoint rset (k : cls) (r : reason) (d : reasons) : reasons :=
  match d with
  | [] => [(k, r)]
  | (k', r') :: d' => if cls_eqb k k' then (k', r) :: d' else (k', r') :: rset k r d'
  end.

Definition rupdate (d : reasons) (ks : list cls) (r : reason) : reasons :=
  fold_left (fun acc k => rset k r acc) ks d.

Definition rkeys (d : reasons) : list cls := map fst d.

(** ** collect_rules *)

Record cstate := CState {
  cs_all : list cls;              (* all_rules *)
  cs_named : list cls;            (* named_enables *)
  cs_disabled : reasons;          (* disabled_rules *)
  cs_py : pystate }.

Definition has_name (q : qrule) : bool := match q_name q with Some (_ :: _) => true | _ => false end.

(** config.py 228-237 *)
Definition enable_one (W : world) (c : cstate) (q : qrule) : cstate :=
  let (r, py) := find_rules W q (cs_py c) in
  match r with
  | Ok ks => CState (kunion (cs_all c) ks)
                    (if has_name q then kunion (cs_named c) ks else cs_named c)
                    (cs_disabled c) py
  | Err _ => CState (cs_all c) (cs_named c) (cs_disabled c) py
  end.

(** config.py 239-252 *)
Definition disable_one (W : world) (c : cstate) (q : qrule) : cstate :=
  let (r, py) := find_rules W q (cs_py c) in
  match r with
  | Ok ks => let d := rupdate (cs_disabled c) (filter (fun k => negb (kmem k (cs_named c))) ks) RDisabled in
             CState (kminus (cs_all c) (rkeys d)) (cs_named c) d py
  | Err _ => CState (cs_all c) (cs_named c) (cs_disabled c) py
  end.

(** config.py 254-258 *)
Definition filter_tags (W : world) (t : tags) (all : list cls) (d : reasons) : list cls * reasons :=
  if tags_bool t then
    let d := rupdate d (filter (fun k => negb (tags_contains t (TagColl (w_tags W (fst k))))) (w_iter W all)) RTags in
    (kminus all (rkeys d), d)
  else (all, d).

(** config.py 260-268: [SpecifierSet] may raise InvalidSpecifier *)
Definition filter_version (W : world) (v : option str) (all : list cls) (d : reasons) : res (list cls * reasons) :=
  match v with
  | None => Ok (all, d)
  | Some v =>
      let! bad := fold_res (fun acc k => let! b := w_matches W v (w_version W (fst k)) in
                                         Ok (if b : bool then acc else acc ++ [k])) (w_iter W all) [] in
      let d := rupdate d bad RVersion in
      Ok (kminus all (rkeys d), d)
  end.

(** util.py 73-91 [append_sys_path]: entering, and leaving normally; there is no try, so that
    nothing is undone when the body raises *)
Definition remove_first (x : str) (l : list str) : list str :=
  (fix go l := match l with [] => [] | y :: l' => if str_eqb x y then l' else y :: go l' end) l.

Definition enter_path (p : str) (sys_path : list str) : bool * list str :=
  if existsb (str_eqb p) sys_path then (false, sys_path) else (true, sys_path ++ [p]).

(** config.py 220-226 *)
Definition import_dir (W : world) (c : config) : option str :=
  match c_import c with
  | RIFalse => None
  | RITrue => Some (w_posix W (c_root c))
  | RIPath ps => Some (w_posix W (c_root c ++ ps))
  end.

(** config.py 202-272 [collect_rules]: the classes instantiated, the reasons, and the
    interpreter state afterwards, also when an exception leaves it. *)
Definition collect_rules (W : world) (c : config) (py : pystate) : res (list cls * reasons) * pystate :=
  let '(appended, py0) :=
    match import_dir W c with
    | None => (None, py)
    | Some p => let (b, sp) := enter_path p (ps_path py) in
                ((if b : bool then Some p else None), PyState sp (ps_modules py) (ps_gen py))
    end in
  let s := fold_left (enable_one W) (c_enable c) (CState [] [] [] py0) in
  let s := fold_left (disable_one W) (c_disable c) s in
  let '(all, d) := filter_tags W (c_tags c) (cs_all s) (cs_disabled s) in
  let r :=
    let! '(all, d) := filter_version W (c_python c) all d in
    let ks := w_iter W all in
    let! _ := map_res (fun k => w_new W (fst k)) ks in
    Ok (ks, d) in
  let py1 := cs_py s in
  match r with
  | Err _ => (r, py1)
  | Ok _ => (r, match appended with
                | None => py1
                | Some p => PyState (remove_first p (ps_path py1)) (ps_modules py1) (ps_gen py1)
                end)
  end.

(** ** validate_config *)

(** The messages it returns *)
Inductive message :=
| MParse (rule : toml) (context : str) (e : exn)        (* Failed to parse rule *)
| MImport (rule : toml) (context : str) (e : exn)       (* Failed to import rule *)
| MInvalid (e : exn).                                   (* Invalid config *)

(** Iterating over a TOML value, config.py 609: strings by character, tables by key *)
Definition iter_toml (v : toml) : res (list toml) :=
  match v with
  | TArr l => Ok l
  | TStr s => Ok (map (fun c => TStr [c]) s)
  | TTab d => Ok (map (fun kv => TStr (fst kv)) d)
  | _ => Err TypeError
  end.

(** config.py 608-622 [validate_rules]: one rule *)
Definition validate_rule (W : world) (root : path) (context : str) (st : list message * pystate) (rule : toml)
  : list message * pystate :=
  let (msgs, py) := st in
  match parse_rule_toml rule root with
  | Err e => (msgs ++ [MParse rule context e], py)
  | Ok q => let (r, py) := find_rules W q py in
            match r with
            | Ok _ => (msgs, py)
            | Err e => (msgs ++ [MImport rule context e], py)
            end
  end.

Definition validate_rules (W : world) (root : path) (v : option toml) (context : str)
    (st : list message * pystate) : list message * pystate * option exn :=
  match v with
  | None => (st, None)
  | Some v => match iter_toml v with
              | Ok l => (fold_left (validate_rule W root context) l st, None)
              | Err e => (st, Some e)
              end
  end.

(** config.py 628-637: one override. Contexts are abbreviated: the real one shows the path. *)
Definition validate_override (W : world) (root : path) (st : list message * pystate) (o : toml)
  : list message * pystate * option exn :=
  match o with
  | TTab t =>
      match (match dget (u "path") t with
             | None => None | Some (TStr _) => None | Some _ => Some TypeError end) with
      | Some e => (st, Some e)
      | None =>
          let '(st, e) := validate_rules W root (dget (u "enable") t) (u "override enable") st in
          match e with
          | Some e => (st, Some e)
          | None => validate_rules W root (dget (u "disable") t) (u "override disable") st
          end
      end
  | _ => (st, Some AttributeError)
  end.

Fixpoint validate_overrides (W : world) (root : path) (l : list toml) (st : list message * pystate)
  : list message * pystate * option exn :=
  match l with
  | [] => (st, None)
  | o :: l' => let '(st, e) := validate_override W root st o in
               match e with Some e => (st, Some e) | None => validate_overrides W root l' st end
  end.

(** config.py 604-639, the body of the try *)
Definition validate_body (W : world) (E : env) (F : fs) (p : path) (py : pystate)
  : list message * pystate * option exn :=
  let root := parent p in
  match read_configs E F [p] with
  | Err e => ([], py, Some e)
  | Ok [] => ([], py, Some IndexError)
  | Ok (c :: _) =>
      let d := rc_data c in
      let '(st, e) := validate_rules W root (dget (u "enable") d) (u "global enable") ([], py) in
      match e with
      | Some e => (st, Some e)
      | None =>
          let '(st, e) := validate_rules W root (dget (u "disable") d) (u "global disable") st in
          match e with
          | Some e => (st, Some e)
          | None =>
              match dget (u "overrides") d with
              | None => (st, None)
              | Some v => match iter_toml v with
                          | Err e => (st, Some e)
                          | Ok l => validate_overrides W root l st
                          end
              end
          end
      end
  end.

(** config.py 597-642 [validate_config] *)
Definition validate_config (W : world) (E : env) (F : fs) (p : path) (py : pystate) : list message * pystate :=
  let '(msgs, py, e) := validate_body W E F p py in
  match e with Some e => (msgs ++ [MInvalid e], py) | None => (msgs, py) end.
