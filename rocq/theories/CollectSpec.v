(** * Vocabulary for rule collection (C14-C20, C48), independent of the code's helpers *)
From Coq Require Import String List NArith Bool Arith.
From Verif Require Import Base PyStr Ftypes Paths Config ConfigSpec Collect.
Import ListNotations.

(** The modules that a module stands for: itself and its non-package submodules, in order. *)
Inductive loads : pymod -> list pymod -> Prop :=
| ld : forall attrs subs ms,
    loads_subs (match subs with None => [] | Some l => l end) ms ->
    loads (PyMod attrs subs) (PyMod attrs subs :: ms)
with loads_subs : list (str * bool * res pymod) -> list pymod -> Prop :=
| ls_nil : loads_subs [] []
| ls_pkg : forall n r l ms, loads_subs l ms -> loads_subs ((n, true, r) :: l) ms
| ls_mod : forall n m l ms1 ms2, loads m ms1 -> loads_subs l ms2 ->
    loads_subs ((n, false, Ok m) :: l) (ms1 ++ ms2).

Definition attributes (m : pymod) : list (str * pyobj) := match m with PyMod a _ => a end.

(** The rule class that a module binds to [name] during the local import [gen] (if it is one). *)
Definition binds (gen : option nat) (m : pymod) (name : str) : option cls :=
  match dget name (attributes m) with
  | Some (ORule id fresh) => Some (id, if fresh then gen else None)
  | _ => None
  end.

(** The class that a list of modules provides under [name]: the last binding counts. *)
Definition provides (gen : option nat) (ms : list pymod) (name : str) : option cls :=
  last_some (map (fun m => binds gen m name) ms).

Definition distinct_attrs (ms : list pymod) : Prop := forall m, In m ms -> NoDup (dkeys (attributes m)).

(** Is the rule local; which module does importing it give; which local import is it. *)
Definition is_local (q : qrule) : bool := match q_local q with Some (_ :: _) => true | _ => false end.

Definition outcome (W : world) (q : qrule) (s : pystate) : res pymod :=
  if is_local q then
    match q_root q with
    | Some r => snd (w_local W (ps_path s) r (q_module q))
    | None => Err AssertionError
    end
  else snd (w_import W (ps_path s) (q_module q)).

Definition generation (q : qrule) (s : pystate) : option nat :=
  if is_local q then Some (ps_gen s) else None.

(** ** Looking up a sequence of entries *)

Definition finding := (qrule * res (list cls))%type.

Fixpoint findings (W : world) (qs : list qrule) (s : pystate) : list finding * pystate :=
  match qs with
  | [] => ([], s)
  | q :: qs' => let (r, s1) := find_rules W q s in
                let (fs, s2) := findings W qs' s1 in ((q, r) :: fs, s2)
  end.

Definition found (fs : list finding) (k : cls) : Prop :=
  exists q ks, In (q, Ok ks) fs /\ In k ks.

(** Found for an entry that names a single rule. *)
Definition named (fs : list finding) (k : cls) : Prop :=
  exists q ks n, In (q, Ok ks) fs /\ In k ks /\ q_name q = Some n /\ n <> [].

(** The interpreter state in which the entries are looked up: the directory for root imports is
    on sys.path, namely the root of the project, or the configured directory under it. *)
Definition on_path (d : str) (s : pystate) : pystate :=
  if existsb (str_eqb d) (ps_path s) then s
  else PyState (ps_path s ++ [d]) (ps_modules s) (ps_gen s).

Definition with_root_import (W : world) (c : config) (s : pystate) : pystate :=
  match c_import c with
  | RIFalse => s
  | RITrue => on_path (w_posix W (c_root c)) s
  | RIPath below => on_path (w_posix W (c_root c ++ below)) s
  end.

(** None of the tags of the class is excluded, and one of them is included unless none is asked for. *)
Definition tags_ok (W : world) (c : config) (k : cls) : Prop :=
  (forall x, In x (w_tags W (fst k)) -> ~ In x (t_exclude (c_tags c))) /\
  (t_include (c_tags c) = [] \/ exists x, In x (w_tags W (fst k)) /\ In x (t_include (c_tags c))).

Definition version_ok (W : world) (c : config) (k : cls) : Prop :=
  forall v, c_python c = Some v -> w_matches W v (w_version W (fst k)) = Ok true.

Definition fair_sets (W : world) : Prop := forall l, Permutation.Permutation (w_iter W l) l.

(** The entry can be looked up, with the given sys.path. *)
Definition loads_ok (W : world) (sys_path : list str) (q : qrule) : bool :=
  match fst (find_rules W q (PyState sys_path [] 0)) with Ok _ => true | Err _ => false end.

(** The config without the entries that fail to load. *)
Definition without_failing (W : world) (c : config) (s : pystate) : config :=
  let ok := loads_ok W (ps_path (with_root_import W c s)) in
  Config (c_path c) (c_root c) (c_import c) (filter ok (c_enable c)) (filter ok (c_disable c))
         (c_options c) (c_python c) (c_tags c) (c_formatter c) (c_format c) (c_template c).

(** ** validate_config *)

(** The message for one entry, if any. *)
Definition verdict (W : world) (root : path) (sys_path : list str) (context : str) (rule : toml) : list message :=
  match parse_rule_toml rule root with
  | Err e => [MParse rule context e]
  | Ok q => match fst (find_rules W q (PyState sys_path [] 0)) with
            | Ok _ => []
            | Err e => [MImport rule context e]
            end
  end.

(** The entries of a config, in order. *)
Definition override_entries (o : toml) : list (str * toml) :=
  match o with
  | TTab t => map (pair (u "override enable")) (elements "enable" t) ++
              map (pair (u "override disable")) (elements "disable" t)
  | _ => []
  end.

Definition entries (d : table) : list (str * toml) :=
  map (pair (u "global enable")) (elements "enable" d) ++
  map (pair (u "global disable")) (elements "disable" d) ++
  flat_map override_entries (elements "overrides" d).

(** enable, disable and overrides have the right types. *)
Definition well_typed (d : table) : Prop :=
  array_or_absent "enable" d /\ array_or_absent "disable" d /\ array_or_absent "overrides" d /\
  forall o, In o (elements "overrides" d) -> exists t, o = TTab t /\
    array_or_absent "enable" t /\ array_or_absent "disable" t /\
    (dget (u "path") t = None \/ exists p, dget (u "path") t = Some (TStr p)).
