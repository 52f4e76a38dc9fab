(** * Imports: rules about import statements (fixit/rules, fixit/upgrade) *)
From Coq Require Import String List NArith Bool Arith.
From Verif Require Import Base PyStr Py Classes.
Import ListNotations.
Set Implicit Arguments.

(** [from ..a.b import x, y as z]: [f_dots] dots, the module's dotted name if there is one, the names or None for a star. *)
Record alias := Alias { al_name : str; al_as : option str }.
Record import_from := From { f_dots : nat; f_module : option (list str); f_names : option (list alias) }.

(** ** deprecated_abc_import.py *)

(** 18-45 [ABCS] *)
Definition abcs : list str := map u
  ["AsyncGenerator"; "AsyncIterable"; "AsyncIterator"; "Awaitable"; "Buffer"; "ByteString"; "Callable"; "Collection";
   "Container"; "Coroutine"; "Generator"; "Hashable"; "ItemsView"; "Iterable"; "Iterator"; "KeysView"; "Mapping";
   "MappingView"; "MutableMapping"; "MutableSequence"; "MutableSet"; "Reversible"; "Sequence"; "Set"; "Sized"; "ValuesView"]%string.
Definition is_abc (x : str) : bool := existsb (str_eqb x) abcs.

(** A statement of the module: a line with one import, or another statement with the imports somewhere in it, in the
    order of the text; the flag: in an except block (168-180). *)
Inductive statement :=
  | ImportLine (i : import_from)
  | OtherStatement (id : N) (inside : list (bool * import_from)).

Definition imports_in (s : statement) : list (bool * import_from) :=
  match s with ImportLine i => [(false, i)] | OtherStatement _ l => l end.

Definition collections : list str := [u "collections"].
Definition collections_abc : list str := [u "collections"; u "abc"].

Definition import_names (i : import_from) : list str := match f_names i with Some l => map al_name l | None => [] end.
Definition from_module (m : list str) (i : import_from) : bool :=
  match f_module i with Some l => list_eqb str_eqb l m | None => false end.

(** 182-221 visit_ImportFrom: the state is [self.imports_names] (None: [update_module] is false), the result the
    replacement if the import is reported *)
Definition visit_import (s : option (list str)) (bi : bool * import_from) : option (list str) * option import_from :=
  let (in_except, i) := bi in
  if in_except then (s, None) else
  let names := import_names i in
  if from_module collections i && existsb is_abc names then
    if negb (forallb is_abc names) then (Some names, None)
    else (s, Some (From (f_dots i) (Some collections_abc) (f_names i)))
  else (s, None).

Fixpoint visit_imports (s : option (list str)) (l : list (bool * import_from)) : option (list str) * list (import_from * import_from) :=
  match l with
  | [] => (s, [])
  | bi :: l' => let (s1, r) := visit_import s bi in
                let (s2, rs) := visit_imports s1 l' in
                (s2, match r with Some i' => (snd bi, i') :: rs | None => rs end)
  end.

(** 223-238 [get_import_from]: the matcher's OneOf has one option, the list of the names; aliases and dots are not
    looked at *)
Definition same_names (names : list str) (i : import_from) : bool :=
  from_module collections i && match f_names i with Some l => list_eqb str_eqb (map al_name l) names | None => false end.
Definition has_import (names : list str) (s : statement) : bool := existsb (fun bi => same_names names (snd bi)) (imports_in s).

(** 249-287: the loop over the list that it changes: after a replacement at [idx] it goes on with the import from
    collections.abc at [idx + 1], which does not match *)
Definition plain_names (l : list str) : option (list alias) := Some (map (fun x => Alias x None) l).
Definition split_imports (names : list str) (body : list statement) : list statement :=
  flat_map (fun s => if has_import names s then
                       [ImportLine (From 0 (Some collections) (plain_names (filter (fun x => negb (is_abc x)) names)));
                        ImportLine (From 0 (Some collections_abc) (plain_names (filter is_abc names)))]
                     else [s]) body.

(** The reports about imports: (import, replacement) and the replacement of the module's body (240-289). *)
Definition abc_imports (body : list statement) : list (import_from * import_from) * option (list statement) :=
  let (s, rs) := visit_imports None (flat_map imports_in body) in
  (rs, match s with Some names => Some (split_imports names body) | None => None end).

(** One module of [import a.b as c, d]. *)
Record import_alias := ImportAlias { ia_module : list str; ia_as : option str }.

(** 297-317 visit_ImportAlias: the replacement if [import collections.X] is reported. The aliases of [from ... import]
    are visited, too, but their names have no dots. *)
Definition abc_alias (a : import_alias) : option import_alias :=
  match ia_module a with
  | [m; x] => if str_eqb m (u "collections") && is_abc x then Some (ImportAlias (collections_abc ++ [x]) (ia_as a)) else None
  | _ => None
  end.

(** 319-366 visit_ClassDef: one report for every base that matches, each with all of them replaced *)
Definition abc_base (a : arg) : option arg :=
  match a_value a with
  | Attribute (Name m) x => if str_eqb m (u "collections") && is_abc x
                            then Some (plain_arg (Attribute (Attribute (Name (u "collections")) (u "abc")) x)) else None
  | _ => None
  end.
Definition abc_bases (c : class_def) : list class_def :=
  flat_map (fun a => match abc_base a with
                     | Some _ => [with_bases c (map (fun a => match abc_base a with Some a' => a' | None => a end) (d_bases c))]
                     | None => []
                     end) (d_bases c).
