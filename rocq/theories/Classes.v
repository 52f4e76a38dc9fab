(** * Classes: the lint rules about class statements (fixit/rules, fixit/rules/extra, fixit/upgrade) *)
From Coq Require Import String List NArith Bool Arith.
From Verif Require Import Base PyStr Py.
Import ListNotations.
Set Implicit Arguments.

(** ** Class statements as the rules see them

    LibCST's ClassDef: positional and starred arguments are bases, the others keywords. [ln_id]: the identity of
    a node (nodes are compared by identity). Simplification: white space and comments left out. *)
Inductive small :=
  | Assign (targets : list expr) (value : expr)
  | ExprStmt (e : expr)
  | OtherSmall (n : N).
Inductive content := Simple (body : list small) | Compound (n : N).     (* SimpleStatementLine, other statements *)
Record line := Line { ln_id : N; ln_content : content }.
Inductive suite := Block (lines : list line) | OneLine (body : list small).
Record class_def := ClassDef {
  d_name : str; d_bases : list arg; d_keywords : list arg; d_decorators : list expr; d_body : suite }.

Definition with_bases (c : class_def) (bs : list arg) : class_def :=
  ClassDef (d_name c) bs (d_keywords c) (d_decorators c) (d_body c).

(** [m.matches(e, m.Name(s))] *)
Definition is_name (s : str) (e : expr) : bool := match e with Name t => str_eqb t s | _ => false end.

(** ** no_inherit_from_object.py 48-62. None: no report. [tuple(node.bases) != new_bases] compares nodes
    by identity: different iff something was removed. *)
Definition no_object (c : class_def) : option class_def :=
  let new_bases := filter (fun a => negb (is_name (u "object") (a_value a))) (d_bases c) in
  if Nat.eqb (List.length new_bases) (List.length (d_bases c)) then None else Some (with_bases c new_bases).

(** ** no_namedtuple.py 171-198; [named_tuple e]: the qualified names of the node include typing.NamedTuple,
    by import *)
Definition no_named_tuple (named_tuple : expr -> bool) (c : class_def) : option class_def :=
  let new_bases := filter (fun a => negb (named_tuple (a_value a))) (d_bases c) in
  if existsb (fun a => named_tuple (a_value a)) (d_bases c) then
    Some (ClassDef (d_name c) new_bases (d_keywords c)
            (d_decorators c ++ [Call (Name (u "dataclass")) [(NoStar, Some (u "frozen"), Name (u "True"))]])
            (d_body c))
  else None.

(** ** extra/explicit_frozen_dataclass.py 228-263: what each decorator is replaced by; [dataclass_ e]: the
    qualified names of the decorator include dataclasses.dataclass, by import *)
Definition frozen_arg : arg := (NoStar, Some (u "frozen"), Name (u "True")).
Definition has_frozen (args : list arg) : bool :=
  existsb (fun a => match snd (fst a) with Some k => str_eqb k (u "frozen") | None => false end) args.
Definition frozen_decorator (dataclass_ : expr -> bool) (d : expr) : option expr :=
  if dataclass_ d then
    let (func, args) := match d with Call f args => (f, args) | _ => (d, []) end in
    if has_frozen args then None else Some (Call func (args ++ [frozen_arg]))
  else None.

(** ** sorted_attributes_rule.py 80-119 *)

(** LibCST's [get_docstring]: the first small statement of the body, if it is a string expression.
    [text e]: the cleaned value of a string, None for other expressions and bytes. *)
Definition docstring (text : expr -> option str) (b : suite) : option str :=
  let first := match b with
               | Block (l :: _) => match ln_content l with Simple (s :: _) => Some s | _ => None end
               | OneLine (s :: _) => Some s
               | _ => None
               end in
  match first with Some (ExprStmt e) => text e | _ => None end.

(** 98-100: a line with one assignment to one target. The lines of a [OneLine] body are small statements, which
    never match. *)
Definition attribute_line (l : line) : option expr :=
  match ln_content l with Simple [Assign [t] _] => Some t | _ => None end.

(** 97-105: the loop *)
Fixpoint partition_lines (found : bool) (ls : list line) : list line * list line * list line :=
  match ls with
  | [] => ([], [], [])
  | l :: ls' =>
      match attribute_line l with
      | Some _ => let '(pre, assigns, post) := partition_lines true ls' in (pre, l :: assigns, post)
      | None => let '(pre, assigns, post) := partition_lines found ls' in
                if found then (pre, assigns, l :: post) else (l :: pre, assigns, post)
      end
  end.

(** 107-109: [target.value] is a text for a name, a node for [x.y], [x[y]] and [*x]; tuples and lists and other
    nodes have no such attribute. *)
Inductive sort_key := KText (s : str) | KNode.
Definition key_of (l : line) : res sort_key :=
  match attribute_line l with
  | Some (Name s) => Ok (KText s)
  | Some (Attribute _ _) | Some (Subscript _ _) => Ok KNode
  | _ => Err AttributeError
  end.

(** [sorted(assign_lines, key=...)]: keys first, in order; then all are compared with some other one unless
    there is only one, and nodes have no order. *)
Definition key_text (k : sort_key) : option str := match k with KText s => Some s | KNode => None end.
Fixpoint all_texts (l : list (sort_key * line)) : option (list (str * line)) :=
  match l with
  | [] => Some []
  | (k, x) :: l' => match key_text k, all_texts l' with Some s, Some r => Some ((s, x) :: r) | _, _ => None end
  end.
Definition sort_lines (ls : list line) : res (list line) :=
  let! keys := map_res key_of ls in
  match ls with
  | [] | [_] => Ok ls
  | _ => match all_texts (combine keys ls) with
         | Some kls => Ok (map snd (sorted (fun a b => str_leb (fst a) (fst b)) kls))
         | None => Err TypeError
         end
  end.

Fixpoint contains (t s : str) : bool :=
  startswith t s || match s with [] => false | _ :: s' => contains t s' end.

Definition sorted_attributes (text : expr -> option str) (c : class_def) : res (option class_def) :=
  match docstring text (d_body c) with
  | Some doc =>
      if contains (u "@sorted-attributes") doc then
        match d_body c with
        | OneLine _ => Ok None
        | Block ls =>
            let '(pre, assigns, post) := partition_lines false ls in
            let! s := sort_lines assigns in
            if list_eqb N.eqb (map ln_id s) (map ln_id assigns) then Ok None
            else Ok (Some (ClassDef (d_name c) (d_bases c) (d_keywords c) (d_decorators c) (Block (pre ++ s ++ post))))
        end
      else Ok None
  | None => Ok None
  end.
