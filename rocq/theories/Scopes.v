(** * Scopes: UseClsInClassmethod (fixit/rules/cls_in_classmethod.py), and two rules without replacements *)
From Coq Require Import String List NArith Bool Arith.
From Verif Require Import Base PyStr Py Classes.
Import ListNotations.
Set Implicit Arguments.

(** Code as far as names go: names that are read; names that are assigned by a name ([x = ...], [for x in ...]); names
    bound otherwise ([import x], [def x], [class x]); nested functions with their parameters and the names they declare
    nonlocal. Simplification: no class bodies, comprehensions, global declarations or names in string annotations. *)
Inductive code :=
  | Ref (x : str)
  | Bind (x : str)
  | BindOther (x : str)
  | Group (cs : list code)
  | Nested (params nonlocals : list str) (body : code).

Definition mem (x : str) (l : list str) : bool := existsb (str_eqb x) l.

(** The names a scope assigns *)
Fixpoint assigned (c : code) : list str :=
  match c with
  | Ref _ | Nested _ _ _ => []
  | Bind x | BindOther x => [x]
  | Group cs => flat_map assigned cs
  end.
Definition locals (params nonlocals : list str) (body : code) : list str :=
  filter (fun x => negb (mem x nonlocals)) (params ++ assigned body).

(** A function: positional-only, ordinary, other parameters; whether a decorator is the builtin classmethod. *)
Record function := Function {
  fn_classmethod : bool; fn_posonly : list str; fn_params : list str; fn_rest : list str; fn_body : code }.
Definition all_params (f : function) : list str := fn_posonly f ++ fn_params f ++ fn_rest f.
Definition fn_locals (f : function) : list str := all_params f ++ assigned (fn_body f).

(** 276-289: the names in the assignments of the variable and its references become [y]; a nested function in which
    the name is local refers to something else; assignments by other nodes stay. *)
Fixpoint rename (x y : str) (c : code) : code :=
  match c with
  | Ref z => Ref (if str_eqb z x then y else z)
  | Bind z => Bind (if str_eqb z x then y else z)
  | BindOther z => BindOther z
  | Group cs => Group (map (rename x y) cs)
  | Nested ps nl b => if mem x (locals ps nl b) then c else Nested ps nl (rename x y b)
  end.

(** 223-290 visit_FunctionDef; [outer]: the local names of the scopes around the function, the module last.
    None: no report; Some None: report without a replacement. LibCST's scopes always exist (260-267 left out). *)
Definition cls : str := u "cls".
Definition known (scopes : list (list str)) (x : str) : bool := existsb (mem x) scopes.
Definition use_cls (outer : list (list str)) (f : function) : option (option function) :=
  if fn_classmethod f then
    match fn_params f with
    | [] => Some (Some (Function true (fn_posonly f) [cls] (fn_rest f) (fn_body f)))
    | p0 :: ps =>
        if str_eqb p0 cls then None
        else if known (fn_locals f :: outer) cls then Some None
        else Some (Some (Function true (fn_posonly f) (cls :: ps) (fn_rest f) (rename p0 cls (fn_body f))))
    end
  else None.

(** avoid_or_in_except.py 97-102: the types of the handlers *)
Definition or_in_except (handlers : list (option expr)) : bool :=
  match handlers with [Some (BoolOp _ Or _)] => true | _ => false end.

(** extra/use_lint_fixme_comment.py 58-61; ASCII letters only: no other letter is n, o, q or a in lower case *)
Definition lower (c : N) : N := if (N.leb 65 c && N.leb c 90)%bool then (c + 32)%N else c.
Definition noqa_comment (text : str) : bool := str_eqb (map lower (firstn 6 text)) (u "# noqa").
