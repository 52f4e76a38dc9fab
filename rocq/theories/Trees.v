(** * Trees: lint rules that keep state while LibCST visits the tree (fixit/rules) *)
From Coq Require Import String List NArith Bool Arith.
From Verif Require Import Base PyStr Py Classes.
Import ListNotations.
Set Implicit Arguments.

(** ** Trees

    Every node has an identity, a kind with what the rules below ask about it, and its children in the order of the
    source. Metadata that LibCST computes (qualified names, scopes) is part of the kind: any values. *)
Inductive kind :=
  | FunctionNode (asynchronous : bool) (params : list str)
  | ClassNode (name : str)
  | CallNode (e : expr) (names : list str)              (* the call; its qualified names, in the order of the set *)
  | AnnotationNode
  | NameNode (s : str) (names : list str) (in_scope : str -> bool)
  | ImportFromNode (from : option expr) (names : option (list expr))  (* None: from . import, import star *)
  | SubscriptNode (names : list str)
  | StringNode (parsed : option expr)                   (* the text as an expression, if it is one *)
  | OtherNode (n : N).
Inductive node := Node (id : N) (k : kind) (children : list node).

Definition node_id (t : node) : N := match t with Node i _ _ => i end.
Definition node_kind (t : node) : kind := match t with Node _ k _ => k end.
Definition children (t : node) : list node := match t with Node _ _ cs => cs end.

(** A report: the node, the text that tells messages apart, the replacement if there is one. *)
Record note := Note { n_node : N; n_text : str; n_repl : option expr }.

(** A rule instance: its state, what the visit_ and leave_ methods do. *)
Record visitor (S : Type) := Visitor {
  v_visit : node -> S -> S * list note;
  v_leave : node -> S -> S * list note }.

(** LibCST's traversal: visit, children, leave. Simplification: no method of these rules stops the traversal, and none
    fails. *)
Fixpoint traverse {S} (v : visitor S) (t : node) (s : S) : S * list note :=
  match t with
  | Node i k cs =>
      let (s1, r1) := v_visit v t s in
      let (s2, r2) := (fix go l s := match l with
                                     | [] => (s, [])
                                     | c :: l' => let (s', r) := traverse v c s in
                                                  let (s'', r') := go l' s' in (s'', r ++ r')
                                     end) cs s1 in
      let (s3, r3) := v_leave v t s2 in
      (s3, r1 ++ r2 ++ r3)
  end.

Definition nothing {S} (t : node) (s : S) : S * list note := (s, []).

(** ** use_async_sleep_in_async_def.py 115-138: the state is [self.async_func] *)
Definition async_sleep : visitor bool :=
  Visitor
    (fun t s => match node_kind t with
                | FunctionNode a _ => (a, [])
                | CallNode _ names =>
                    (s, if s then
                          match names with
                          | n :: _ => if str_eqb n (u "time.sleep") then [Note (node_id t) [] None] else []
                          | [] => []
                          end
                        else [])
                | _ => (s, [])
                end)
    (fun t s => match node_kind t with FunctionNode _ _ => (false, []) | _ => (s, []) end).

(** ** no_redundant_arguments_super.py 118-150: the state is [self.current_classes] *)

(** 141-150 [_build_arg_class_matcher]: what it matches (the matcher looks at names and attributes only) *)
Definition dotted (l : list str) : option expr :=
  match l with [] => None | x :: l' => Some (fold_left Attribute l' (Name x)) end.

Fixpoint dotted_eqb (a b : expr) : bool :=
  match a, b with
  | Name x, Name y => str_eqb x y
  | Attribute a' x, Attribute b' y => dotted_eqb a' b' && str_eqb x y
  | _, _ => false
  end.

Definition redundant_super : visitor (list str) :=
  Visitor
    (fun t s => match node_kind t with ClassNode n => (s ++ [n], []) | _ => (s, []) end)
    (fun t s => match node_kind t with
                | ClassNode _ => (removelast s, [])
                | CallNode (Call (Name f) [a1; a2]) _ =>
                    (s, match dotted s with
                        | Some d => if str_eqb f (u "super") && dotted_eqb d (a_value a1)
                                    then [Note (node_id t) [] (Some (Call (Name f) []))] else []
                        | None => []
                        end)
                | _ => (s, [])
                end).

(** ** use_types_from_typing.py 118-154: the state is [self.annotation_counter]; LibCST's scopes always exist.
    [str.title] of the four names *)
Definition replaced_builtins : list (str * str) :=
  [(u "dict", u "Dict"); (u "list", u "List"); (u "set", u "Set"); (u "tuple", u "Tuple")].

Definition typing_types : visitor nat :=
  Visitor
    (fun t s => match node_kind t with
                | AnnotationNode => (S s, [])
                | NameNode x names in_scope =>
                    (s, match dget x replaced_builtins with
                        | Some correct =>
                            if negb (Nat.eqb s 0) &&
                               forallb (fun q => existsb (fun b => str_eqb q (u "builtins." ++ fst b)) replaced_builtins) names
                            then [Note (node_id t) correct (if in_scope correct then Some (Name correct) else None)]
                            else []
                        | None => []
                        end)
                | _ => (s, [])
                end)
    (fun t s => match node_kind t with AnnotationNode => (s - 1, []) | _ => (s, []) end).

(** ** no_string_type_annotation.py 246-315: the sets [in_annotation] and [in_literal], here of node identities, and
    [has_future_annotations_import] *)
Record strings := Strings { s_annotation : list N; s_literal : list N; s_future : bool }.

Definition drop (i : N) (l : list N) : list N := filter (fun j => negb (N.eqb j i)) l.

Definition future_import (from : option expr) (names : option (list expr)) : bool :=
  match from, names with
  | Some (Name m), Some l => str_eqb m (u "__future__") && existsb (is_name (u "annotations")) l
  | _, _ => false
  end.

Definition is_literal (names : list str) : bool :=
  existsb (fun n => str_eqb n (u "typing.Literal") || str_eqb n (u "typing_extensions.Literal")) names.

Definition nonempty {A} (l : list A) : bool := match l with [] => false | _ => true end.

Definition string_types : visitor strings :=
  Visitor
    (fun t s => match node_kind t with
                | ImportFromNode from names =>
                    (if future_import from names then Strings (s_annotation s) (s_literal s) true else s, [])
                | AnnotationNode => (Strings (node_id t :: s_annotation s) (s_literal s) (s_future s), [])
                | SubscriptNode names =>
                    (if s_future s && nonempty (s_annotation s) && is_literal names
                     then Strings (s_annotation s) (node_id t :: s_literal s) (s_future s) else s, [])
                | StringNode parsed =>
                    (s, if s_future s && nonempty (s_annotation s) && negb (nonempty (s_literal s))
                        then [Note (node_id t) [] parsed] else [])
                | _ => (s, [])
                end)
    (fun t s => match node_kind t with
                | AnnotationNode => (Strings (drop (node_id t) (s_annotation s)) (s_literal s) (s_future s), [])
                | SubscriptNode _ =>
                    (if s_future s then Strings (s_annotation s) (drop (node_id t) (s_literal s)) (s_future s) else s, [])
                | _ => (s, [])
                end).

(** ** replace_union_with_optional.py 88-128: leave_Annotation on [value[elements]]; the result is None when nothing is
    reported, else the replacement if there is one. An element is an index or a slice [a:b]. *)
Inductive element := Index (e : expr) | Slice (n : N).

(** 110-128 [contains_union_with_none] *)
Definition union_with_none (value : expr) (elements : list element) : bool :=
  is_name (u "Union") value &&
  match elements with
  | [Index a; Index b] => is_name (u "None") b || is_name (u "None") a
  | _ => false
  end.

Definition is_none_element (e : element) : bool := match e with Index a => is_name (u "None") a | Slice _ => false end.

Definition union_to_optional (optional_in_scope : bool) (value : expr) (elements : list element) : option (option (expr * list element)) :=
  if union_with_none value elements then
    Some (if optional_in_scope then
            match filter (fun e => negb (is_none_element e)) elements with
            | [e] => if 1 <? List.length (filter is_none_element elements) then None else Some (Name (u "Optional"), [e])
            | _ => None
            end
          else None)
  else None.
