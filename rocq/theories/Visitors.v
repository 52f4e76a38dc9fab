(** * Visitors: the rule classes about single expressions, as the engine drives them

    Rules.v models what a rule does with one expression. This file models the classes around it: which visit methods they have and what
    they remember from one node to the next. *)
From Coq Require Import String List NArith Bool Arith.
From Verif Require Import Base PyStr Py Rules Whole Suppress Cst Engine Batch System ProgramSpec.
Import ListNotations.

(** LibCST's name for the type of an expression; [other]: of numbers (Integer, Float, Imaginary) and of those that Py.v does not have (for instance
    "BinaryOperation" for +). *)
Definition type_of (other : expr -> str) (e : expr) : str :=
  match e with
  | Name _ => u "Name"
  | SimpleString _ _ _ => u "SimpleString"
  | Concatenated _ _ => u "ConcatenatedString"
  | FString _ _ _ => u "FormattedString"
  | Attribute _ _ => u "Attribute"
  | Subscript _ _ => u "Subscript"
  | Call _ _ => u "Call"
  | Not _ => u "UnaryOperation"
  | BoolOp _ _ _ => u "BooleanOperation"
  | Modulo _ _ => u "BinaryOperation"
  | Compare _ _ => u "Comparison"
  | Tuple _ => u "Tuple"
  | List _ => u "List"
  | Set_ _ => u "Set"
  | Dict _ => u "Dict"
  | Lambda _ _ _ => u "Lambda"
  | ListComp _ _ => u "ListComp"
  | SetComp _ _ => u "SetComp"
  | GeneratorExp _ _ => u "GeneratorExp"
  | DictComp _ _ _ => u "DictComp"
  | Number _ | Other _ _ => other e
  end.

Section Visitors.
  (** Which nodes are expressions; the expression that a node is; the node that a rule builds for an expression, from the node it replaces *)
  Context (node : N -> bool) (read : tree -> expr) (write : tree -> expr -> tree).

  (** The expressions in a tree, outer ones first *)
  Fixpoint exprs (t : tree) : list tree := match t with Node id _ ps => (if node id then [t] else []) ++ flat_map exprs_part ps end
  with exprs_part (p : part) : list tree :=
    match p with
    | Txt _ | Ind | Opt None | Sep None _ => []
    | Req t | Opt (Some t) | Sep (Some t) _ => exprs t
    | Seq _ l | Body _ l => flat_map exprs l
    end.
  (** A method is given the node itself. Here: its identity, with which it is found in the module. *)
  Definition view (md : module) (i : N) : option tree := find (fun t => N.eqb (node_id t) i) (exprs (m_tree md)).
  Definition cst_id (c : cst) : N := match c with Cst i _ _ => i end.

  (** What a method does with a node that the rule [r] looks at; [text]: the message, if it is not MESSAGE *)
  Definition look (text : expr -> option str) (r : expr -> res Rules.report) (t : tree) : list say * res unit :=
    match r (read t) with
    | Ok None => ([], Ok tt)
    | Ok (Some o) => ([Say (node_id t) (text (read t)) PosDefault (option_map (fun e => RNode (write t e)) o)], Ok tt)
    | Err e => ([], Err e)
    end.
  Definition is_visit (types : list str) (method : str) : bool := existsb (fun ty => str_eqb method (u "visit_" ++ ty)) types.

  (** Classes with a visit method for each of the types, that remember nothing: compare_primitives_by_equal.py 58-68,
      compare_singleton_primitives_by_is.py 91-113, use_assert_in.py 67-171, use_assert_is_not_none.py 87-159, no_assert_true_for_comparison.py 58-117,
      deprecated_unittest_asserts.py 71-95, rewrite_to_literal.py 71-155, rewrite_to_comprehension.py 99-149,
      no_redundant_list_comprehension.py 45-66, no_redundant_lambda.py 59-83, no_redundant_fstring.py 52-64 *)
  Definition visitor (name : str) (msg : option str) (types : list str) (text : expr -> option str) (r : expr -> res Rules.report) : rule_code :=
    RuleCode name msg unit tt
      (fun md method =>
         if is_visit types method
         then Some (fun c own => match view md (cst_id c) with None => ([], Ok own) | Some t => look text r t end)
         else None).

  (** use_fstring.py 147-228: [_codegen] is set by [visit_Module] and asked for by [visit_BinaryOperation]; there is no such attribute before. *)
  Definition fstring_visitor (name : str) (msg : option str) (text : expr -> option str) (r : expr -> res Rules.report) : rule_code :=
    RuleCode name msg bool false
      (fun md method =>
         if str_eqb method (u "visit_Module") then Some (fun c own => ([], Ok true))
         else if str_eqb method (u "visit_Call") || str_eqb method (u "visit_BinaryOperation")
         then Some (fun c own =>
           if str_eqb method (u "visit_BinaryOperation") && negb own then ([], Err AttributeError)
           else match view md (cst_id c) with None => ([], Ok own) | Some t => let (xs, o) := look text r t in (xs, let! _ := o in Ok own) end)
         else None).

  (** chained_instance_check.py 131-138 [unwrap]: the operations of the chain, from the outermost inwards on the left *)
  Fixpoint chain (e : expr) (t : tree) : list N :=
    match e with
    | BoolOp l Or _ => node_id t :: match below node t with tl :: _ => chain l tl | [] => [] end
    | _ => []
    end.
  (** 96-129: [seen_boolean_operations] *)
  Definition chain_visitor (name : str) (msg : option str) (text : expr -> option str) (r : expr -> res Rules.report) : rule_code :=
    RuleCode name msg (list N) []
      (fun md method =>
         if str_eqb method (u "visit_BooleanOperation")
         then Some (fun c seen =>
           match view md (cst_id c) with
           | None => ([], Ok seen)
           | Some t => if existsb (N.eqb (node_id t)) seen then ([], Ok seen)
                       else let (xs, o) := look text r t in (xs, let! _ := o in Ok (seen ++ chain (read t) t))
           end)
         else None).

  (** The classes of fixit.rules about single expressions that have fixes, with the rules of Rules.v. [text]: the messages of the class *)
  Definition class_codes (text : str -> expr -> option str) (msg : str -> option str) (deq : expr -> expr -> bool) (is_isinstance qual : expr -> bool)
    (code_length : expr -> nat) (reads_same : str -> str -> str -> str -> bool) : list (rule_code * (expr -> res Rules.report)) :=
    let plain name types r := (visitor (u name) (msg (u name)) (map u types) (text (u name)) r, r) in
    [ plain "ComparePrimitivesByEqual" ["Comparison"] rule_by_equal;
      plain "CompareSingletonPrimitivesByIs" ["Comparison"] (rule_by_is qual);
      (let r := sure (collapse deq is_isinstance) in let n := u "CollapseIsinstanceChecks" in (chain_visitor n (msg n) (text n) r, r));
      plain "UseAssertIn" ["Call"] (sure assert_in);
      plain "UseAssertIsNotNone" ["Call"] (sure assert_none);
      plain "NoAssertTrueForComparisons" ["Call"] (sure assert_true_comparison);
      plain "DeprecatedUnittestAsserts" ["Call"] (sure deprecated_assert);
      plain "RewriteToLiteral" ["Call"] (sure to_literal);
      plain "RewriteToComprehension" ["Call"] to_comprehension;
      plain "NoRedundantListComprehension" ["Call"] (sure list_comprehension);
      plain "NoRedundantLambda" ["Lambda"] (sure redundant_lambda);
      plain "NoRedundantFString" ["FormattedString"] (sure redundant_fstring);
      (let r := use_fstring code_length reads_same in let n := u "UseFstring" in (fstring_visitor n (msg n) (text n) r, r)) ]%string.
End Visitors.
