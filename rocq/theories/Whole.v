(** * Whole: what a run of "fixit fix" does to a program, as a tree of expressions

    [expr] (Py.v) has a node [Other] for every node type that no rule names, statements included, so that
    a whole module is such a tree. *)
From Coq Require Import String List NArith ZArith Bool Arith.
From Verif Require Import Base PyStr Py Rules.
Import ListNotations.

(** All nodes, as the visitors meet them (LibCST's [visit_batched] calls the rules for each node). *)
Fixpoint subnodes (e : expr) : list expr :=
  let clauses := flat_map (fun c : clause => subnodes (fst (fst c)) ++ subnodes (snd (fst c)) ++ flat_map subnodes (snd c)) in
  let elems := flat_map (fun x : bool * expr => subnodes (snd x)) in
  e :: match e with
       | Name _ | Number _ | SimpleString _ _ _ => []
       | Concatenated l r | BoolOp l _ r | Modulo l r => subnodes l ++ subnodes r
       | FString _ _ parts => flat_map (fun x => match x with inl _ => [] | inr e => subnodes e end) parts
       | Attribute e _ | Not e | Lambda _ _ e => subnodes e
       | Subscript e sl => subnodes e ++ flat_map subnodes sl
       | Call f args => subnodes f ++ flat_map (fun a : arg => subnodes (snd a)) args
       | Compare l rest => subnodes l ++ flat_map (fun x : cmpop * expr => subnodes (snd x)) rest
       | Tuple es | List es | Set_ es => elems es
       | Dict es => flat_map (fun kv : expr * expr => subnodes (fst kv) ++ subnodes (snd kv)) es
       | ListComp elt cs | SetComp elt cs | GeneratorExp elt cs => subnodes elt ++ clauses cs
       | DictComp k v cs => subnodes k ++ subnodes v ++ clauses cs
       | Other _ es => flat_map subnodes es
       end.

(** engine.py 120-143 [apply_replacements]: the dictionary of replacements, by node. Nodes are told apart by
    identity; here a rule's report is a function of the node, which comes to the same. The later entry
    wins (124); violations come in the order of the rules (engine.py 102-116). *)
Definition replacement_of (r : res report) : option expr := match r with Ok (Some o) => o | _ => None end.
Definition replacements (rules : list (expr -> res report)) (e : expr) : option expr :=
  fold_left (fun found rule => match replacement_of (rule e) with Some e' => Some e' | None => found end) rules None.

(** 126-143 [ReplacementTransformer]: a replaced node is not entered *)
Fixpoint pass (fixes : expr -> option expr) (e : expr) : expr :=
  let clauses := map (fun c : clause => (pass fixes (fst (fst c)), pass fixes (snd (fst c)), map (pass fixes) (snd c))) in
  let elems := map (fun x : bool * expr => (fst x, pass fixes (snd x))) in
  match fixes e with
  | Some e' => e'
  | None =>
      match e with
      | Name _ | Number _ | SimpleString _ _ _ => e
      | Concatenated l r => Concatenated (pass fixes l) (pass fixes r)
      | FString p q parts => FString p q (map (fun x => match x with inl t => inl t | inr e => inr (pass fixes e) end) parts)
      | Attribute e a => Attribute (pass fixes e) a
      | Subscript e sl => Subscript (pass fixes e) (map (pass fixes) sl)
      | Call f args => Call (pass fixes f) (map (fun a : arg => (fst a, pass fixes (snd a))) args)
      | Not e => Not (pass fixes e)
      | BoolOp l op r => BoolOp (pass fixes l) op (pass fixes r)
      | Modulo l r => Modulo (pass fixes l) (pass fixes r)
      | Compare l rest => Compare (pass fixes l) (map (fun x : cmpop * expr => (fst x, pass fixes (snd x))) rest)
      | Tuple es => Tuple (elems es)
      | List es => List (elems es)
      | Set_ es => Set_ (elems es)
      | Dict es => Dict (map (fun kv : expr * expr => (pass fixes (fst kv), pass fixes (snd kv))) es)
      | Lambda ps simple body => Lambda ps simple (pass fixes body)
      | ListComp elt cs => ListComp (pass fixes elt) (clauses cs)
      | SetComp elt cs => SetComp (pass fixes elt) (clauses cs)
      | GeneratorExp elt cs => GeneratorExp (pass fixes elt) (clauses cs)
      | DictComp k v cs => DictComp (pass fixes k) (pass fixes v) (clauses cs)
      | Other n es => Other n (map (pass fixes) es)
      end
  end.

(** A rule raises at some node: fixit_bytes (api.py 97-150) then yields the error alone and the file stays
    as it is; otherwise all fixes are accepted ("fixit fix --automatic", cli.py 218-229). *)
Definition is_err {A} (r : res A) : bool := match r with Err _ => true | Ok _ => false end.
Definition crashes (rules : list (expr -> res report)) (e : expr) : bool :=
  existsb (fun x => existsb (fun rule => is_err (rule x)) rules) (subnodes e).
Definition fix_run (rules : list (expr -> res report)) (e : expr) : expr :=
  if crashes rules e then e else pass (replacements rules) e.

(** The rules of /repo/src/fixit/rules that look at single expressions, without those that have no
    fix. The arguments are what they ask LibCST: equality of nodes, whether a called function is isinstance,
    whether a name is one of None, True and False, the length of the code, whether a literal reads the same
    in other quotes. A node "seen before" (chained_instance_check.py 101-102) is one inside a longer chain:
    [collapse_inner] (WholeFacts.v) shows that skipping it makes no difference. *)
Section Rules.
  Context (deq : expr -> expr -> bool) (is_isinstance qual : expr -> bool) (code_length : expr -> nat) (reads_same : str -> str -> str -> str -> bool).
  Definition sure (rule : expr -> report) : expr -> res report := fun e => Ok (rule e).
  Definition rule_by_equal := sure by_equal.
  Definition rule_by_is := sure (by_is qual).
  Definition other_rules : list (expr -> res report) :=
    [sure (collapse deq is_isinstance); sure assert_in; sure assert_none; sure assert_true_comparison; sure deprecated_assert;
     sure to_literal; to_comprehension; sure list_comprehension; sure redundant_lambda; sure redundant_fstring;
     use_fstring code_length reads_same].
End Rules.
