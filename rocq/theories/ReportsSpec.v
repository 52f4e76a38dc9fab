(** * Which expressions the rules report, and what they put in their place

    One relation for each rule, written down from the rule's documentation and its messages, and not
    from the model: [R e None] for a report of [e] without a replacement, [R e (Some e')] for one with
    the replacement [e']. *)
From Coq Require Import String List NArith Bool.
From Verif Require Import Base Py.
Import ListNotations.

Definition name (s : string) : expr := Name (u s).
Definition self_dot (s : string) : expr := Attribute (name "self") (u s).
(** an argument with this value, whatever its stars and its keyword *)
Definition any_arg (a : arg) (e : expr) : Prop := snd a = e.
Definition positional (e : expr) : arg := (NoStar, None, e).

(** ** Conditions: the outcome is settled by the constants in them *)
Inductive settled : expr -> bool -> Prop :=
  | Settled_true : settled (name "True") true
  | Settled_false : settled (name "False") false
  | Settled_not : forall e b, settled e b -> settled (Not e) (negb b)
  | Settled_or_left : forall l r, settled l true -> settled (BoolOp l Or r) true
  | Settled_or_right : forall l r, settled r true -> settled (BoolOp l Or r) true
  | Settled_and_left : forall l r, settled l false -> settled (BoolOp l And r) false
  | Settled_and_right : forall l r, settled r false -> settled (BoolOp l And r) false.

(** ** Comparisons: an operator between two operands *)
Inductive adjacent : expr -> list (cmpop * expr) -> expr -> cmpop -> expr -> Prop :=
  | Adjacent_first : forall l op c rest, adjacent l ((op, c) :: rest) l op c
  | Adjacent_next : forall l op c rest a o b, adjacent c rest a o b -> adjacent l ((op, c) :: rest) a o b.
Inductive number_or_text : expr -> Prop :=
  | Nt_number : forall s, number_or_text (Number s)
  | Nt_string : forall p q s, number_or_text (SimpleString p q s)
  | Nt_fstring : forall p q ps, number_or_text (FString p q ps)
  | Nt_concatenated : forall l r, number_or_text (Concatenated l r).

(** ** isinstance(target, type), and the operands of a chain of "or" *)
Inductive type_check (isinstance : expr -> Prop) : expr -> expr -> Prop :=
  | Type_check : forall f a b t c, isinstance f -> any_arg a t -> any_arg b c -> (forall es, c <> Tuple es) ->
      type_check isinstance (Call f [a; b]) t.
Inductive chain : expr -> list expr -> Prop :=
  | Chain_or : forall l r es, chain l es -> chain (BoolOp l Or r) (es ++ [r])
  | Chain_end : forall e, (forall l r, e <> BoolOp l Or r) -> chain e [e].
(** the type of a check; one check of several types *)
Inductive check_for (isinstance : expr -> Prop) : expr -> expr -> expr -> Prop :=
  | Check_for : forall f a b t c, isinstance f -> any_arg a t -> any_arg b c -> (forall es, c <> Tuple es) ->
      check_for isinstance (Call f [a; b]) t c.
Definition one_check (t c : expr) (cs : list expr) : expr :=
  Call (name "isinstance") [positional t; positional match cs with [] => c | _ => Tuple (map (fun c => (false, c)) (c :: cs)) end].
(** the types of the checks of the target t among the operands, and the operands that remain *)
Inductive picks (isinstance : expr -> Prop) (same : expr -> expr -> Prop) (t : expr) : list expr -> list expr -> list expr -> Prop :=
  | Picks_none : picks isinstance same t [] [] []
  | Picks_yes : forall x t' c xs cs ys, check_for isinstance x t' c -> same t' t ->
      picks isinstance same t xs cs ys -> picks isinstance same t (x :: xs) (c :: cs) ys
  | Picks_no : forall x xs cs ys, (forall t' c, check_for isinstance x t' c -> ~ same t' t) ->
      picks isinstance same t xs cs ys -> picks isinstance same t (x :: xs) cs (x :: ys).
(** at the place of the first check of a target, one check of all its types; other operands stay *)
Inductive merged (isinstance : expr -> Prop) (same : expr -> expr -> Prop) : list expr -> list expr -> Prop :=
  | Merged_none : merged isinstance same [] []
  | Merged_other : forall x xs ys, (forall t c, ~ check_for isinstance x t c) ->
      merged isinstance same xs ys -> merged isinstance same (x :: xs) (x :: ys)
  | Merged_check : forall x t c xs cs rest ys, check_for isinstance x t c -> picks isinstance same t xs cs rest ->
      merged isinstance same rest ys -> merged isinstance same (x :: xs) (one_check t c cs :: ys).

(** ** Assertions *)
Inductive use_assert_in : expr -> expr -> Prop :=
  | In_true : forall a x y, any_arg a (Compare x [(InOp, y)]) ->
      use_assert_in (Call (self_dot "assertTrue") [a]) (Call (self_dot "assertIn") [positional x; positional y])
  | In_true_not : forall a x y, any_arg a (Not (Compare x [(InOp, y)])) ->
      use_assert_in (Call (self_dot "assertTrue") [a]) (Call (self_dot "assertNotIn") [positional x; positional y])
  | In_true_not_in : forall a x y, any_arg a (Compare x [(NotInOp, y)]) ->
      use_assert_in (Call (self_dot "assertTrue") [a]) (Call (self_dot "assertNotIn") [positional x; positional y])
  | In_false : forall a x y, any_arg a (Compare x [(InOp, y)]) ->
      use_assert_in (Call (self_dot "assertFalse") [a]) (Call (self_dot "assertNotIn") [positional x; positional y]).

(** [says_none e x b]: [e] asks whether [x] is None ([b]) or is not None *)
Inductive says_none : expr -> expr -> bool -> Prop :=
  | Says_is : forall x, says_none (Compare x [(Is, name "None")]) x true
  | Says_is_not : forall x, says_none (Compare x [(IsNot, name "None")]) x false.
Inductive asks_none : expr -> expr -> bool -> Prop :=
  | Asks : forall e x b, says_none e x b -> asks_none e x b
  | Asks_not : forall e x b, says_none e x b -> asks_none (Not e) x (negb b).
Definition none_assertion (b : bool) (x : expr) : expr := Call (self_dot (if b then "assertIsNone" else "assertIsNotNone")%string) [positional x].
Inductive use_assert_none : expr -> expr -> Prop :=
  | None_true : forall a e x b, any_arg a e -> asks_none e x b -> use_assert_none (Call (self_dot "assertTrue") [a]) (none_assertion b x)
  | None_false : forall a e x b, any_arg a e -> asks_none e x b -> use_assert_none (Call (self_dot "assertFalse") [a]) (none_assertion (negb b) x).

Inductive display_or_number : expr -> Prop :=
  | Dn_number : forall s, display_or_number (Number s)
  | Dn_tuple : forall es, display_or_number (Tuple es)
  | Dn_list : forall es, display_or_number (List es)
  | Dn_set : forall es, display_or_number (Set_ es)
  | Dn_dict : forall es, display_or_number (Dict es).
Inductive use_assert_equal : expr -> expr -> Prop :=
  | Equal_true : forall a b, any_arg b (name "True") -> use_assert_equal (Call (self_dot "assertTrue") [a; b]) (Call (self_dot "assertTrue") [a])
  | Equal_false : forall a b, any_arg b (name "False") -> use_assert_equal (Call (self_dot "assertTrue") [a; b]) (Call (self_dot "assertFalse") [a])
  | Equal_none : forall a b, any_arg b (name "None") -> use_assert_equal (Call (self_dot "assertTrue") [a; b]) (Call (self_dot "assertIsNone") [a])
  | Equal_other : forall a b c, any_arg b c -> display_or_number c -> use_assert_equal (Call (self_dot "assertTrue") [a; b]) (Call (self_dot "assertEqual") [a; b]).

(** ** Literals and comprehensions *)
Inductive pair_display : expr -> expr -> expr -> Prop :=
  | Pair_tuple : forall x y k v, snd x = k -> snd y = v -> pair_display (Tuple [x; y]) k v
  | Pair_list : forall x y k v, snd x = k -> snd y = v -> pair_display (List [x; y]) k v.
(** the elements of a list or tuple display, in an only argument or in none *)
Inductive displayed : list arg -> list (bool * expr) -> Prop :=
  | Displayed_none : displayed [] []
  | Displayed_tuple : forall a es, any_arg a (Tuple es) -> displayed [a] es
  | Displayed_list : forall a es, any_arg a (List es) -> displayed [a] es.
Inductive use_literal : expr -> expr -> Prop :=
  | Literal_list : forall args es, displayed args es -> use_literal (Call (name "list") args) (List es)
  | Literal_tuple : forall args es, displayed args es -> use_literal (Call (name "tuple") args) (Tuple es)
  | Literal_set : forall args es, displayed args es -> es <> [] -> use_literal (Call (name "set") args) (Set_ es)
  | Literal_empty_set : forall a, displayed [a] [] -> use_literal (Call (name "set") [a]) (Call (name "set") [])
  | Literal_dict : forall args es kvs, displayed args es ->
      Forall2 (fun e kv => fst e = false /\ pair_display (snd e) (fst kv) (snd kv)) es kvs -> use_literal (Call (name "dict") args) (Dict kvs).

Inductive comprehension_of : expr -> expr -> list (expr * expr * list expr) -> Prop :=
  | Of_generator : forall elt cs, comprehension_of (GeneratorExp elt cs) elt cs
  | Of_list : forall elt cs, comprehension_of (ListComp elt cs) elt cs.
Inductive use_comprehension : expr -> expr -> Prop :=
  | Comp_list : forall a x elt cs, any_arg a x -> comprehension_of x elt cs -> use_comprehension (Call (name "list") [a]) (ListComp elt cs)
  | Comp_set : forall a x elt cs, any_arg a x -> comprehension_of x elt cs -> use_comprehension (Call (name "set") [a]) (SetComp elt cs)
  | Comp_dict : forall a x elt cs es k v more, any_arg a x -> comprehension_of x elt cs -> elt = Tuple es \/ elt = List es ->
      map snd es = k :: v :: more -> use_comprehension (Call (name "dict") [a]) (DictComp k v cs).
(** ... and where the rule itself fails: elements of fewer than two *)
Inductive comprehension_fails : expr -> Prop :=
  | Comp_fails : forall a x elt cs es, any_arg a x -> comprehension_of x elt cs -> elt = Tuple es \/ elt = List es ->
      (es = [] \/ exists e, es = [e]) -> comprehension_fails (Call (name "dict") [a]).

Inductive use_generator : expr -> expr -> Prop :=
  | Use_generator : forall f st kw elt cs, f = "any"%string \/ f = "all"%string ->
      use_generator (Call (name f) [(st, kw, ListComp elt cs)]) (Call (name f) [(st, kw, GeneratorExp elt cs)]).

(** ** %-formats: a text that is not of bytes, and the values *)
Definition text_prefix (p : str) : Prop := ~ List.In 98%N p /\ ~ List.In 66%N p.
Definition only_placeholders (t : str) : Prop :=
  (forall a b, t = a ++ 37%N :: b -> exists c, b = 115%N :: c) /\ List.In 37%N t.
(** fewer than 30 characters of code: all of it, or each element of a tuple *)
Definition brief (code_length : expr -> nat) (e : expr) : Prop :=
  code_length e < 30 \/ exists es, e = Tuple es /\ forall x, List.In x es -> code_length (snd x) < 30.
Definition values_of (e : expr) : list expr := match e with Tuple es => map snd es | _ => [e] end.
(** A literal can be put into the f-string: its quote is another one, or the first of the other quotes that does not
    occur in its text leaves what it reads as unchanged. *)
Definition fits (reads_same : str -> str -> str -> str -> bool) (q : str) (l : str * str * str) : Prop :=
  let '(p, o, raw) := l in
  let free n := n <> q /\ forall a b, raw <> a ++ n ++ b in
  o <> q \/ exists before n after, [u "'"; [34%N]; u "'''"; [34; 34; 34]%N] = before ++ n :: after /\
    free n /\ (forall x, List.In x before -> ~ free x) /\ reads_same p q n raw = true.

(** ** The f-string: the text of the format with its braces doubled and the values in the place of the placeholders, each as it
    is written but for the quotes of its literals *)
Fixpoint unquoted (e : expr) : expr :=
  let elems := map (fun x : bool * expr => (fst x, unquoted (snd x))) in
  let clauses := map (fun c : expr * expr * list expr => (unquoted (fst (fst c)), unquoted (snd (fst c)), map unquoted (snd c))) in
  match e with
  | Name _ | Number _ => e
  | SimpleString p _ raw => SimpleString p [] raw
  | Concatenated l r => Concatenated (unquoted l) (unquoted r)
  | FString p q parts => FString p q (map (fun x => match x with inl t => inl t | inr e => inr (unquoted e) end) parts)
  | Attribute e a => Attribute (unquoted e) a
  | Subscript e sl => Subscript (unquoted e) (map unquoted sl)
  | Call f args => Call (unquoted f) (map (fun a : arg => (fst a, unquoted (snd a))) args)
  | Not e => Not (unquoted e)
  | BoolOp l op r => BoolOp (unquoted l) op (unquoted r)
  | Modulo l r => Modulo (unquoted l) (unquoted r)
  | Compare l rest => Compare (unquoted l) (map (fun x : cmpop * expr => (fst x, unquoted (snd x))) rest)
  | Tuple es => Tuple (elems es)
  | List es => List (elems es)
  | Set_ es => Set_ (elems es)
  | Dict es => Dict (map (fun kv : expr * expr => (unquoted (fst kv), unquoted (snd kv))) es)
  | Lambda ps simple body => Lambda ps simple (unquoted body)
  | ListComp elt cs => ListComp (unquoted elt) (clauses cs)
  | SetComp elt cs => SetComp (unquoted elt) (clauses cs)
  | GeneratorExp elt cs => GeneratorExp (unquoted elt) (clauses cs)
  | DictComp k v cs => DictComp (unquoted k) (unquoted v) (clauses cs)
  | Other n es => Other n (map unquoted es)
  end.
Definition braces_doubled (t : str) : str := flat_map (fun c => if (c =? 123)%N || (c =? 125)%N then [c; c] else [c]) t.
Definition as_format (parts : list (str + expr)) : str := flat_map (fun x => match x with inl t => t | inr _ => u "%s" end) parts.
Definition values_in (parts : list (str + expr)) : list expr := flat_map (fun x => match x with inl _ => [] | inr e => [e] end) parts.
