(** * Rules: the lint rules about expressions (fixit/rules)

    Each rule is a function of the node it is called for. What it does: nothing ([None]), or a report
    with or without a replacement. Matchers (libcst.matchers) compare the attributes they are given and
    no others: where a matcher does not mention the star or the keyword of an argument, neither does
    the model. White space and parentheses are not modelled. *)
From Coq Require Import String List NArith ZArith Bool Arith.
From Verif Require Import Base PyStr Regex Py.
Import ListNotations.
Set Implicit Arguments.

Definition report := option (option expr).
Definition fix_with (e : expr) : report := Some (Some e).
Definition no_fix : report := Some None.

Definition is_name (s : string) (e : expr) : bool := match e with Name n => str_eqb n (u s) | _ => false end.

(** ** no_static_if_condition.py 117-148 [_extract_static_bool] *)
Fixpoint static_bool (e : expr) : option bool :=
  match e with
  | Not e' => match static_bool e' with None => None | Some b => Some (negb b) end
  | Name s => if str_eqb s (u "True") then Some true else if str_eqb s (u "False") then Some false else None
  | BoolOp l op r =>
      let lv := static_bool l in
      let rv := static_bool r in
      match op with
      | Or => match rv, lv with Some true, _ | _, Some true => Some true | _, _ => None end
      | And => match rv, lv with Some false, _ | _, Some false => Some false | _, _ => None end
      end
  | _ => None
  end.
(** 150-152 [visit_If], of the condition *)
Definition no_static_if (test : expr) : report := match static_bool test with Some _ => no_fix | None => None end.

(** ** compare_primitives_by_equal.py *)
(** 56 PRIMITIVES: BaseNumber, BaseString *)
Definition primitive (e : expr) : bool :=
  match e with Number _ | SimpleString _ _ _ | Concatenated _ _ | FString _ _ _ => true | _ => false end.
Definition is_or_not (op : cmpop) : bool := match op with Is | IsNot => true | _ => false end.
(** 58-68 *)
Fixpoint by_equal_found (prev : expr) (rest : list (cmpop * expr)) : bool :=
  match rest with
  | [] => false
  | (op, c) :: rest' => (is_or_not op && (primitive prev || primitive c)) || by_equal_found c rest'
  end.
(** 70-95 [replace_operators] *)
Fixpoint by_equal_ops (prev : expr) (rest : list (cmpop * expr)) : list (cmpop * expr) :=
  match rest with
  | [] => []
  | (op, c) :: rest' =>
      (if is_or_not op && (primitive prev || primitive c) then match op with Is => Equal | _ => NotEqual end else op, c) :: by_equal_ops c rest'
  end.
Definition by_equal (e : expr) : report :=
  match e with
  | Compare l rest => if by_equal_found l rest then fix_with (Compare l (by_equal_ops l rest)) else None
  | _ => None
  end.

(** ** compare_singleton_primitives_by_is.py *)
(** 81-89 [is_singleton]; [qual]: the qualified names of a node are a non-empty set of built-in True,
    False and None. (The code asks for a proper subset of these three.) *)
Definition singleton (qual : expr -> bool) (e : expr) : bool := match e with Name _ => qual e | _ => false end.
Definition equal_or_not (op : cmpop) : bool := match op with Equal | NotEqual => true | _ => false end.
(** 91-108, 115-128 *)
Fixpoint by_is_ops (qual : expr -> bool) (left : expr) (rest : list (cmpop * expr)) : bool * list (cmpop * expr) :=
  match rest with
  | [] => (false, [])
  | (op, c) :: rest' =>
      let (needs, out) := by_is_ops qual c rest' in
      if equal_or_not op && (singleton qual left || singleton qual c)
      then (true, (match op with NotEqual => IsNot | _ => Is end, c) :: out)
      else (needs, (op, c) :: out)
  end.
Definition by_is (qual : expr -> bool) (e : expr) : report :=
  match e with
  | Compare l rest => let (needs, out) := by_is_ops qual l rest in if needs then fix_with (Compare l out) else None
  | _ => None
  end.

(** ** chained_instance_check.py *)
(** 131-138 [unwrap] *)
Fixpoint unwrap (e : expr) : list expr :=
  match e with BoolOp l Or r => unwrap l ++ [r] | _ => [e] end.

(** An element of [operands]: a target with the types collected for it, or another operand. *)
Inductive operand := Target (target : expr) (types : list expr) | Operand (e : expr).

Section Isinstance.
  (** [deep_equals] of nodes; whether a called function is the built-in isinstance *)
  Context (deq : expr -> expr -> bool) (is_isinstance : expr -> bool).

  (** 149-157: [isinstance(target, match)] *)
  Definition check_of (e : expr) : option (expr * expr) :=
    match e with
    | Call f [(_, _, t); (_, _, c)] =>
        match c with
        | Tuple _ => None
        | _ => if is_isinstance f then Some (t, c) else None
        end
    | _ => None
    end.
  (** 158-164: add to the first target that is equal *)
  Fixpoint add_check (t c : expr) (ops : list operand) : list operand :=
    match ops with
    | [] => [Target t [c]]
    | Target t' cs :: ops' => if deq t t' then Target t' (cs ++ [c]) :: ops' else Target t' cs :: add_check t c ops'
    | o :: ops' => o :: add_check t c ops'
    end.
  (** 140-168 [collect_targets] *)
  Definition collect_targets (stack : list expr) : list operand :=
    fold_left (fun ops e => match check_of e with
                            | Some (t, c) => add_check t c ops
                            | None => ops ++ [Operand e]
                            end) stack [].
  (** 112-119 *)
  Definition operand_expr (o : operand) : expr :=
    match o with
    | Operand e => e
    | Target t [c] => Call (Name (u "isinstance")) [plain_arg t; plain_arg c]
    | Target t cs => Call (Name (u "isinstance")) [plain_arg t; plain_arg (Tuple (map (fun c => (false, c)) cs))]
    end.
  (** 111-126 *)
  Definition or_all (es : list expr) : option expr :=
    match es with [] => None | e :: es' => Some (fold_left (fun l r => BoolOp l Or r) es' e) end.
  (** 100-129 [visit_BooleanOperation], of a node not seen before *)
  Definition collapse (e : expr) : report :=
    match e with
    | BoolOp _ _ _ =>
        let stack := unwrap e in
        let operands := collect_targets stack in
        if (List.length operands =? List.length stack)%nat then None
        else match or_all (map operand_expr operands) with Some r => fix_with r | None => None end
    | _ => None
    end.
End Isinstance.

(** ** Test assertions *)
Definition on_self (name : string) (f : expr) : bool :=
  match f with Attribute v a => is_name "self" v && str_eqb a (u name) | _ => false end.
Definition self_call (name : string) (args : list arg) : expr := Call (Attribute (Name (u "self")) (u name)) args.

(** use_assert_in.py 67-171 *)
Definition assert_in (e : expr) : report :=
  match e with
  | Call f [(_, _, x)] =>
      match (if on_self "assertTrue" f then match x with Compare a [(InOp, b)] => Some (a, b) | _ => None end else None) with
      | Some (a, b) => fix_with (self_call "assertIn" [plain_arg a; plain_arg b])
      | None =>
          match (if on_self "assertTrue" f then
                   match x with
                   | Not (Compare a [(InOp, b)]) => Some (a, b)
                   | Compare a [(NotInOp, b)] => Some (a, b)
                   | _ => None
                   end
                 else if on_self "assertFalse" f then match x with Compare a [(InOp, b)] => Some (a, b) | _ => None end
                 else None) with
          | Some (a, b) => fix_with (self_call "assertNotIn" [plain_arg a; plain_arg b])
          | None => None
          end
      end
  | _ => None
  end.

(** use_assert_is_not_none.py 87-159 *)
Definition none_check (x : expr) : option (expr * bool) :=       (* left, is not *)
  match x with
  | Compare a [(Is, b)] => if is_name "None" b then Some (a, false) else None
  | Compare a [(IsNot, b)] => if is_name "None" b then Some (a, true) else None
  | _ => None
  end.
Definition assert_none (e : expr) : report :=
  match e with
  | Call f [(_, _, x)] =>
      let name := if on_self "assertTrue" f then Some false else if on_self "assertFalse" f then Some true else None in
      let argument := match x with
                      | Not x' => match none_check x' with Some (a, n) => Some (a, n, true) | None => None end
                      | _ => match none_check x with Some (a, n) => Some (a, n, false) | None => None end
                      end in
      match name, argument with
      | Some is_false, Some (a, is_not, has_not) =>
          let negations := (if is_false : bool then 1 else 0) + (if has_not : bool then 1 else 0) + (if is_not : bool then 1 else 0) in
          let attr := if (negations mod 2 =? 0)%nat then "assertIsNone"%string else "assertIsNotNone"%string in
          fix_with (self_call attr [plain_arg a])
      | _, _ => None
      end
  | _ => None
  end.

(** no_assert_true_for_comparison.py 58-117 *)
Definition literal_second (e : expr) : bool :=
  match e with
  | Number _ | Tuple _ | List _ | Set_ _ | Dict _ => true
  | _ => is_name "None" e || is_name "True" e || is_name "False" e
  end.
Definition with_attr (f : expr) (a : str) : expr := match f with Attribute v _ => Attribute v a | _ => f end.
Definition assert_true_comparison (e : expr) : report :=
  match e with
  | Call f [a; (st, kw, second)] =>
      if on_self "assertTrue" f && literal_second second then
        fix_with (if is_name "True" second then Call f [a]
                  else if is_name "None" second then Call (with_attr f (u "assertIsNone")) [a]
                  else if is_name "False" second then Call (with_attr f (u "assertFalse")) [a]
                  else Call (with_attr f (u "assertEqual")) [a; (st, kw, second)])
      else None
  | _ => None
  end.

(** deprecated_unittest_asserts.py 71-95 *)
Definition deprecated_asserts : list (string * string) :=
  [("assertEquals", "assertEqual"); ("assertNotEquals", "assertNotEqual"); ("assertAlmostEquals", "assertAlmostEqual");
   ("assertNotAlmostEquals", "assertNotAlmostEqual"); ("assertRegexpMatches", "assertRegex"); ("assertNotRegexpMatches", "assertNotRegex");
   ("assertRaisesRegexp", "assertRaisesRegex")]%string.
Definition deprecated_assert (e : expr) : report :=
  match e with
  | Call f args =>
      match find (fun p => on_self (fst p) f) deprecated_asserts with
      | Some (_, new) => fix_with (Call (with_attr f (u new)) args)
      | None => None
      end
  | _ => None
  end.

(** ** Literals and comprehensions *)
Definition pair_of (e : expr) : option (expr * expr) :=
  match e with
  | Tuple [(_, a); (_, b)] | List [(_, a); (_, b)] => Some (a, b)
  | _ => None
  end.
(** elements that are pairs: [m.Element] does not match a starred element *)
Fixpoint pairs_of (es : list (bool * expr)) : option (list (expr * expr)) :=
  match es with
  | [] => Some []
  | (st, e) :: es' => match pair_of e, pairs_of es' with
                      | Some p, Some ps => if st : bool then None else Some (p :: ps)
                      | _, _ => None
                      end
  end.
Definition display (e : expr) : option (list (bool * expr)) := match e with List es | Tuple es => Some es | _ => None end.

(** rewrite_to_literal.py 71-155 *)
Definition to_literal (e : expr) : report :=
  match e with
  | Call (Name f) args =>
      match (match args with
             | [] => if str_eqb f (u "set") then None else Some []
             | [(_, _, a)] => display a
             | _ => None
             end) with
      | None => None
      | Some es =>
          if str_eqb f (u "tuple") then fix_with (Tuple es)
          else if str_eqb f (u "list") then fix_with (List es)
          else if str_eqb f (u "set") then match es with [] => fix_with (Call (Name (u "set")) []) | _ => fix_with (Set_ es) end
          else if str_eqb f (u "dict") then match pairs_of es with Some ps => fix_with (Dict ps) | None => None end
          else None
      end
  | _ => None
  end.

(** rewrite_to_comprehension.py 99-149; the matchers of 130 and 134 match any tuple and list. *)
Definition to_comprehension (e : expr) : res report :=
  match e with
  | Call (Name f) [(_, _, GeneratorExp elt cs)] | Call (Name f) [(_, _, ListComp elt cs)] =>
      if str_eqb f (u "list") then Ok (fix_with (ListComp elt cs))
      else if str_eqb f (u "set") then Ok (fix_with (SetComp elt cs))
      else if str_eqb f (u "dict") then
        match elt with
        | Tuple es | List es =>
            match es with
            | (_, k) :: (_, v) :: _ => Ok (fix_with (DictComp k v cs))
            | _ => Err IndexError
            end
        | _ => Ok None
        end
      else Ok None
  | _ => Ok None
  end.

(** no_redundant_list_comprehension.py 45-66 *)
Definition list_comprehension (e : expr) : report :=
  match e with
  | Call (Name f) [(st, kw, ListComp elt cs)] =>
      if str_eqb f (u "all") || str_eqb f (u "any") then fix_with (Call (Name f) [(st, kw, GeneratorExp elt cs)]) else None
  | _ => None
  end.

(** ** no_redundant_lambda.py 59-83 *)
Fixpoint passes_params (ps : list str) (args : list arg) : bool :=
  match ps, args with
  | [], [] => true
  | p :: ps', (NoStar, None, Name n) :: args' => str_eqb p n && passes_params ps' args'
  | _, _ => false
  end.
Definition redundant_lambda (e : expr) : report :=
  match e with
  | Lambda ps true (Call f args) => if passes_params ps args then fix_with f else None
  | _ => None
  end.

(** ** Strings *)

(** [s.replace(old, new)] for a text of two characters *)
Fixpoint replace2 (a b : N) (new s : str) : str :=
  match s with
  | c :: (d :: s') as r => if ((c =? a) && (d =? b))%N then new ++ replace2 a b new s' else c :: replace2 a b new r
  | _ => s
  end.
(** ... and of one *)
Definition replace1 (a : N) (new s : str) : str := flat_map (fun c => if (c =? a)%N then new else [c]) s.
(** [s.split(sep)] for a separator of two characters *)
Fixpoint split2 (a b : N) (s : str) : list str :=
  match s with
  | c :: (d :: s') as r =>
      if ((c =? a) && (d =? b))%N then [] :: split2 a b s'
      else match split2 a b r with t :: ts => (c :: t) :: ts | [] => [[c]] end
  | _ => [s]
  end.
Definition has2 (a b : N) (s : str) : bool := (1 <? List.length (split2 a b s))%nat.

(** no_redundant_fstring.py 52-64 *)
Definition without_f (prefix : str) : str := filter (fun c => negb ((c =? 102) || (c =? 70))%N) prefix.
Definition redundant_fstring (e : expr) : report :=
  match e with
  | FString prefix quote [inl text] =>
      let inner := if has2 123 123 text || has2 125 125 text
                   then replace2 125 125 [125%N] (replace2 123 123 [123%N] text) else text in
      fix_with (SimpleString (without_f prefix) quote inner)
  | _ => None
  end.

Section UseFstring.
  (** use_fstring.py: the length of the code of an expression; whether the literal reads the same with
      another quote *)
  Context (code_length : expr -> nat) (reads_same : str -> str -> str -> str -> bool).

  (** 26: fullmatch of texts in which each % is followed by s, with at least one *)
  Definition not_percent : re := Star (Chr (fun c => negb (c =? 37)%N)).
  Definition simple_format : re := Cat not_percent (Plus (Grp 1 (Cat (Lit (u "%s")) not_percent))).
  Definition fullmatch (r : re) (s : str) : bool := existsb (fun x => match st_rest x with [] => true | _ => false end) (m r (St true s [])).

  (** 18-27 [_match_simple_string] *)
  Definition simple_string (e : expr) : bool :=
    match e with SimpleString prefix _ raw => negb (is_bytes prefix) && fullmatch simple_format raw | _ => false end.
  (** 30-45 [_match_simple_expression] *)
  Definition short (e : expr) : bool := (code_length e <? 30)%nat.
  Definition simple_expression (e : expr) : bool :=
    match e with Tuple es => forallb (fun x => short (snd x)) es | _ => false end || short e.

  (** 53-71 [EscapeStringQuote.leave_SimpleString]; [None]: it raises *)
  Definition quotes : list str := [[39]; [34]; [39; 39; 39]; [34; 34; 34]]%N.
  Fixpoint contains (p s : str) : bool :=
    startswith p s || match s with [] => false | _ :: s' => contains p s' end.
  Definition requote_string (quote prefix q raw : str) : option expr :=
    if str_eqb quote q then
      match find (fun quo => negb (str_eqb quo q) && negb (contains quo raw)) quotes with
      | Some quo => if reads_same prefix q quo raw then Some (SimpleString prefix quo raw) else None
      | None => None
      end
    else Some (SimpleString prefix q raw).

  Section OptMap.
    Context {A B : Type} (f : A -> option B).
    Fixpoint opt_map (l : list A) : option (list B) :=
      match l with
      | [] => Some []
      | a :: l' => match f a, opt_map l' with Some b, Some bs => Some (b :: bs) | _, _ => None end
      end.
  End OptMap.
  Definition omap {A B} (f : A -> B) (o : option A) : option B := option_map f o.
  Definition omap2 {A B C} (f : A -> B -> C) (a : option A) (b : option B) : option C :=
    match a, b with Some a, Some b => Some (f a b) | _, _ => None end.

  (** a visit with this transformer *)
  Fixpoint requote (q : str) (e : expr) : option expr :=
    let clauses := opt_map (fun c => match c with
                                     | (t, it, ifs) => match requote q t, requote q it, opt_map (requote q) ifs with
                                                       | Some t, Some it, Some ifs => Some (t, it, ifs)
                                                       | _, _, _ => None
                                                       end
                                     end) in
    let elems := opt_map (fun x : bool * expr => match requote q (snd x) with Some e => Some (fst x, e) | None => None end) in
    match e with
    | Name _ | Number _ => Some e
    | SimpleString prefix qu raw => requote_string q prefix qu raw
    | Concatenated l r => omap2 Concatenated (requote q l) (requote q r)
    | FString p qu parts =>
        omap (FString p qu) (opt_map (fun x => match x with inl t => Some (inl t) | inr e => omap inr (requote q e) end) parts)
    | Attribute e a => omap (fun e => Attribute e a) (requote q e)
    | Subscript e sl => omap2 Subscript (requote q e) (opt_map (requote q) sl)
    | Call f args =>
        omap2 Call (requote q f) (opt_map (fun a => match a with (st, kw, e) => match requote q e with Some e => Some (st, kw, e) | None => None end end) args)
    | Not e => omap Not (requote q e)
    | BoolOp l op r => omap2 (fun l r => BoolOp l op r) (requote q l) (requote q r)
    | Modulo l r => omap2 Modulo (requote q l) (requote q r)
    | Compare l rest =>
        omap2 Compare (requote q l) (opt_map (fun x : cmpop * expr => match requote q (snd x) with Some e => Some (fst x, e) | None => None end) rest)
    | Tuple es => omap Tuple (elems es)
    | List es => omap List (elems es)
    | Set_ es => omap Set_ (elems es)
    | Dict es => omap Dict (opt_map (fun kv => match kv with (a, b) => omap2 pair (requote q a) (requote q b) end) es)
    | Lambda ps simple body => omap (Lambda ps simple) (requote q body)
    | ListComp elt cs => omap2 ListComp (requote q elt) (clauses cs)
    | SetComp elt cs => omap2 SetComp (requote q elt) (clauses cs)
    | GeneratorExp elt cs => omap2 GeneratorExp (requote q elt) (clauses cs)
    | DictComp k v cs => match requote q k, requote q v, clauses cs with Some k, Some v, Some cs => Some (DictComp k v cs) | _, _, _ => None end
    | Other n es => omap (Other n) (opt_map (requote q) es)
    end.

  (** 186-212: the parts; [None]: fewer expressions than placeholders, or a string that cannot be quoted *)
  Definition text_part (t : str) : list (str + expr) := match t with [] => [] | _ => [inl t] end.
  Fixpoint fill (q : str) (tokens : list str) (es : list expr) : option (list (str + expr)) :=
    match tokens, es with
    | [], _ => Some []
    | _ :: _, [] => None
    | t :: ts, e :: es' =>
        match requote q e, fill q ts es' with
        | Some e', Some parts => Some (inr e' :: text_part t ++ parts)
        | _, _ => None
        end
    end.

  (** LibCST's [FormattedString._validate] accepts the prefixes f, fr and rf only (a CSTValidationError
      otherwise); [SimpleString.prefix] is in lower case. *)
  Definition valid_fprefix (p : str) : bool := str_eqb p (u "f") || str_eqb p (u "fr") || str_eqb p (u "rf").
  Definition CSTValidationError : exn := OtherError 61.

  (** 159-228 [visit_BinaryOperation], of [left % right], and 150-160 [visit_Call] *)
  Definition use_fstring (e : expr) : res report :=
    match e with
    | Modulo l r =>
        if simple_string l && simple_expression r then
          match l with
          | SimpleString prefix q raw =>
              let innards := replace1 125 [125; 125]%N (replace1 123 [123; 123]%N raw) in
              let es := match r with Tuple xs => map snd xs | _ => [r] end in
              match split2 37 115 innards with
              | t :: tokens => match fill q tokens es with
                               | Some parts =>
                                   let p := u "f" ++ map ascii_lower prefix in
                                   if valid_fprefix p then Ok (fix_with (FString p q (text_part t ++ parts))) else Err CSTValidationError
                               | None => Ok no_fix
                               end
              | [] => Ok None
              end
          | _ => Ok None
          end
        else match l with SimpleString prefix _ _ => Ok (if is_bytes prefix then None else no_fix) | _ => Ok None end
    | Call (Attribute (SimpleString _ _ _) a) _ => Ok (if str_eqb a (u "format") then no_fix else None)
    | _ => Ok None
    end.
End UseFstring.
