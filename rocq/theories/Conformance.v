(** * Conformance: the cases of the rules themselves

    Written by tools/conformance.py: every VALID and INVALID case of a rule in /repo, translated by
    Python's parser to a term of the model. A VALID case has no expression that the model reports, an
    INVALID one has, and where the case has an expected replacement, replacing the outermost reported
    expressions gives it. These are tests of the models, not proofs: evidence that they are the code's. *)
From Coq Require Import String List NArith ZArith Bool Arith.
From Verif Require Import Base PyStr Py Rules.
Import ListNotations.
Open Scope N_scope.

(** An expression written down, to compare expressions *)
Fixpoint show (e : expr) : str :=
  let many := fun l : list expr => 40 :: flat_map (fun x => show x ++ [44]) l ++ [41] in
  let strs := fun l : list str => flat_map (fun s => 39 :: s ++ [39]) l in
  let elems := fun l : list (bool * expr) => 40 :: flat_map (fun x : bool * expr => (if fst x then 42 else 43) :: show (snd x)) l ++ [41] in
  let cls := flat_map (fun c : clause => match c with (t, i, ifs) => 70 :: show t ++ show i ++ 40 :: flat_map show ifs ++ [41] end) in
  match e with
  | Name s => 1 :: s ++ [0]
  | Number s => 2 :: s ++ [0]
  | SimpleString p q r => 3 :: p ++ q ++ r ++ q ++ [0]
  | Concatenated l r => 4 :: show l ++ show r
  | FString p q ps => 5 :: p ++ q ++ flat_map (fun x => match x with inl t => 6 :: t ++ [0] | inr e => 7 :: show e end) ps ++ [0]
  | Attribute e a => 8 :: show e ++ a ++ [0]
  | Subscript e sl => 9 :: show e ++ many sl
  | Call f args => 10 :: show f ++ flat_map (fun a : arg => match a with (st, k, e) =>
        (match st with NoStar => 11 | OneStar => 12 | TwoStars => 13 end) :: strs (match k with Some s => [s] | None => [] end) ++ show e end) args ++ [0]
  | Not e => 14 :: show e
  | BoolOp l op r => 15 :: show l ++ (match op with And => 16 | Or => 17 end) :: show r
  | Modulo l r => 18 :: show l ++ show r
  | Compare l rest => 19 :: show l ++ flat_map (fun x : cmpop * expr =>
        (match fst x with Is => 20 | IsNot => 21 | Equal => 22 | NotEqual => 23 | InOp => 24 | NotInOp => 25 | OtherCmp n => 26 + n end) :: show (snd x)) rest ++ [0]
  | Tuple es => 40 :: elems es
  | List es => 41 :: elems es
  | Set_ es => 42 :: elems es
  | Dict es => 43 :: flat_map (fun kv : expr * expr => match kv with (k, v) => show k ++ show v end) es ++ [0]
  | Lambda ps s bd => 44 :: strs ps ++ (if s then 1 else 2) :: show bd
  | ListComp e cs => 45 :: show e ++ cls cs ++ [0]
  | SetComp e cs => 46 :: show e ++ cls cs ++ [0]
  | GeneratorExp e cs => 47 :: show e ++ cls cs ++ [0]
  | DictComp k v cs => 48 :: show k ++ show v ++ cls cs ++ [0]
  | Other n es => 49 :: n :: many es
  end.
Definition same (a b : expr) : bool := str_eqb (show a) (show b).

(** Replacing outermost reported expressions, and counting the reports they are *)
Section Rewrite.
  Context (r : expr -> report).
  Fixpoint rw (e : expr) : expr :=
    match r e with
    | Some (Some e') => e'
    | _ =>
        let cls := map (fun c : clause => match c with (t, i, ifs) => (rw t, rw i, map rw ifs) end) in
        let elems := map (fun x : bool * expr => (fst x, rw (snd x))) in
        match e with
        | Name _ | Number _ | SimpleString _ _ _ => e
        | Concatenated a c => Concatenated (rw a) (rw c)
        | FString p q ps => FString p q (map (fun x => match x with inl t => inl t | inr e => inr (rw e) end) ps)
        | Attribute e a => Attribute (rw e) a
        | Subscript e sl => Subscript (rw e) (map rw sl)
        | Call f args => Call (rw f) (map (fun a : arg => match a with (st, k, e) => (st, k, rw e) end) args)
        | Not e => Not (rw e)
        | BoolOp a op c => BoolOp (rw a) op (rw c)
        | Modulo a c => Modulo (rw a) (rw c)
        | Compare l rest => Compare (rw l) (map (fun x : cmpop * expr => (fst x, rw (snd x))) rest)
        | Tuple es => Tuple (elems es)
        | List es => List (elems es)
        | Set_ es => Set_ (elems es)
        | Dict es => Dict (map (fun kv : expr * expr => match kv with (k, v) => (rw k, rw v) end) es)
        | Lambda ps s bd => Lambda ps s (rw bd)
        | ListComp e cs => ListComp (rw e) (cls cs)
        | SetComp e cs => SetComp (rw e) (cls cs)
        | GeneratorExp e cs => GeneratorExp (rw e) (cls cs)
        | DictComp k v cs => DictComp (rw k) (rw v) (cls cs)
        | Other n es => Other n (map rw es)
        end
    end.
  Fixpoint reports (e : expr) : bool :=
    match r e with
    | Some _ => true
    | None =>
        let cls := existsb (fun c : clause => match c with (t, i, ifs) => reports t || reports i || existsb reports ifs end) in
        let elems := existsb (fun x : bool * expr => reports (snd x)) in
        match e with
        | Name _ | Number _ | SimpleString _ _ _ => false
        | Concatenated a c => reports a || reports c
        | FString p q ps => existsb (fun x => match x with inl t => false | inr e => reports e end) ps
        | Attribute e a => reports e
        | Subscript e sl => reports e || existsb reports sl
        | Call f args => reports f || existsb (fun a : arg => match a with (st, k, e) => reports e end) args
        | Not e => reports e
        | BoolOp a op c => reports a || reports c
        | Modulo a c => reports a || reports c
        | Compare l rest => reports l || existsb (fun x : cmpop * expr => reports (snd x)) rest
        | Tuple es | List es | Set_ es => elems es
        | Dict es => existsb (fun kv : expr * expr => match kv with (k, v) => reports k || reports v end) es
        | Lambda ps s bd => reports bd
        | ListComp e cs | SetComp e cs | GeneratorExp e cs => reports e || cls cs
        | DictComp k v cs => reports k || reports v || cls cs
        | Other n es => existsb reports es
        end
    end.
End Rewrite.

Definition ok (r : expr -> res report) (e : expr) : report := match r e with Ok x => x | Err _ => None end.
Definition singletons (e : expr) : bool := is_name "True" e || is_name "False" e || is_name "None" e.
Definition wide (t : list (str * nat)) (e : expr) : nat := match assoc (show e) t with Some n => n | None => 0%nat end.

Definition valid (r : expr -> report) (es : list expr) : bool := negb (existsb (reports r) es).
Definition invalid (r : expr -> report) (c : list expr * option (list expr)) : bool :=
  existsb (reports r) (fst c) &&
  match snd c with
  | None => true
  | Some after => str_eqb (flat_map show (map (rw r) (fst c))) (flat_map show after)
  end.
(** the cases that do not come out right, by number *)
Definition wrong {A} (f : A -> bool) (l : list A) : list nat :=
  map fst (filter (fun x => negb (f (snd x))) (combine (seq 0 (List.length l)) l)).

(** /repo/src/fixit/rules/no_static_if_condition.py NoStaticIfCondition *)
Definition NoStaticIfCondition_VALID : list (list expr) :=
  [[(BoolOp (Call (Name (u "my_func")) []) Or (Not (Call (Name (u "else_func")) [])))];
   [(Call (Name (u "function_call")) [(NoStar, None, (Name (u "True")))])];
   [(BoolOp (Call (Name (u "true")) []) And (Call (Name (u "else_call")) []))];
   [(BoolOp (Name (u "False")) Or (Call (Name (u "some_func")) []))]].

Definition NoStaticIfCondition_INVALID : list (list expr * option (list expr)) :=
  [([(Name (u "True"))],
    None);
   ([(BoolOp (Name (u "crazy_expression")) Or (Name (u "True")))],
    None);
   ([(BoolOp (Name (u "crazy_expression")) And (Name (u "False")))],
    None);
   ([(BoolOp (Name (u "crazy_expression")) And (Not (Name (u "True"))))],
    None);
   ([(BoolOp (Name (u "crazy_expression")) Or (Not (Name (u "False"))))],
    None);
   ([(BoolOp (Name (u "crazy_expression")) Or (BoolOp (Call (Name (u "something")) []) Or (Name (u "True"))))],
    None);
   ([(BoolOp (Name (u "crazy_expression")) And (BoolOp (Call (Name (u "something")) []) And (Not (Name (u "True")))))],
    None);
   ([(BoolOp (Name (u "crazy_expression")) And (BoolOp (Call (Name (u "something")) []) And (BoolOp (Call (Name (u "other_func")) []) And (Not (Name (u "True"))))))],
    None);
   ([(BoolOp (BoolOp (Name (u "crazy_expression")) And (BoolOp (Call (Name (u "something")) []) And (Not (Name (u "True"))))) Or (Name (u "True")))],
    None);
   ([(BoolOp (Other 0 [(Call (Name (u "expression")) [])]) And (Name (u "False")))],
    None)].

Example NoStaticIfCondition_conforms : wrong (fun es => forallb (fun e => match no_static_if e with None => true | _ => false end) es) NoStaticIfCondition_VALID = [] /\ wrong (fun c => existsb (fun e => match no_static_if e with None => false | _ => true end) (fst c)) NoStaticIfCondition_INVALID = [].
Proof. vm_compute. split; reflexivity. Qed.

(** /repo/src/fixit/rules/compare_primitives_by_equal.py ComparePrimitivesByEqual *)
Definition ComparePrimitivesByEqual_VALID : list (list expr) :=
  [[(Compare (Name (u "a")) [(Equal, (Number (u "1")))])];
   [(Compare (Name (u "a")) [(Equal, (SimpleString []%N (u "'") (u "1")))])];
   [(Compare (Name (u "a")) [(NotEqual, (SimpleString []%N (u "'") (u "1")))])];
   [(Compare (SimpleString []%N (u "'") (u "3")) [(Equal, (SimpleString []%N (u "'") (u "1")))])];
   [(Compare (Number (u "3")) [(Equal, (SimpleString []%N (u "'") (u "1")))])];
   [(Compare (Number (u "3")) [(OtherCmp 2, (Number (u "2"))); (OtherCmp 2, (Number (u "1")))])];
   [(Compare (Number (u "3")) [(OtherCmp 2, (Number (u "2"))); (OtherCmp 2, (SimpleString []%N (u "'") (u "1")))])];
   [(Compare (Name (u "a")) [(Is, (Name (u "b"))); (OtherCmp 2, (Number (u "1")))])];
   [(Compare (Name (u "a")) [(Is, (Name (u "b"))); (Is, (Name (u "c")))])];
   [(Compare (Number (u "1")) [(OtherCmp 2, (Name (u "b"))); (Is, (Name (u "c")))])]].

Definition ComparePrimitivesByEqual_INVALID : list (list expr * option (list expr)) :=
  [([(Compare (Name (u "a")) [(Is, (Number (u "1")))])],
    Some [(Compare (Name (u "a")) [(Equal, (Number (u "1")))])]);
   ([(Compare (Name (u "a")) [(Is, (SimpleString []%N (u "'") (u "1")))])],
    Some [(Compare (Name (u "a")) [(Equal, (SimpleString []%N (u "'") (u "1")))])]);
   ([(Compare (Name (u "a")) [(Is, (FString (u "f") (u "'") [inl (u "1"); inr (Name (u "b"))]))])],
    Some [(Compare (Name (u "a")) [(Equal, (FString (u "f") (u "'") [inl (u "1"); inr (Name (u "b"))]))])]);
   ([(Compare (Name (u "a")) [(IsNot, (FString (u "f") (u "'") [inl (u "1"); inr (Name (u "d"))]))])],
    Some [(Compare (Name (u "a")) [(NotEqual, (FString (u "f") (u "'") [inl (u "1"); inr (Name (u "d"))]))])]);
   ([(Compare (Number (u "1")) [(Is, (Name (u "a")))])],
    Some [(Compare (Number (u "1")) [(Equal, (Name (u "a")))])]);
   ([(Compare (SimpleString []%N (u "'") (u "2")) [(OtherCmp 2, (SimpleString []%N (u "'") (u "1"))); (Is, (Name (u "a")))])],
    Some [(Compare (SimpleString []%N (u "'") (u "2")) [(OtherCmp 2, (SimpleString []%N (u "'") (u "1"))); (Equal, (Name (u "a")))])]);
   ([(Compare (Number (u "3")) [(OtherCmp 2, (Name (u "a"))); (Is, (Number (u "2")))])],
    Some [(Compare (Number (u "3")) [(OtherCmp 2, (Name (u "a"))); (Equal, (Number (u "2")))])]);
   ([(Compare (Number (u "1")) [(Is, (Number (u "2")))])],
    Some [(Compare (Number (u "1")) [(Equal, (Number (u "2")))])])].

Example ComparePrimitivesByEqual_conforms : wrong (valid (by_equal)) ComparePrimitivesByEqual_VALID = [] /\ wrong (invalid (by_equal)) ComparePrimitivesByEqual_INVALID = [].
Proof. vm_compute. split; reflexivity. Qed.

(** /repo/src/fixit/rules/compare_singleton_primitives_by_is.py CompareSingletonPrimitivesByIs *)
Definition CompareSingletonPrimitivesByIs_VALID : list (list expr) :=
  [[(Name (u "x"))];
   [(Not (Name (u "x")))];
   [(Compare (Name (u "x")) [(Is, (Name (u "True")))])];
   [(Compare (Name (u "x")) [(Is, (Name (u "False")))])];
   [(Compare (Name (u "x")) [(Is, (Name (u "None")))])];
   [(Compare (Name (u "x")) [(IsNot, (Name (u "None")))])];
   [(Compare (Name (u "x")) [(Is, (Name (u "True"))); (IsNot, (Name (u "y")))])];
   [(Compare (Name (u "y")) [(Is, (Name (u "None"))); (IsNot, (Name (u "x")))])];
   [(Compare (Name (u "None")) [(Is, (Name (u "y")))])];
   [(Compare (Name (u "True")) [(Is, (Name (u "x")))])];
   [(Compare (Name (u "False")) [(Is, (Name (u "x")))])];
   [(Compare (Name (u "x")) [(Equal, (Number (u "2")))])];
   [(Compare (Number (u "2")) [(NotEqual, (Name (u "x")))])];
   [(Compare (SimpleString []%N (u """") (u "True")) [(Equal, (SimpleString []%N (u """") (u "True")))])];
   [(Compare (SimpleString []%N (u """") (u "True")) [(NotEqual, (Call (Attribute (SimpleString []%N (u """") (u "False")) (u "lower")) []))])]].

Definition CompareSingletonPrimitivesByIs_INVALID : list (list expr * option (list expr)) :=
  [([(Compare (Name (u "x")) [(NotEqual, (Name (u "True")))])],
    Some [(Compare (Name (u "x")) [(IsNot, (Name (u "True")))])]);
   ([(Compare (Name (u "x")) [(NotEqual, (Name (u "False")))])],
    Some [(Compare (Name (u "x")) [(IsNot, (Name (u "False")))])]);
   ([(Compare (Name (u "x")) [(Equal, (Name (u "False")))])],
    Some [(Compare (Name (u "x")) [(Is, (Name (u "False")))])]);
   ([(Compare (Name (u "x")) [(Equal, (Name (u "None")))])],
    Some [(Compare (Name (u "x")) [(Is, (Name (u "None")))])]);
   ([(Compare (Name (u "x")) [(NotEqual, (Name (u "None")))])],
    Some [(Compare (Name (u "x")) [(IsNot, (Name (u "None")))])]);
   ([(Compare (Name (u "False")) [(Equal, (Name (u "x")))])],
    Some [(Compare (Name (u "False")) [(Is, (Name (u "x")))])]);
   ([(Compare (Name (u "x")) [(Is, (Name (u "True"))); (Equal, (Name (u "y")))])],
    Some [(Compare (Name (u "x")) [(Is, (Name (u "True"))); (Is, (Name (u "y")))])])].

Example CompareSingletonPrimitivesByIs_conforms : wrong (valid (by_is singletons)) CompareSingletonPrimitivesByIs_VALID = [] /\ wrong (invalid (by_is singletons)) CompareSingletonPrimitivesByIs_INVALID = [].
Proof. vm_compute. split; reflexivity. Qed.

(** /repo/src/fixit/rules/chained_instance_check.py CollapseIsinstanceChecks *)
Definition CollapseIsinstanceChecks_VALID : list (list expr) :=
  [[(BoolOp (Call (Name (u "foo")) []) Or (Call (Name (u "foo")) []))];
   [(BoolOp (Call (Name (u "foo")) [(NoStar, None, (Name (u "x"))); (NoStar, None, (Name (u "y")))]) Or (Call (Name (u "foo")) [(NoStar, None, (Name (u "x"))); (NoStar, None, (Name (u "z")))]))];
   [(BoolOp (BoolOp (Call (Name (u "foo")) [(NoStar, None, (Name (u "x"))); (NoStar, None, (Name (u "y")))]) Or (Call (Name (u "foo")) [(NoStar, None, (Name (u "x"))); (NoStar, None, (Name (u "z")))])) Or (Call (Name (u "foo")) [(NoStar, None, (Name (u "x"))); (NoStar, None, (Name (u "q")))]))];
   [(BoolOp (Call (Name (u "isinstance")) []) Or (Call (Name (u "isinstance")) []))];
   [(BoolOp (Call (Name (u "isinstance")) [(NoStar, None, (Name (u "x")))]) Or (Call (Name (u "isinstance")) [(NoStar, None, (Name (u "x")))]))];
   [(BoolOp (Call (Name (u "isinstance")) [(NoStar, None, (Name (u "x"))); (NoStar, None, (Name (u "y")))]) Or (Call (Name (u "isinstance")) [(NoStar, None, (Name (u "x")))]))];
   [(BoolOp (Call (Name (u "isinstance")) [(NoStar, None, (Name (u "x")))]) Or (Call (Name (u "isinstance")) [(NoStar, None, (Name (u "x"))); (NoStar, None, (Name (u "y")))]))];
   [(BoolOp (Call (Name (u "isinstance")) [(NoStar, None, (Name (u "x"))); (NoStar, None, (Name (u "y")))]) Or (Call (Name (u "isinstance")) [(NoStar, None, (Name (u "t"))); (NoStar, None, (Name (u "y")))]))];
   [(BoolOp (Call (Name (u "isinstance")) [(NoStar, None, (Name (u "x"))); (NoStar, None, (Name (u "y")))]) And (Call (Name (u "isinstance")) [(NoStar, None, (Name (u "x"))); (NoStar, None, (Name (u "z")))]))];
   [(BoolOp (Call (Name (u "isinstance")) [(NoStar, None, (Name (u "x"))); (NoStar, None, (Name (u "y")))]) Or (Call (Name (u "isinstance")) [(NoStar, None, (Name (u "x"))); (NoStar, None, (Tuple [(false, (Name (u "z"))); (false, (Name (u "q")))]))]))];
   [(BoolOp (Call (Name (u "isinstance")) [(NoStar, None, (Name (u "x"))); (NoStar, None, (Tuple [(false, (Name (u "y"))); (false, (Name (u "z")))]))]) Or (Call (Name (u "isinstance")) [(NoStar, None, (Name (u "x"))); (NoStar, None, (Name (u "q")))]))];
   [(BoolOp (BoolOp (Call (Name (u "isinstance")) [(NoStar, None, (Name (u "x"))); (NoStar, None, (Name (u "a")))]) Or (Call (Name (u "isinstance")) [(NoStar, None, (Name (u "y"))); (NoStar, None, (Name (u "b")))])) Or (Call (Name (u "isinstance")) [(NoStar, None, (Name (u "z"))); (NoStar, None, (Name (u "c")))]))];
   [(Call (Name (u "_foo_bar")) [(NoStar, None, (Name (u "x"))); (NoStar, None, (Name (u "y")))]); (BoolOp (Call (Name (u "isinstance.local")) [(NoStar, None, (Name (u "x"))); (NoStar, None, (Name (u "y")))]) Or (Call (Name (u "isinstance.local")) [(NoStar, None, (Name (u "x"))); (NoStar, None, (Name (u "z")))])); (Call (Name (u "print")) [(NoStar, None, (SimpleString []%N (u """") (u "foo")))])]].

Definition CollapseIsinstanceChecks_INVALID : list (list expr * option (list expr)) :=
  [([(BoolOp (Call (Name (u "isinstance")) [(NoStar, None, (Name (u "x"))); (NoStar, None, (Name (u "y")))]) Or (Call (Name (u "isinstance")) [(NoStar, None, (Name (u "x"))); (NoStar, None, (Name (u "z")))]))],
    Some [(Call (Name (u "isinstance")) [(NoStar, None, (Name (u "x"))); (NoStar, None, (Tuple [(false, (Name (u "y"))); (false, (Name (u "z")))]))])]);
   ([(BoolOp (BoolOp (Call (Name (u "isinstance")) [(NoStar, None, (Name (u "x"))); (NoStar, None, (Name (u "y")))]) Or (Call (Name (u "isinstance")) [(NoStar, None, (Name (u "x"))); (NoStar, None, (Name (u "z")))])) Or (Call (Name (u "isinstance")) [(NoStar, None, (Name (u "x"))); (NoStar, None, (Name (u "q")))]))],
    Some [(Call (Name (u "isinstance")) [(NoStar, None, (Name (u "x"))); (NoStar, None, (Tuple [(false, (Name (u "y"))); (false, (Name (u "z"))); (false, (Name (u "q")))]))])]);
   ([(BoolOp (BoolOp (BoolOp (Name (u "something")) Or (Call (Name (u "isinstance")) [(NoStar, None, (Name (u "x"))); (NoStar, None, (Name (u "y")))])) Or (Call (Name (u "isinstance")) [(NoStar, None, (Name (u "x"))); (NoStar, None, (Name (u "z")))])) Or (Name (u "another")))],
    Some [(BoolOp (BoolOp (Name (u "something")) Or (Call (Name (u "isinstance")) [(NoStar, None, (Name (u "x"))); (NoStar, None, (Tuple [(false, (Name (u "y"))); (false, (Name (u "z")))]))])) Or (Name (u "another")))]);
   ([(BoolOp (BoolOp (BoolOp (Call (Name (u "isinstance")) [(NoStar, None, (Name (u "x"))); (NoStar, None, (Name (u "y")))]) Or (Call (Name (u "isinstance")) [(NoStar, None, (Name (u "x"))); (NoStar, None, (Name (u "z")))])) Or (Call (Name (u "isinstance")) [(NoStar, None, (Name (u "x"))); (NoStar, None, (Name (u "q")))])) Or (Call (Name (u "isinstance")) [(NoStar, None, (Name (u "x"))); (NoStar, None, (Name (u "w")))]))],
    Some [(Call (Name (u "isinstance")) [(NoStar, None, (Name (u "x"))); (NoStar, None, (Tuple [(false, (Name (u "y"))); (false, (Name (u "z"))); (false, (Name (u "q"))); (false, (Name (u "w")))]))])]);
   ([(BoolOp (BoolOp (BoolOp (Call (Name (u "isinstance")) [(NoStar, None, (Name (u "x"))); (NoStar, None, (Name (u "a")))]) Or (Call (Name (u "isinstance")) [(NoStar, None, (Name (u "x"))); (NoStar, None, (Name (u "b")))])) Or (Call (Name (u "isinstance")) [(NoStar, None, (Name (u "y"))); (NoStar, None, (Name (u "c")))])) Or (Call (Name (u "isinstance")) [(NoStar, None, (Name (u "y"))); (NoStar, None, (Name (u "d")))]))],
    Some [(BoolOp (Call (Name (u "isinstance")) [(NoStar, None, (Name (u "x"))); (NoStar, None, (Tuple [(false, (Name (u "a"))); (false, (Name (u "b")))]))]) Or (Call (Name (u "isinstance")) [(NoStar, None, (Name (u "y"))); (NoStar, None, (Tuple [(false, (Name (u "c"))); (false, (Name (u "d")))]))]))]);
   ([(BoolOp (BoolOp (BoolOp (BoolOp (Call (Name (u "isinstance")) [(NoStar, None, (Name (u "x"))); (NoStar, None, (Name (u "a")))]) Or (Call (Name (u "isinstance")) [(NoStar, None, (Name (u "x"))); (NoStar, None, (Name (u "b")))])) Or (Call (Name (u "isinstance")) [(NoStar, None, (Name (u "y"))); (NoStar, None, (Name (u "c")))])) Or (Call (Name (u "isinstance")) [(NoStar, None, (Name (u "y"))); (NoStar, None, (Name (u "d")))])) Or (Call (Name (u "isinstance")) [(NoStar, None, (Name (u "z"))); (NoStar, None, (Name (u "e")))]))],
    Some [(BoolOp (BoolOp (Call (Name (u "isinstance")) [(NoStar, None, (Name (u "x"))); (NoStar, None, (Tuple [(false, (Name (u "a"))); (false, (Name (u "b")))]))]) Or (Call (Name (u "isinstance")) [(NoStar, None, (Name (u "y"))); (NoStar, None, (Tuple [(false, (Name (u "c"))); (false, (Name (u "d")))]))])) Or (Call (Name (u "isinstance")) [(NoStar, None, (Name (u "z"))); (NoStar, None, (Name (u "e")))]))]);
   ([(BoolOp (BoolOp (BoolOp (BoolOp (BoolOp (BoolOp (BoolOp (Call (Name (u "isinstance")) [(NoStar, None, (Name (u "x"))); (NoStar, None, (Name (u "a")))]) Or (Call (Name (u "isinstance")) [(NoStar, None, (Name (u "x"))); (NoStar, None, (Name (u "b")))])) Or (Call (Name (u "isinstance")) [(NoStar, None, (Name (u "y"))); (NoStar, None, (Name (u "c")))])) Or (Call (Name (u "isinstance")) [(NoStar, None, (Name (u "y"))); (NoStar, None, (Name (u "d")))])) Or (Call (Name (u "isinstance")) [(NoStar, None, (Name (u "z"))); (NoStar, None, (Name (u "e")))])) Or (Call (Name (u "isinstance")) [(NoStar, None, (Name (u "q"))); (NoStar, None, (Name (u "f")))])) Or (Call (Name (u "isinstance")) [(NoStar, None, (Name (u "q"))); (NoStar, None, (Name (u "g")))])) Or (Call (Name (u "isinstance")) [(NoStar, None, (Name (u "q"))); (NoStar, None, (Name (u "h")))]))],
    Some [(BoolOp (BoolOp (BoolOp (Call (Name (u "isinstance")) [(NoStar, None, (Name (u "x"))); (NoStar, None, (Tuple [(false, (Name (u "a"))); (false, (Name (u "b")))]))]) Or (Call (Name (u "isinstance")) [(NoStar, None, (Name (u "y"))); (NoStar, None, (Tuple [(false, (Name (u "c"))); (false, (Name (u "d")))]))])) Or (Call (Name (u "isinstance")) [(NoStar, None, (Name (u "z"))); (NoStar, None, (Name (u "e")))])) Or (Call (Name (u "isinstance")) [(NoStar, None, (Name (u "q"))); (NoStar, None, (Tuple [(false, (Name (u "f"))); (false, (Name (u "g"))); (false, (Name (u "h")))]))]))])].

Example CollapseIsinstanceChecks_conforms : wrong (valid (collapse same (is_name "isinstance"))) CollapseIsinstanceChecks_VALID = [] /\ wrong (invalid (collapse same (is_name "isinstance"))) CollapseIsinstanceChecks_INVALID = [].
Proof. vm_compute. split; reflexivity. Qed.

(** /repo/src/fixit/rules/use_assert_in.py UseAssertIn *)
Definition UseAssertIn_VALID : list (list expr) :=
  [[(Call (Attribute (Name (u "self")) (u "assertIn")) [(NoStar, None, (Name (u "a"))); (NoStar, None, (Name (u "b")))])];
   [(Call (Attribute (Name (u "self")) (u "assertIn")) [(NoStar, None, (Call (Name (u "f")) [])); (NoStar, None, (Name (u "b")))])];
   [(Call (Attribute (Name (u "self")) (u "assertIn")) [(NoStar, None, (Call (Name (u "f")) [(NoStar, None, (Name (u "x")))])); (NoStar, None, (Name (u "b")))])];
   [(Call (Attribute (Name (u "self")) (u "assertIn")) [(NoStar, None, (Call (Name (u "f")) [(NoStar, None, (Call (Name (u "g")) [(NoStar, None, (Name (u "x")))]))])); (NoStar, None, (Name (u "b")))])];
   [(Call (Attribute (Name (u "self")) (u "assertNotIn")) [(NoStar, None, (Name (u "a"))); (NoStar, None, (Name (u "b")))])];
   [(Call (Attribute (Name (u "self")) (u "assertNotIn")) [(NoStar, None, (Call (Name (u "f")) [])); (NoStar, None, (Name (u "b")))])];
   [(Call (Attribute (Name (u "self")) (u "assertNotIn")) [(NoStar, None, (Call (Name (u "f")) [(NoStar, None, (Name (u "x")))])); (NoStar, None, (Name (u "b")))])];
   [(Call (Attribute (Name (u "self")) (u "assertNotIn")) [(NoStar, None, (Call (Name (u "f")) [(NoStar, None, (Call (Name (u "g")) [(NoStar, None, (Name (u "x")))]))])); (NoStar, None, (Name (u "b")))])]].

Definition UseAssertIn_INVALID : list (list expr * option (list expr)) :=
  [([(Call (Attribute (Name (u "self")) (u "assertTrue")) [(NoStar, None, (Compare (Name (u "a")) [(InOp, (Name (u "b")))]))])],
    Some [(Call (Attribute (Name (u "self")) (u "assertIn")) [(NoStar, None, (Name (u "a"))); (NoStar, None, (Name (u "b")))])]);
   ([(Call (Attribute (Name (u "self")) (u "assertTrue")) [(NoStar, None, (Compare (Call (Name (u "f")) []) [(InOp, (Name (u "b")))]))])],
    Some [(Call (Attribute (Name (u "self")) (u "assertIn")) [(NoStar, None, (Call (Name (u "f")) [])); (NoStar, None, (Name (u "b")))])]);
   ([(Call (Attribute (Name (u "self")) (u "assertTrue")) [(NoStar, None, (Compare (Call (Name (u "f")) [(NoStar, None, (Name (u "x")))]) [(InOp, (Name (u "b")))]))])],
    Some [(Call (Attribute (Name (u "self")) (u "assertIn")) [(NoStar, None, (Call (Name (u "f")) [(NoStar, None, (Name (u "x")))])); (NoStar, None, (Name (u "b")))])]);
   ([(Call (Attribute (Name (u "self")) (u "assertTrue")) [(NoStar, None, (Compare (Call (Name (u "f")) [(NoStar, None, (Call (Name (u "g")) [(NoStar, None, (Name (u "x")))]))]) [(InOp, (Name (u "b")))]))])],
    Some [(Call (Attribute (Name (u "self")) (u "assertIn")) [(NoStar, None, (Call (Name (u "f")) [(NoStar, None, (Call (Name (u "g")) [(NoStar, None, (Name (u "x")))]))])); (NoStar, None, (Name (u "b")))])]);
   ([(Call (Attribute (Name (u "self")) (u "assertTrue")) [(NoStar, None, (Compare (Name (u "a")) [(NotInOp, (Name (u "b")))]))])],
    Some [(Call (Attribute (Name (u "self")) (u "assertNotIn")) [(NoStar, None, (Name (u "a"))); (NoStar, None, (Name (u "b")))])]);
   ([(Call (Attribute (Name (u "self")) (u "assertTrue")) [(NoStar, None, (Not (Compare (Name (u "a")) [(InOp, (Name (u "b")))])))])],
    Some [(Call (Attribute (Name (u "self")) (u "assertNotIn")) [(NoStar, None, (Name (u "a"))); (NoStar, None, (Name (u "b")))])]);
   ([(Call (Attribute (Name (u "self")) (u "assertFalse")) [(NoStar, None, (Compare (Name (u "a")) [(InOp, (Name (u "b")))]))])],
    Some [(Call (Attribute (Name (u "self")) (u "assertNotIn")) [(NoStar, None, (Name (u "a"))); (NoStar, None, (Name (u "b")))])])].

Example UseAssertIn_conforms : wrong (valid (assert_in)) UseAssertIn_VALID = [] /\ wrong (invalid (assert_in)) UseAssertIn_INVALID = [].
Proof. vm_compute. split; reflexivity. Qed.

(** /repo/src/fixit/rules/use_assert_is_not_none.py UseAssertIsNotNone *)
Definition UseAssertIsNotNone_VALID : list (list expr) :=
  [[(Call (Attribute (Name (u "self")) (u "assertIsNotNone")) [(NoStar, None, (Name (u "x")))])];
   [(Call (Attribute (Name (u "self")) (u "assertIsNone")) [(NoStar, None, (Name (u "x")))])];
   [(Call (Attribute (Name (u "self")) (u "assertIsNone")) [(NoStar, None, (Name (u "None")))])];
   [(Call (Attribute (Name (u "self")) (u "assertIsNotNone")) [(NoStar, None, (Call (Name (u "f")) [(NoStar, None, (Name (u "x")))]))])];
   [(Call (Attribute (Name (u "self")) (u "assertIsNone")) [(NoStar, None, (Call (Name (u "f")) [(NoStar, None, (Name (u "x")))]))])];
   [(Call (Attribute (Name (u "self")) (u "assertIsNone")) [(NoStar, None, (Attribute (Name (u "object")) (u "key")))])];
   [(Call (Attribute (Name (u "self")) (u "assertIsNotNone")) [(NoStar, None, (Attribute (Name (u "object")) (u "key")))])]].

Definition UseAssertIsNotNone_INVALID : list (list expr * option (list expr)) :=
  [([(Call (Attribute (Name (u "self")) (u "assertTrue")) [(NoStar, None, (Compare (Name (u "a")) [(IsNot, (Name (u "None")))]))])],
    Some [(Call (Attribute (Name (u "self")) (u "assertIsNotNone")) [(NoStar, None, (Name (u "a")))])]);
   ([(Call (Attribute (Name (u "self")) (u "assertTrue")) [(NoStar, None, (Not (Compare (Name (u "x")) [(Is, (Name (u "None")))])))])],
    Some [(Call (Attribute (Name (u "self")) (u "assertIsNotNone")) [(NoStar, None, (Name (u "x")))])]);
   ([(Call (Attribute (Name (u "self")) (u "assertTrue")) [(NoStar, None, (Compare (Call (Name (u "f")) []) [(IsNot, (Name (u "None")))]))])],
    Some [(Call (Attribute (Name (u "self")) (u "assertIsNotNone")) [(NoStar, None, (Call (Name (u "f")) []))])]);
   ([(Call (Attribute (Name (u "self")) (u "assertTrue")) [(NoStar, None, (Not (Compare (Name (u "x")) [(IsNot, (Name (u "None")))])))])],
    Some [(Call (Attribute (Name (u "self")) (u "assertIsNone")) [(NoStar, None, (Name (u "x")))])]);
   ([(Call (Attribute (Name (u "self")) (u "assertTrue")) [(NoStar, None, (Compare (Call (Name (u "f")) [(NoStar, None, (Name (u "x")))]) [(IsNot, (Name (u "None")))]))])],
    Some [(Call (Attribute (Name (u "self")) (u "assertIsNotNone")) [(NoStar, None, (Call (Name (u "f")) [(NoStar, None, (Name (u "x")))]))])]);
   ([(Call (Attribute (Name (u "self")) (u "assertTrue")) [(NoStar, None, (Compare (Name (u "x")) [(Is, (Name (u "None")))]))])],
    Some [(Call (Attribute (Name (u "self")) (u "assertIsNone")) [(NoStar, None, (Name (u "x")))])]);
   ([(Call (Attribute (Name (u "self")) (u "assertFalse")) [(NoStar, None, (Compare (Name (u "x")) [(IsNot, (Name (u "None")))]))])],
    Some [(Call (Attribute (Name (u "self")) (u "assertIsNone")) [(NoStar, None, (Name (u "x")))])]);
   ([(Call (Attribute (Name (u "self")) (u "assertFalse")) [(NoStar, None, (Not (Compare (Name (u "x")) [(Is, (Name (u "None")))])))])],
    Some [(Call (Attribute (Name (u "self")) (u "assertIsNone")) [(NoStar, None, (Name (u "x")))])]);
   ([(Call (Attribute (Name (u "self")) (u "assertFalse")) [(NoStar, None, (Compare (Call (Name (u "f")) []) [(IsNot, (Name (u "None")))]))])],
    Some [(Call (Attribute (Name (u "self")) (u "assertIsNone")) [(NoStar, None, (Call (Name (u "f")) []))])]);
   ([(Call (Attribute (Name (u "self")) (u "assertFalse")) [(NoStar, None, (Not (Compare (Name (u "x")) [(IsNot, (Name (u "None")))])))])],
    Some [(Call (Attribute (Name (u "self")) (u "assertIsNotNone")) [(NoStar, None, (Name (u "x")))])]);
   ([(Call (Attribute (Name (u "self")) (u "assertFalse")) [(NoStar, None, (Compare (Call (Name (u "f")) [(NoStar, None, (Name (u "x")))]) [(IsNot, (Name (u "None")))]))])],
    Some [(Call (Attribute (Name (u "self")) (u "assertIsNone")) [(NoStar, None, (Call (Name (u "f")) [(NoStar, None, (Name (u "x")))]))])]);
   ([(Call (Attribute (Name (u "self")) (u "assertFalse")) [(NoStar, None, (Compare (Name (u "x")) [(Is, (Name (u "None")))]))])],
    Some [(Call (Attribute (Name (u "self")) (u "assertIsNotNone")) [(NoStar, None, (Name (u "x")))])])].

Example UseAssertIsNotNone_conforms : wrong (valid (assert_none)) UseAssertIsNotNone_VALID = [] /\ wrong (invalid (assert_none)) UseAssertIsNotNone_INVALID = [].
Proof. vm_compute. split; reflexivity. Qed.

(** /repo/src/fixit/rules/no_assert_true_for_comparison.py NoAssertTrueForComparison *)
Definition NoAssertTrueForComparison_VALID : list (list expr) :=
  [].

Definition NoAssertTrueForComparison_INVALID : list (list expr * option (list expr)) :=
  [].

Example NoAssertTrueForComparison_conforms : wrong (valid (assert_true_comparison)) NoAssertTrueForComparison_VALID = [] /\ wrong (invalid (assert_true_comparison)) NoAssertTrueForComparison_INVALID = [].
Proof. vm_compute. split; reflexivity. Qed.

(** /repo/src/fixit/rules/deprecated_unittest_asserts.py DeprecatedUnittestAsserts *)
Definition DeprecatedUnittestAsserts_VALID : list (list expr) :=
  [[(Call (Attribute (Name (u "self")) (u "assertEqual")) [(NoStar, None, (Name (u "a"))); (NoStar, None, (Name (u "b")))])];
   [(Call (Attribute (Name (u "self")) (u "assertNotEqual")) [(NoStar, None, (Name (u "a"))); (NoStar, None, (Name (u "b")))])];
   [(Call (Attribute (Name (u "self")) (u "assertAlmostEqual")) [(NoStar, None, (Name (u "a"))); (NoStar, None, (Name (u "b")))])];
   [(Call (Attribute (Name (u "self")) (u "assertNotAlmostEqual")) [(NoStar, None, (Name (u "a"))); (NoStar, None, (Name (u "b")))])];
   [(Call (Attribute (Name (u "self")) (u "assertRegex")) [(NoStar, None, (Name (u "text"))); (NoStar, None, (Name (u "regex")))])];
   [(Call (Attribute (Name (u "self")) (u "assertNotRegex")) [(NoStar, None, (Name (u "text"))); (NoStar, None, (Name (u "regex")))])];
   [(Call (Attribute (Name (u "self")) (u "assertRaisesRegex")) [(NoStar, None, (Name (u "exception"))); (NoStar, None, (Name (u "regex")))])];
   [(Call (Attribute (Name (u "obj")) (u "assertEquals")) [(NoStar, None, (Name (u "a"))); (NoStar, None, (Name (u "b")))])];
   [(Call (Attribute (Name (u "obj")) (u "assertNotEquals")) [(NoStar, None, (Name (u "a"))); (NoStar, None, (Name (u "b")))])]].

Definition DeprecatedUnittestAsserts_INVALID : list (list expr * option (list expr)) :=
  [([(Call (Attribute (Name (u "self")) (u "assertEquals")) [(NoStar, None, (Name (u "a"))); (NoStar, None, (Name (u "b")))])],
    Some [(Call (Attribute (Name (u "self")) (u "assertEqual")) [(NoStar, None, (Name (u "a"))); (NoStar, None, (Name (u "b")))])]);
   ([(Call (Attribute (Name (u "self")) (u "assertNotEquals")) [(NoStar, None, (Name (u "a"))); (NoStar, None, (Name (u "b")))])],
    Some [(Call (Attribute (Name (u "self")) (u "assertNotEqual")) [(NoStar, None, (Name (u "a"))); (NoStar, None, (Name (u "b")))])]);
   ([(Call (Attribute (Name (u "self")) (u "assertAlmostEquals")) [(NoStar, None, (Name (u "a"))); (NoStar, None, (Name (u "b")))])],
    Some [(Call (Attribute (Name (u "self")) (u "assertAlmostEqual")) [(NoStar, None, (Name (u "a"))); (NoStar, None, (Name (u "b")))])]);
   ([(Call (Attribute (Name (u "self")) (u "assertNotAlmostEquals")) [(NoStar, None, (Name (u "a"))); (NoStar, None, (Name (u "b")))])],
    Some [(Call (Attribute (Name (u "self")) (u "assertNotAlmostEqual")) [(NoStar, None, (Name (u "a"))); (NoStar, None, (Name (u "b")))])]);
   ([(Call (Attribute (Name (u "self")) (u "assertRegexpMatches")) [(NoStar, None, (Name (u "text"))); (NoStar, None, (Name (u "regex")))])],
    Some [(Call (Attribute (Name (u "self")) (u "assertRegex")) [(NoStar, None, (Name (u "text"))); (NoStar, None, (Name (u "regex")))])]);
   ([(Call (Attribute (Name (u "self")) (u "assertNotRegexpMatches")) [(NoStar, None, (Name (u "text"))); (NoStar, None, (Name (u "regex")))])],
    Some [(Call (Attribute (Name (u "self")) (u "assertNotRegex")) [(NoStar, None, (Name (u "text"))); (NoStar, None, (Name (u "regex")))])]);
   ([(Call (Attribute (Name (u "self")) (u "assertRaisesRegexp")) [(NoStar, None, (Name (u "exception"))); (NoStar, None, (Name (u "regex")))])],
    Some [(Call (Attribute (Name (u "self")) (u "assertRaisesRegex")) [(NoStar, None, (Name (u "exception"))); (NoStar, None, (Name (u "regex")))])])].

Example DeprecatedUnittestAsserts_conforms : wrong (valid (deprecated_assert)) DeprecatedUnittestAsserts_VALID = [] /\ wrong (invalid (deprecated_assert)) DeprecatedUnittestAsserts_INVALID = [].
Proof. vm_compute. split; reflexivity. Qed.

(** /repo/src/fixit/rules/rewrite_to_literal.py RewriteToLiteral *)
Definition RewriteToLiteral_VALID : list (list expr) :=
  [[(Tuple [(false, (Number (u "1"))); (false, (Number (u "2")))])];
   [(Tuple [])];
   [(List [(false, (Number (u "1"))); (false, (Number (u "2")))])];
   [(List [])];
   [(Set_ [(false, (Number (u "1"))); (false, (Number (u "2")))])];
   [(Call (Name (u "set")) [])];
   [(Dict [((Number (u "1")), (Number (u "2"))); ((Number (u "3")), (Number (u "4")))])];
   [(Dict [])]].

Definition RewriteToLiteral_INVALID : list (list expr * option (list expr)) :=
  [([(Call (Name (u "tuple")) [(NoStar, None, (List [(false, (Number (u "1"))); (false, (Number (u "2")))]))])],
    Some [(Tuple [(false, (Number (u "1"))); (false, (Number (u "2")))])]);
   ([(Call (Name (u "tuple")) [(NoStar, None, (Tuple [(false, (Number (u "1"))); (false, (Number (u "2")))]))])],
    Some [(Tuple [(false, (Number (u "1"))); (false, (Number (u "2")))])]);
   ([(Call (Name (u "tuple")) [(NoStar, None, (List []))])],
    Some [(Tuple [])]);
   ([(Call (Name (u "list")) [(NoStar, None, (List [(false, (Number (u "1"))); (false, (Number (u "2"))); (false, (Number (u "3")))]))])],
    Some [(List [(false, (Number (u "1"))); (false, (Number (u "2"))); (false, (Number (u "3")))])]);
   ([(Call (Name (u "list")) [(NoStar, None, (Tuple [(false, (Number (u "1"))); (false, (Number (u "2"))); (false, (Number (u "3")))]))])],
    Some [(List [(false, (Number (u "1"))); (false, (Number (u "2"))); (false, (Number (u "3")))])]);
   ([(Call (Name (u "list")) [(NoStar, None, (List []))])],
    Some [(List [])]);
   ([(Call (Name (u "set")) [(NoStar, None, (List [(false, (Number (u "1"))); (false, (Number (u "2"))); (false, (Number (u "3")))]))])],
    Some [(Set_ [(false, (Number (u "1"))); (false, (Number (u "2"))); (false, (Number (u "3")))])]);
   ([(Call (Name (u "set")) [(NoStar, None, (Tuple [(false, (Number (u "1"))); (false, (Number (u "2"))); (false, (Number (u "3")))]))])],
    Some [(Set_ [(false, (Number (u "1"))); (false, (Number (u "2"))); (false, (Number (u "3")))])]);
   ([(Call (Name (u "set")) [(NoStar, None, (List []))])],
    Some [(Call (Name (u "set")) [])]);
   ([(Call (Name (u "dict")) [(NoStar, None, (List [(false, (Tuple [(false, (Number (u "1"))); (false, (Number (u "2")))])); (false, (Tuple [(false, (Number (u "3"))); (false, (Number (u "4")))]))]))])],
    Some [(Dict [((Number (u "1")), (Number (u "2"))); ((Number (u "3")), (Number (u "4")))])]);
   ([(Call (Name (u "dict")) [(NoStar, None, (Tuple [(false, (Tuple [(false, (Number (u "1"))); (false, (Number (u "2")))])); (false, (Tuple [(false, (Number (u "3"))); (false, (Number (u "4")))]))]))])],
    Some [(Dict [((Number (u "1")), (Number (u "2"))); ((Number (u "3")), (Number (u "4")))])]);
   ([(Call (Name (u "dict")) [(NoStar, None, (List [(false, (List [(false, (Number (u "1"))); (false, (Number (u "2")))])); (false, (List [(false, (Number (u "3"))); (false, (Number (u "4")))])); (false, (List [(false, (Number (u "5"))); (false, (Number (u "6")))]))]))])],
    Some [(Dict [((Number (u "1")), (Number (u "2"))); ((Number (u "3")), (Number (u "4"))); ((Number (u "5")), (Number (u "6")))])]);
   ([(Call (Name (u "dict")) [(NoStar, None, (List []))])],
    Some [(Dict [])]);
   ([(Call (Name (u "tuple")) [])],
    Some [(Tuple [])]);
   ([(Call (Name (u "list")) [])],
    Some [(List [])]);
   ([(Call (Name (u "dict")) [])],
    Some [(Dict [])])].

Example RewriteToLiteral_conforms : wrong (valid (to_literal)) RewriteToLiteral_VALID = [] /\ wrong (invalid (to_literal)) RewriteToLiteral_INVALID = [].
Proof. vm_compute. split; reflexivity. Qed.

(** /repo/src/fixit/rules/rewrite_to_comprehension.py RewriteToComprehension *)
Definition RewriteToComprehension_VALID : list (list expr) :=
  [[(ListComp (Name (u "val")) [((Name (u "val")), (Name (u "iterable")), [])])];
   [(SetComp (Name (u "val")) [((Name (u "val")), (Name (u "iterable")), [])])];
   [(DictComp (Name (u "val")) (Other 1 [(Name (u "val")); (Number (u "1"))]) [((Name (u "val")), (Name (u "iterable")), [])])];
   [(Call (Name (u "dict")) [(NoStar, None, (GeneratorExp (Call (Attribute (Call (Attribute (Name (u "line")) (u "strip")) []) (u "split")) [(NoStar, None, (SimpleString []%N (u "'") (u "="))); (NoStar, None, (Number (u "1")))]) [((Name (u "line")), (Name (u "attr_file")), [])]))])]].

Definition RewriteToComprehension_INVALID : list (list expr * option (list expr)) :=
  [([(Call (Name (u "list")) [(NoStar, None, (GeneratorExp (Name (u "val")) [((Name (u "val")), (Name (u "iterable")), [])]))])],
    Some [(ListComp (Name (u "val")) [((Name (u "val")), (Name (u "iterable")), [])])]);
   ([(Call (Name (u "list")) [(NoStar, None, (GeneratorExp (Name (u "val")) [((Name (u "row")), (Name (u "matrix")), []); ((Name (u "val")), (Name (u "row")), [])]))])],
    Some [(ListComp (Name (u "val")) [((Name (u "row")), (Name (u "matrix")), []); ((Name (u "val")), (Name (u "row")), [])])]);
   ([(Call (Name (u "set")) [(NoStar, None, (GeneratorExp (Name (u "val")) [((Name (u "val")), (Name (u "iterable")), [])]))])],
    Some [(SetComp (Name (u "val")) [((Name (u "val")), (Name (u "iterable")), [])])]);
   ([(Call (Name (u "dict")) [(NoStar, None, (GeneratorExp (Tuple [(false, (Name (u "x"))); (false, (Call (Name (u "f")) [(NoStar, None, (Name (u "x")))]))]) [((Name (u "val")), (Name (u "iterable")), [])]))])],
    Some [(DictComp (Name (u "x")) (Call (Name (u "f")) [(NoStar, None, (Name (u "x")))]) [((Name (u "val")), (Name (u "iterable")), [])])]);
   ([(Call (Name (u "dict")) [(NoStar, None, (GeneratorExp (Tuple [(false, (Name (u "x"))); (false, (Name (u "y")))]) [((Tuple [(false, (Name (u "y"))); (false, (Name (u "x")))]), (Name (u "iterable")), [])]))])],
    Some [(DictComp (Name (u "x")) (Name (u "y")) [((Tuple [(false, (Name (u "y"))); (false, (Name (u "x")))]), (Name (u "iterable")), [])])]);
   ([(Call (Name (u "dict")) [(NoStar, None, (GeneratorExp (List [(false, (Name (u "val"))); (false, (Other 1 [(Name (u "val")); (Number (u "1"))]))]) [((Name (u "val")), (Name (u "iterable")), [])]))])],
    Some [(DictComp (Name (u "val")) (Other 1 [(Name (u "val")); (Number (u "1"))]) [((Name (u "val")), (Name (u "iterable")), [])])]);
   ([(Call (Name (u "dict")) [(NoStar, None, (GeneratorExp (Tuple [(false, (Subscript (Name (u "x")) [(SimpleString []%N (u """") (u "name"))])); (false, (Call (Attribute (Name (u "json")) (u "loads")) [(NoStar, None, (Subscript (Name (u "x")) [(SimpleString []%N (u """") (u "data"))]))]))]) [((Name (u "x")), (Name (u "responses")), [])]))])],
    Some [(DictComp (Subscript (Name (u "x")) [(SimpleString []%N (u """") (u "name"))]) (Call (Attribute (Name (u "json")) (u "loads")) [(NoStar, None, (Subscript (Name (u "x")) [(SimpleString []%N (u """") (u "data"))]))]) [((Name (u "x")), (Name (u "responses")), [])])]);
   ([(Call (Name (u "dict")) [(NoStar, None, (GeneratorExp (Tuple [(false, (Name (u "k"))); (false, (Name (u "v")))]) [((Tuple [(false, (Name (u "k"))); (false, (Name (u "v")))]), (Name (u "iter")), []); ((Name (u "iter")), (Name (u "iters")), [])]))])],
    Some [(DictComp (Name (u "k")) (Name (u "v")) [((Tuple [(false, (Name (u "k"))); (false, (Name (u "v")))]), (Name (u "iter")), []); ((Name (u "iter")), (Name (u "iters")), [])])]);
   ([(Call (Name (u "set")) [(NoStar, None, (ListComp (Name (u "val")) [((Name (u "val")), (Name (u "iterable")), [])]))])],
    Some [(SetComp (Name (u "val")) [((Name (u "val")), (Name (u "iterable")), [])])]);
   ([(Call (Name (u "dict")) [(NoStar, None, (ListComp (List [(false, (Name (u "val"))); (false, (Other 1 [(Name (u "val")); (Number (u "1"))]))]) [((Name (u "val")), (Name (u "iterable")), [])]))])],
    Some [(DictComp (Name (u "val")) (Other 1 [(Name (u "val")); (Number (u "1"))]) [((Name (u "val")), (Name (u "iterable")), [])])]);
   ([(Call (Name (u "dict")) [(NoStar, None, (ListComp (Tuple [(false, (Name (u "x"))); (false, (Call (Name (u "f")) [(NoStar, None, (Name (u "x")))]))]) [((Name (u "x")), (Name (u "foo")), [])]))])],
    Some [(DictComp (Name (u "x")) (Call (Name (u "f")) [(NoStar, None, (Name (u "x")))]) [((Name (u "x")), (Name (u "foo")), [])])]);
   ([(Call (Name (u "dict")) [(NoStar, None, (ListComp (Tuple [(false, (Name (u "x"))); (false, (Name (u "y")))]) [((Tuple [(false, (Name (u "y"))); (false, (Name (u "x")))]), (Name (u "iterable")), [])]))])],
    Some [(DictComp (Name (u "x")) (Name (u "y")) [((Tuple [(false, (Name (u "y"))); (false, (Name (u "x")))]), (Name (u "iterable")), [])])]);
   ([(Call (Name (u "set")) [(NoStar, None, (ListComp (Name (u "val")) [((Name (u "row")), (Name (u "matrix")), []); ((Name (u "val")), (Name (u "row")), [])]))])],
    Some [(SetComp (Name (u "val")) [((Name (u "row")), (Name (u "matrix")), []); ((Name (u "val")), (Name (u "row")), [])])])].

Example RewriteToComprehension_conforms : wrong (valid (ok to_comprehension)) RewriteToComprehension_VALID = [] /\ wrong (invalid (ok to_comprehension)) RewriteToComprehension_INVALID = [].
Proof. vm_compute. split; reflexivity. Qed.

(** /repo/src/fixit/rules/no_redundant_list_comprehension.py NoRedundantListComprehension *)
Definition NoRedundantListComprehension_VALID : list (list expr) :=
  [[(Call (Name (u "any")) [(NoStar, None, (GeneratorExp (Name (u "val")) [((Name (u "val")), (Name (u "iterable")), [])]))])];
   [(Call (Name (u "all")) [(NoStar, None, (GeneratorExp (Name (u "val")) [((Name (u "val")), (Name (u "iterable")), [])]))])];
   [(Call (Name (u "frozenset")) [(NoStar, None, (ListComp (Name (u "val")) [((Name (u "val")), (Name (u "iterable")), [])]))])];
   [(Call (Name (u "max")) [(NoStar, None, (ListComp (Name (u "val")) [((Name (u "val")), (Name (u "iterable")), [])]))])];
   [(Call (Name (u "min")) [(NoStar, None, (ListComp (Name (u "val")) [((Name (u "val")), (Name (u "iterable")), [])]))])];
   [(Call (Name (u "sorted")) [(NoStar, None, (ListComp (Name (u "val")) [((Name (u "val")), (Name (u "iterable")), [])]))])];
   [(Call (Name (u "sum")) [(NoStar, None, (ListComp (Name (u "val")) [((Name (u "val")), (Name (u "iterable")), [])]))])];
   [(Call (Name (u "tuple")) [(NoStar, None, (ListComp (Name (u "val")) [((Name (u "val")), (Name (u "iterable")), [])]))])]].

Definition NoRedundantListComprehension_INVALID : list (list expr * option (list expr)) :=
  [([(Call (Name (u "any")) [(NoStar, None, (ListComp (Name (u "val")) [((Name (u "val")), (Name (u "iterable")), [])]))])],
    Some [(Call (Name (u "any")) [(NoStar, None, (GeneratorExp (Name (u "val")) [((Name (u "val")), (Name (u "iterable")), [])]))])]);
   ([(Call (Name (u "all")) [(NoStar, None, (ListComp (Name (u "val")) [((Name (u "val")), (Name (u "iterable")), [])]))])],
    Some [(Call (Name (u "all")) [(NoStar, None, (GeneratorExp (Name (u "val")) [((Name (u "val")), (Name (u "iterable")), [])]))])])].

Example NoRedundantListComprehension_conforms : wrong (valid (list_comprehension)) NoRedundantListComprehension_VALID = [] /\ wrong (invalid (list_comprehension)) NoRedundantListComprehension_INVALID = [].
Proof. vm_compute. split; reflexivity. Qed.

(** /repo/src/fixit/rules/no_redundant_lambda.py NoRedundantLambda *)
Definition NoRedundantLambda_VALID : list (list expr) :=
  [[(Lambda [(u "x")] true (Call (Name (u "foo")) [(NoStar, None, (Name (u "y")))]))];
   [(Lambda [(u "x")] true (Call (Name (u "foo")) [(NoStar, None, (Name (u "x"))); (NoStar, None, (Name (u "y")))]))];
   [(Lambda [(u "x"); (u "y")] true (Call (Name (u "foo")) [(NoStar, None, (Name (u "x")))]))];
   [(Lambda [(u "x")] false (Call (Name (u "foo")) [(NoStar, None, (Name (u "x")))]))];
   [(Lambda [(u "x")] false (Call (Name (u "foo")) [(NoStar, None, (Name (u "x")))]))];
   [(Lambda [(u "x"); (u "y")] true (Call (Name (u "foo")) [(NoStar, None, (Name (u "y"))); (NoStar, None, (Name (u "x")))]))];
   [(Lambda [(u "self")] true (Call (Attribute (Name (u "self")) (u "func")) []))];
   [(Lambda [(u "x"); (u "y")] true (Call (Name (u "foo")) [(NoStar, Some (u "y"), (Name (u "x"))); (NoStar, Some (u "x"), (Name (u "y")))]))];
   [(Lambda [(u "x"); (u "y"); (u "z")] false (Call (Name (u "foo")) [(NoStar, None, (Name (u "x"))); (NoStar, None, (Name (u "y"))); (NoStar, None, (Name (u "z")))]))];
   [(Lambda [(u "x"); (u "y"); (u "z")] false (Call (Name (u "foo")) [(NoStar, None, (Name (u "x"))); (NoStar, None, (Name (u "y"))); (NoStar, None, (Name (u "z")))]))]].

Definition NoRedundantLambda_INVALID : list (list expr * option (list expr)) :=
  [([(Lambda [] true (Call (Attribute (Name (u "self")) (u "func")) []))],
    Some [(Attribute (Name (u "self")) (u "func"))]);
   ([(Lambda [(u "x")] true (Call (Name (u "foo")) [(NoStar, None, (Name (u "x")))]))],
    Some [(Name (u "foo"))]);
   ([(Lambda [(u "x"); (u "y"); (u "z")] true (Call (Attribute (Other 1 [(Name (u "t")); (Name (u "u"))]) (u "math_call")) [(NoStar, None, (Name (u "x"))); (NoStar, None, (Name (u "y"))); (NoStar, None, (Name (u "z")))]))],
    Some [(Attribute (Other 1 [(Name (u "t")); (Name (u "u"))]) (u "math_call"))])].

Example NoRedundantLambda_conforms : wrong (valid (redundant_lambda)) NoRedundantLambda_VALID = [] /\ wrong (invalid (redundant_lambda)) NoRedundantLambda_INVALID = [].
Proof. vm_compute. split; reflexivity. Qed.

(** /repo/src/fixit/rules/no_redundant_fstring.py NoRedundantFString *)
Definition NoRedundantFString_VALID : list (list expr) :=
  [[(Name (u "good")); (Name (u "str")); (SimpleString []%N (u """") (u "good"))];
   [(Name (u "good")); (Name (u "str")); (FString (u "f") (u """") [inl (u "with_arg"); inr (Name (u "arg"))])];
   [(Name (u "good")); (Call (Attribute (SimpleString []%N (u """") (u "good{arg1}")) (u "format")) [(NoStar, None, (Number (u "1234")))])];
   [(Name (u "good")); (Call (Attribute (SimpleString []%N (u """") (u "good")) (u "format")) [])];
   [(Name (u "good")); (Modulo (SimpleString []%N (u """") (u "good")) (Dict []))];
   [(Name (u "good")); (Modulo (SimpleString []%N (u """") (u "good")) (Tuple []))];
   [(Name (u "good")); (FString (u "rf") (u """") [inl [103;111;111;100;9;43]%N; inr (Name (u "bar"))])]].

Definition NoRedundantFString_INVALID : list (list expr * option (list expr)) :=
  [([(Name (u "bad")); (Name (u "str")); (Other 1 [(FString (u "f") (u """") [inl (u "bad")]); (SimpleString []%N (u """") (u "bad"))])],
    Some [(Name (u "bad")); (Name (u "str")); (Other 1 [(SimpleString []%N (u """") (u "bad")); (SimpleString []%N (u """") (u "bad"))])]);
   ([(Name (u "bad")); (Name (u "str")); (FString (u "f") (u "'") [inl (u "bad")])],
    Some [(Name (u "bad")); (Name (u "str")); (SimpleString []%N (u "'") (u "bad"))]);
   ([(Name (u "bad")); (Name (u "str")); (FString (u "rf") (u "'") [inl [98;97;100;9;43]%N])],
    Some [(Name (u "bad")); (Name (u "str")); (SimpleString (u "r") (u "'") [98;97;100;9;43]%N)]);
   ([(Name (u "bad")); (Name (u "str")); (FString (u "f") (u """") [inl (u "no args but messing up {{ braces }}")])],
    Some [(Name (u "bad")); (Name (u "str")); (SimpleString []%N (u """") (u "no args but messing up { braces }"))])].

Example NoRedundantFString_conforms : wrong (valid (redundant_fstring)) NoRedundantFString_VALID = [] /\ wrong (invalid (redundant_fstring)) NoRedundantFString_INVALID = [].
Proof. vm_compute. split; reflexivity. Qed.

Definition UseFstring_lengths : list (str * nat) := [(show (Name (u "somebody")), 8%nat); (show (SimpleString []%N (u "'") (u "you")), 5%nat); (show (FString (u "f") (u """") [inl (u "Hey, "); inr (Name (u "somebody")); inl (u ".")]), 19%nat); (show (SimpleString []%N (u """") (u "hey")), 5%nat); (show (SimpleString []%N (u """") (u "there")), 7%nat); (show (Other 1 [(SimpleString []%N (u """") (u "hey")); (SimpleString []%N (u """") (u "there"))]), 15%nat); (show (SimpleString (u "b") (u """") (u "a type %s")), 12%nat); (show (Name (u "var")), 3%nat); (show (Modulo (SimpleString (u "b") (u """") (u "a type %s")) (Name (u "var"))), 18%nat); (show (SimpleString []%N (u """") (u "Hey, {somebody}.")), 18%nat); (show (Attribute (SimpleString []%N (u """") (u "Hey, {somebody}.")) (u "format")), 25%nat); (show (SimpleString []%N (u """") (u "you")), 5%nat); (show (Call (Attribute (SimpleString []%N (u """") (u "Hey, {somebody}.")) (u "format")) [(NoStar, Some (u "somebody"), (SimpleString []%N (u """") (u "you")))]), 41%nat); (show (SimpleString []%N (u """") (u "%s")), 4%nat); (show (SimpleString []%N (u """") (u "hi")), 4%nat); (show (Modulo (SimpleString []%N (u """") (u "%s")) (SimpleString []%N (u """") (u "hi"))), 11%nat); (show (SimpleString []%N (u """") (u "a name: %s")), 12%nat); (show (Name (u "name")), 4%nat); (show (Modulo (SimpleString []%N (u """") (u "a name: %s")) (Name (u "name"))), 19%nat); (show (SimpleString []%N (u """") (u "an attribute %s .")), 19%nat); (show (Name (u "obj")), 3%nat); (show (Attribute (Name (u "obj")) (u "attr")), 8%nat); (show (Modulo (SimpleString []%N (u """") (u "an attribute %s .")) (Attribute (Name (u "obj")) (u "attr"))), 30%nat); (show (SimpleString (u "r") (u """") (u "raw string value=%s")), 22%nat); (show (Name (u "val")), 3%nat); (show (Modulo (SimpleString (u "r") (u """") (u "raw string value=%s")) (Name (u "val"))), 28%nat); (show (SimpleString []%N (u """") (u "{%s}")), 6%nat); (show (Modulo (SimpleString []%N (u """") (u "{%s}")) (Name (u "val"))), 12%nat); (show (SimpleString []%N (u """") (u "{%s")), 5%nat); (show (Modulo (SimpleString []%N (u """") (u "{%s")) (Name (u "val"))), 11%nat); (show (SimpleString []%N (u """") (u "The type of var: %s")), 21%nat); (show (Name (u "type")), 4%nat); (show (Call (Name (u "type")) [(NoStar, None, (Name (u "var")))]), 9%nat); (show (Modulo (SimpleString []%N (u """") (u "The type of var: %s")) (Call (Name (u "type")) [(NoStar, None, (Name (u "var")))])), 33%nat); (show (Attribute (Name (u "obj")) (u "this_is_a_very_long_expression")), 34%nat); (show (Name (u "parameter")), 9%nat); (show (Call (Attribute (Name (u "obj")) (u "this_is_a_very_long_expression")) [(NoStar, None, (Name (u "parameter")))]), 45%nat); (show (SimpleString []%N (u """") (u "a_very_long_key")), 17%nat); (show (Subscript (Call (Attribute (Name (u "obj")) (u "this_is_a_very_long_expression")) [(NoStar, None, (Name (u "parameter")))]) [(SimpleString []%N (u """") (u "a_very_long_key"))]), 64%nat); (show (Modulo (SimpleString []%N (u """") (u "%s")) (Subscript (Call (Attribute (Name (u "obj")) (u "this_is_a_very_long_expression")) [(NoStar, None, (Name (u "parameter")))]) [(SimpleString []%N (u """") (u "a_very_long_key"))])), 71%nat); (show (SimpleString []%N (u """") (u "type of var: %s, value of var: %s")), 35%nat); (show (Tuple [(false, (Call (Name (u "type")) [(NoStar, None, (Name (u "var")))])); (false, (Name (u "var")))]), 16%nat); (show (Modulo (SimpleString []%N (u """") (u "type of var: %s, value of var: %s")) (Tuple [(false, (Call (Name (u "type")) [(NoStar, None, (Name (u "var")))])); (false, (Name (u "var")))])), 54%nat); (show (SimpleString []%N (u "'") (u "%s"" double quote is used")), 26%nat); (show (Modulo (SimpleString []%N (u "'") (u "%s"" double quote is used")) (Name (u "var"))), 32%nat); (show (SimpleString []%N (u """") (u "var1: %s, var2: %s, var3: %s, var4: %s")), 40%nat); (show (Name (u "class_object")), 12%nat); (show (Attribute (Name (u "class_object")) (u "attribute")), 22%nat); (show (Name (u "dict_lookup")), 11%nat); (show (SimpleString []%N (u """") (u "some_key")), 10%nat); (show (Subscript (Name (u "dict_lookup")) [(SimpleString []%N (u """") (u "some_key"))]), 23%nat); (show (Name (u "some_module")), 11%nat); (show (Attribute (Name (u "some_module")) (u "some_function")), 25%nat); (show (Call (Attribute (Name (u "some_module")) (u "some_function")) []), 27%nat); (show (Name (u "var4")), 4%nat); (show (Tuple [(false, (Attribute (Name (u "class_object")) (u "attribute"))); (false, (Subscript (Name (u "dict_lookup")) [(SimpleString []%N (u """") (u "some_key"))])); (false, (Call (Attribute (Name (u "some_module")) (u "some_function")) [])); (false, (Name (u "var4")))]), 84%nat); (show (Modulo (SimpleString []%N (u """") (u "var1: %s, var2: %s, var3: %s, var4: %s")) (Tuple [(false, (Attribute (Name (u "class_object")) (u "attribute"))); (false, (Subscript (Name (u "dict_lookup")) [(SimpleString []%N (u """") (u "some_key"))])); (false, (Call (Attribute (Name (u "some_module")) (u "some_function")) [])); (false, (Name (u "var4")))])), 127%nat); (show (SimpleString []%N (u """") (u "a list: %s")), 12%nat); (show (SimpleString []%N (u """") (u " ")), 3%nat); (show (Attribute (SimpleString []%N (u """") (u " ")) (u "join")), 8%nat); (show (Call (Attribute (SimpleString []%N (u """") (u " ")) (u "join")) [(NoStar, None, (Name (u "var")))]), 13%nat); (show (Modulo (SimpleString []%N (u """") (u "a list: %s")) (Call (Attribute (SimpleString []%N (u """") (u " ")) (u "join")) [(NoStar, None, (Name (u "var")))])), 28%nat)].

(** /repo/src/fixit/rules/use_fstring.py UseFstring *)
Definition UseFstring_VALID : list (list expr) :=
  [[(Name (u "somebody")); (SimpleString []%N (u "'") (u "you")); (FString (u "f") (u """") [inl (u "Hey, "); inr (Name (u "somebody")); inl (u ".")])];
   [(SimpleString []%N (u """") (u "hey"))];
   [(Other 1 [(SimpleString []%N (u """") (u "hey")); (SimpleString []%N (u """") (u "there"))])];
   [(Modulo (SimpleString (u "b") (u """") (u "a type %s")) (Name (u "var")))]].

Definition UseFstring_INVALID : list (list expr * option (list expr)) :=
  [([(Call (Attribute (SimpleString []%N (u """") (u "Hey, {somebody}.")) (u "format")) [(NoStar, Some (u "somebody"), (SimpleString []%N (u """") (u "you")))])],
    None);
   ([(Modulo (SimpleString []%N (u """") (u "%s")) (SimpleString []%N (u """") (u "hi")))],
    Some [(FString (u "f") (u """") [inr (SimpleString []%N (u "'") (u "hi"))])]);
   ([(Modulo (SimpleString []%N (u """") (u "a name: %s")) (Name (u "name")))],
    Some [(FString (u "f") (u """") [inl (u "a name: "); inr (Name (u "name"))])]);
   ([(Modulo (SimpleString []%N (u """") (u "an attribute %s .")) (Attribute (Name (u "obj")) (u "attr")))],
    Some [(FString (u "f") (u """") [inl (u "an attribute "); inr (Attribute (Name (u "obj")) (u "attr")); inl (u " .")])]);
   ([(Modulo (SimpleString (u "r") (u """") (u "raw string value=%s")) (Name (u "val")))],
    Some [(FString (u "fr") (u """") [inl (u "raw string value="); inr (Name (u "val"))])]);
   ([(Modulo (SimpleString []%N (u """") (u "{%s}")) (Name (u "val")))],
    Some [(FString (u "f") (u """") [inl (u "{{"); inr (Name (u "val")); inl (u "}}")])]);
   ([(Modulo (SimpleString []%N (u """") (u "{%s")) (Name (u "val")))],
    Some [(FString (u "f") (u """") [inl (u "{{"); inr (Name (u "val"))])]);
   ([(Modulo (SimpleString []%N (u """") (u "The type of var: %s")) (Call (Name (u "type")) [(NoStar, None, (Name (u "var")))]))],
    Some [(FString (u "f") (u """") [inl (u "The type of var: "); inr (Call (Name (u "type")) [(NoStar, None, (Name (u "var")))])])]);
   ([(Modulo (SimpleString []%N (u """") (u "%s")) (Subscript (Call (Attribute (Name (u "obj")) (u "this_is_a_very_long_expression")) [(NoStar, None, (Name (u "parameter")))]) [(SimpleString []%N (u """") (u "a_very_long_key"))]))],
    None);
   ([(Modulo (SimpleString []%N (u """") (u "type of var: %s, value of var: %s")) (Tuple [(false, (Call (Name (u "type")) [(NoStar, None, (Name (u "var")))])); (false, (Name (u "var")))]))],
    Some [(FString (u "f") (u """") [inl (u "type of var: "); inr (Call (Name (u "type")) [(NoStar, None, (Name (u "var")))]); inl (u ", value of var: "); inr (Name (u "var"))])]);
   ([(Modulo (SimpleString []%N (u "'") (u "%s"" double quote is used")) (Name (u "var")))],
    Some [(FString (u "f") (u "'") [inr (Name (u "var")); inl (u """ double quote is used")])]);
   ([(Modulo (SimpleString []%N (u """") (u "var1: %s, var2: %s, var3: %s, var4: %s")) (Tuple [(false, (Attribute (Name (u "class_object")) (u "attribute"))); (false, (Subscript (Name (u "dict_lookup")) [(SimpleString []%N (u """") (u "some_key"))])); (false, (Call (Attribute (Name (u "some_module")) (u "some_function")) [])); (false, (Name (u "var4")))]))],
    Some [(FString (u "f") (u """") [inl (u "var1: "); inr (Attribute (Name (u "class_object")) (u "attribute")); inl (u ", var2: "); inr (Subscript (Name (u "dict_lookup")) [(SimpleString []%N (u "'") (u "some_key"))]); inl (u ", var3: "); inr (Call (Attribute (Name (u "some_module")) (u "some_function")) []); inl (u ", var4: "); inr (Name (u "var4"))])]);
   ([(Modulo (SimpleString []%N (u """") (u "a list: %s")) (Call (Attribute (SimpleString []%N (u """") (u " ")) (u "join")) [(NoStar, None, (Name (u "var")))]))],
    Some [(FString (u "f") (u """") [inl (u "a list: "); inr (Call (Attribute (SimpleString []%N (u "'") (u " ")) (u "join")) [(NoStar, None, (Name (u "var")))])])])].

Example UseFstring_conforms : wrong (valid (ok (use_fstring (wide UseFstring_lengths) (fun _ _ _ _ => true)))) UseFstring_VALID = [] /\ wrong (invalid (ok (use_fstring (wide UseFstring_lengths) (fun _ _ _ _ => true)))) UseFstring_INVALID = [].
Proof. vm_compute. split; reflexivity. Qed.
