(** * Conformance2: the cases of the rules about statements

    Written by tools/conformance.py, see Conformance.v. For the rules that keep state while they visit
    the tree: a VALID case gives no report, an INVALID one does, with as many fixes as the expected
    replacement has changes, and none for the expected replacement. The others: the expected
    replacement is what the model says. *)
From Coq Require Import String List NArith ZArith Bool Arith.
From Verif Require Import Base PyStr Py Rules Classes Trees Imports Upgrade Scopes Conformance.
Import ListNotations.
Open Scope N_scope.

Definition among (l : list str) (x : str) : bool := existsb (str_eqb x) l.
Definition notes {S} (v : visitor S) (s : S) (t : node) : list note := snd (traverse v t s).
Definition quiet {S} (v : visitor S) (s : S) (t : node) : bool := match notes v s t with [] => true | _ => false end.
Definition fixes (l : list note) : nat := List.length (filter (fun n => match n_repl n with Some _ => true | None => false end) l).
Definition tree_invalid {S} (v : visitor S) (s : S) (c : node * option (nat * node)) : bool :=
  negb (quiet v s (fst c)) &&
  match snd c with
  | None => true
  | Some (n, after) => Nat.eqb (fixes (notes v s (fst c))) n && quiet v s after
  end.

Definition show_arg (a : arg) : str := show (Call (Name []) [a]).
Definition show_small (s : small) : str :=
  match s with Assign ts e => 1 :: flat_map show ts ++ show e | ExprStmt e => 2 :: show e | OtherSmall n => [3; n] end.
Definition show_line (l : line) : str := match ln_content l with Simple b => 1 :: flat_map show_small b | Compound n => [2; n] end.
Definition show_class (c : class_def) : str :=
  d_name c ++ 0 :: flat_map show_arg (d_bases c) ++ 0 :: flat_map show_arg (d_keywords c) ++ 0 :: flat_map show (d_decorators c) ++
  0 :: match d_body c with Block ls => 1 :: flat_map show_line ls | OneLine ss => 2 :: flat_map show_small ss end.
Definition class_wrong (f : class_def -> option class_def) (c : list class_def * option (list class_def)) : bool :=
  existsb (fun x => match f x with Some _ => true | None => false end) (fst c) &&
  match snd c with
  | None => true
  | Some after => list_eqb str_eqb (map (fun x => show_class (match f x with Some y => y | None => x end)) (fst c)) (map show_class after)
  end.
Definition class_valid (f : class_def -> option class_def) (cs : list class_def) : bool :=
  negb (existsb (fun x => match f x with Some _ => true | None => false end) cs).
Definition ok_class (f : class_def -> res (option class_def)) (c : class_def) : option class_def := match f c with Ok r => r | Err _ => None end.
Definition of_string (e : expr) : option str := match e with SimpleString _ _ raw => Some raw | _ => None end.

Fixpoint show_code (c : code) : str :=
  match c with
  | Ref x => 1 :: x ++ [0]
  | Bind x => 2 :: x ++ [0]
  | BindOther x => 3 :: x ++ [0]
  | Group cs => 4 :: flat_map show_code cs ++ [5]
  | Nested ps nl b => 6 :: flat_map (fun x => x ++ [7]) ps ++ 8 :: flat_map (fun x => x ++ [7]) nl ++ 9 :: show_code b
  end.
Definition show_function (f : function) : str :=
  flat_map (fun x => x ++ [7]) (fn_posonly f) ++ 8 :: flat_map (fun x => x ++ [7]) (fn_params f) ++ 8 :: flat_map (fun x => x ++ [7]) (fn_rest f) ++ 8 :: show_code (fn_body f).
Definition cls_valid (l : list (list (list str) * function)) : bool :=
  negb (existsb (fun x => match use_cls (fst x) (snd x) with Some _ => true | None => false end) l).
Definition cls_invalid (c : list (list (list str) * function) * option (list function)) : bool :=
  negb (cls_valid (fst c)) &&
  match snd c with
  | None => forallb (fun x => match use_cls (fst x) (snd x) with Some (Some _) => false | _ => true end) (fst c)
  | Some after => list_eqb str_eqb (map (fun x => show_function (match use_cls (fst x) (snd x) with Some (Some g) => g | _ => snd x end)) (fst c)) (map show_function after)
  end.

(** the union rule: annotations that are subscripts, whether Optional is known *)
Definition show_element (e : element) : str := match e with Index e => show e | Slice n => [0; n] end.
Definition union_one (c : bool * expr * list element) : option (option (expr * list element)) :=
  match c with (sc, v, es) => union_to_optional sc v es end.
Definition union_valid (l : list (bool * expr * list element)) : bool := negb (existsb (fun c => match union_one c with Some _ => true | None => false end) l).
Definition union_invalid (c : list (bool * expr * list element) * option (list (bool * expr * list element))) : bool :=
  negb (union_valid (fst c)) &&
  match snd c with
  | None => forallb (fun x => match union_one x with Some (Some _) => false | _ => true end) (fst c)
  | Some after =>
      list_eqb str_eqb (map (fun x => match union_one x with Some (Some (v, es)) => show v ++ flat_map show_element es | _ => show (snd (fst x)) ++ flat_map show_element (snd x) end) (fst c))
                       (map (fun x => show (snd (fst x)) ++ flat_map show_element (snd x)) after)
  end.

(** imports *)
Definition show_import (i : import_from) : str :=
  N.of_nat (f_dots i) :: match f_module i with Some l => flat_map (fun x => x ++ [46]) l | None => [0] end ++
  match f_names i with None => [42] | Some l => flat_map (fun a => al_name a ++ 0 :: match al_as a with Some y => 1 :: y | None => [] end) l end.
Definition show_statement (s : statement) : str := match s with ImportLine i => 1 :: show_import i | OtherStatement n l => 2 :: n :: flat_map (fun x => show_import (snd x)) l end.
Definition show_alias (a : import_alias) : str := flat_map (fun x => x ++ [46]) (ia_module a) ++ match ia_as a with Some y => 1 :: y | None => [] end.
Record abc_case := AbcCase { ac_body : list statement; ac_aliases : list import_alias; ac_classes : list class_def }.
Definition abc_body (c : abc_case) : list statement :=
  match abc_imports (ac_body c) with
  | (_, Some body) => body
  | (rs, None) => map (fun s => match s with
                                | ImportLine i => match find (fun r => str_eqb (show_import (fst r)) (show_import i)) rs with Some r => ImportLine (snd r) | None => s end
                                | _ => s
                                end) (ac_body c)
  end.
Definition abc_quiet (c : abc_case) : bool :=
  match abc_imports (ac_body c) with ([], None) => true | _ => false end &&
  forallb (fun a => match abc_alias a with None => true | _ => false end) (ac_aliases c) &&
  forallb (fun k => match abc_bases k with [] => true | _ => false end) (ac_classes c).
Definition abc_imported (s : statement) : bool := match s with ImportLine _ => true | _ => false end.
Definition abc_fixed (c : abc_case * option abc_case) : bool :=
  negb (abc_quiet (fst c)) &&
  match snd c with
  | None => true
  | Some after =>
      list_eqb str_eqb (map show_statement (filter abc_imported (abc_body (fst c)))) (map show_statement (filter abc_imported (ac_body after))) &&
      list_eqb str_eqb (map (fun a => show_alias (match abc_alias a with Some b => b | None => a end)) (ac_aliases (fst c))) (map show_alias (ac_aliases after)) &&
      list_eqb str_eqb (map (fun k => show_class (match abc_bases k with x :: _ => x | [] => k end)) (ac_classes (fst c))) (map show_class (ac_classes after))
  end.

(** deprecated imports: the imports and the names with their qualified names *)
Definition dep_valid (c : list import_from * list (list str * str)) : bool :=
  forallb (fun i => match deprecated_imports i with [] => true | _ => false end) (fst c) &&
  forallb (fun n => match deprecated_name (fst n) (snd n) with None => true | _ => false end) (snd c).
Definition dep_import (i : import_from) : import_from :=
  From (f_dots i) (f_module i) (match f_module i, f_names i with
                                | Some [md], Some l => Some (map (fun a => match deprecated_alias md a with Some b => b | None => a end) l)
                                | _, l => l
                                end).
Definition dep_invalid (c : (list import_from * list (list str * str)) * (list import_from * list (list str * str))) : bool :=
  negb (dep_valid (fst c)) &&
  list_eqb str_eqb (map (fun i => show_import (dep_import i)) (fst (fst c))) (map show_import (fst (snd c))) &&
  list_eqb str_eqb (map (fun n => match deprecated_name (fst n) (snd n) with Some y => y | None => snd n end) (snd (fst c))) (map snd (snd (snd c))).

(** rule classes: the name, the sets of the bases *)
Definition suffix_reports (c : list (str * list (option (list str)))) : bool :=
  existsb (fun k => match remove_suffix (fst k) (snd k) with Ok ([], _) => false | _ => true end) c.

(** test case keywords: the arguments of calls of the test cases *)
Definition code_range_call (line col : expr) : expr :=
  let pos := fun args => Call (Name (u "CodePosition")) (map plain_arg args) in
  Call (Name (u "CodeRange")) [(NoStar, Some (u "start"), pos [line; col]); (NoStar, Some (u "end"), pos [Other 0 [Number (u "1"); line]; Number (u "0")])].
Definition keywords_valid (cs : list (list arg)) : bool := forallb (fun a => match convert_linecol code_range_call a with None => true | _ => false end) cs.
Definition keywords_invalid (c : list (list arg) * list (list arg)) : bool :=
  negb (keywords_valid (fst c)) &&
  list_eqb str_eqb (map (fun a => flat_map show_arg (match convert_linecol code_range_call a with Some b => b | None => a end)) (fst c)) (map (flat_map show_arg) (snd c)).

(** /repo/src/fixit/rules/use_async_sleep_in_async_def.py UseAsyncSleepInAsyncDef *)
Definition UseAsyncSleepInAsyncDef_VALID : list (node) :=
  [(Node 9 (OtherNode 2) [(Node 2 (OtherNode 2) [(Node 1 (OtherNode 2) [])]); (Node 8 (FunctionNode false []) [(Node 7 (OtherNode 2) [(Node 6 (CallNode (Call (Attribute (Name (u "time")) (u "sleep")) [(NoStar, None, (Number (u "1")))]) [(u "time.sleep")]) [(Node 4 (OtherNode 2) [(Node 3 (NameNode (u "time") [(u "time")] (among [(u "func"); (u "time")])) [])]); (Node 5 (OtherNode 2) [])])])])]);
   (Node 7 (OtherNode 2) [(Node 1 (ImportFromNode (Some (Name (u "time"))) (Some [(Name (u "sleep"))])) []); (Node 6 (FunctionNode false []) [(Node 5 (OtherNode 2) [(Node 4 (CallNode (Call (Name (u "sleep")) [(NoStar, None, (Number (u "1")))]) [(u "time.sleep")]) [(Node 2 (NameNode (u "sleep") [(u "time.sleep")] (among [(u "func"); (u "sleep")])) []); (Node 3 (OtherNode 2) [])])])])]);
   (Node 8 (OtherNode 2) [(Node 1 (ImportFromNode (Some (Name (u "asyncio"))) (Some [(Name (u "sleep"))])) []); (Node 7 (FunctionNode true []) [(Node 6 (OtherNode 2) [(Node 5 (OtherNode 2) [(Node 4 (CallNode (Call (Name (u "sleep")) [(NoStar, None, (Number (u "1")))]) [(u "asyncio.sleep")]) [(Node 2 (NameNode (u "sleep") [(u "asyncio.sleep")] (among [(u "func"); (u "sleep")])) []); (Node 3 (OtherNode 2) [])])])])])]);
   (Node 10 (OtherNode 2) [(Node 2 (OtherNode 2) [(Node 1 (OtherNode 2) [])]); (Node 9 (FunctionNode true []) [(Node 8 (OtherNode 2) [(Node 7 (OtherNode 2) [(Node 6 (CallNode (Call (Attribute (Name (u "asyncio")) (u "sleep")) [(NoStar, None, (Number (u "1")))]) [(u "asyncio.sleep")]) [(Node 4 (OtherNode 2) [(Node 3 (NameNode (u "asyncio") [(u "asyncio")] (among [(u "asyncio"); (u "func")])) [])]); (Node 5 (OtherNode 2) [])])])])])]);
   (Node 11 (OtherNode 2) [(Node 2 (OtherNode 2) [(Node 1 (OtherNode 2) [])]); (Node 4 (OtherNode 2) [(Node 3 (OtherNode 2) [])]); (Node 10 (FunctionNode false []) [(Node 9 (OtherNode 2) [(Node 8 (CallNode (Call (Attribute (Name (u "time")) (u "sleep")) [(NoStar, None, (Number (u "1")))]) [(u "time.sleep")]) [(Node 6 (OtherNode 2) [(Node 5 (NameNode (u "time") [(u "time")] (among [(u "asyncio"); (u "func"); (u "time")])) [])]); (Node 7 (OtherNode 2) [])])])])]);
   (Node 12 (OtherNode 2) [(Node 2 (OtherNode 2) [(Node 1 (OtherNode 2) [])]); (Node 4 (OtherNode 2) [(Node 3 (OtherNode 2) [])]); (Node 11 (FunctionNode true []) [(Node 10 (OtherNode 2) [(Node 9 (OtherNode 2) [(Node 8 (CallNode (Call (Attribute (Name (u "asyncio")) (u "sleep")) [(NoStar, None, (Number (u "1")))]) [(u "asyncio.sleep")]) [(Node 6 (OtherNode 2) [(Node 5 (NameNode (u "asyncio") [(u "asyncio")] (among [(u "asyncio"); (u "func"); (u "time")])) [])]); (Node 7 (OtherNode 2) [])])])])])]);
   (Node 15 (OtherNode 2) [(Node 2 (OtherNode 2) [(Node 1 (OtherNode 2) [])]); (Node 4 (OtherNode 2) [(Node 3 (OtherNode 2) [])]); (Node 14 (FunctionNode true []) [(Node 10 (OtherNode 2) [(Node 5 (NameNode (u "fut") [(u "fut")] (among [(u "asyncio"); (u "func"); (u "fut"); (u "time")])) []); (Node 9 (CallNode (Call (Attribute (Name (u "asyncio")) (u "sleep")) [(NoStar, None, (Number (u "1")))]) [(u "asyncio.sleep")]) [(Node 7 (OtherNode 2) [(Node 6 (NameNode (u "asyncio") [(u "asyncio")] (among [(u "asyncio"); (u "func"); (u "fut"); (u "time")])) [])]); (Node 8 (OtherNode 2) [])])]); (Node 13 (OtherNode 2) [(Node 12 (OtherNode 2) [(Node 11 (NameNode (u "fut") [(u "fut")] (among [(u "asyncio"); (u "func"); (u "fut"); (u "time")])) [])])])])]);
   (Node 9 (OtherNode 2) [(Node 2 (OtherNode 2) [(Node 1 (OtherNode 2) [])]); (Node 8 (FunctionNode true []) [(Node 7 (OtherNode 2) [(Node 6 (CallNode (Call (Attribute (Name (u "something")) (u "sleep")) [(NoStar, None, (Number (u "3")))]) [(u "something.sleep")]) [(Node 4 (OtherNode 2) [(Node 3 (NameNode (u "something") [(u "something")] (among [(u "func"); (u "something")])) [])]); (Node 5 (OtherNode 2) [])])])])])].

Definition UseAsyncSleepInAsyncDef_INVALID : list (node * option (nat * node)) :=
  [((Node 9 (OtherNode 2) [(Node 2 (OtherNode 2) [(Node 1 (OtherNode 2) [])]); (Node 8 (FunctionNode true []) [(Node 7 (OtherNode 2) [(Node 6 (CallNode (Call (Attribute (Name (u "time")) (u "sleep")) [(NoStar, None, (Number (u "1")))]) [(u "time.sleep")]) [(Node 4 (OtherNode 2) [(Node 3 (NameNode (u "time") [(u "time")] (among [(u "func"); (u "time")])) [])]); (Node 5 (OtherNode 2) [])])])])]),
    None);
   ((Node 7 (OtherNode 2) [(Node 1 (ImportFromNode (Some (Name (u "time"))) (Some [(Name (u "sleep"))])) []); (Node 6 (FunctionNode true []) [(Node 5 (OtherNode 2) [(Node 4 (CallNode (Call (Name (u "sleep")) [(NoStar, None, (Number (u "1")))]) [(u "time.sleep")]) [(Node 2 (NameNode (u "sleep") [(u "time.sleep")] (among [(u "func"); (u "sleep")])) []); (Node 3 (OtherNode 2) [])])])])]),
    None);
   ((Node 14 (OtherNode 2) [(Node 1 (ImportFromNode (Some (Name (u "time"))) (Some [(Name (u "sleep"))])) []); (Node 3 (OtherNode 2) [(Node 2 (OtherNode 2) [])]); (Node 13 (FunctionNode true []) [(Node 7 (OtherNode 2) [(Node 6 (CallNode (Call (Name (u "sleep")) [(NoStar, None, (Number (u "2")))]) [(u "time.sleep")]) [(Node 4 (NameNode (u "sleep") [(u "time.sleep")] (among [(u "asyncio"); (u "func"); (u "sleep")])) []); (Node 5 (OtherNode 2) [])])]); (Node 12 (OtherNode 2) [(Node 11 (CallNode (Call (Attribute (Name (u "asyncio")) (u "sleep")) [(NoStar, None, (Number (u "1")))]) [(u "asyncio.sleep")]) [(Node 9 (OtherNode 2) [(Node 8 (NameNode (u "asyncio") [(u "asyncio")] (among [(u "asyncio"); (u "func"); (u "sleep")])) [])]); (Node 10 (OtherNode 2) [])])])])]),
    None);
   ((Node 14 (OtherNode 2) [(Node 1 (ImportFromNode (Some (Name (u "asyncio"))) (Some [(Name (u "sleep"))])) []); (Node 3 (OtherNode 2) [(Node 2 (OtherNode 2) [])]); (Node 13 (FunctionNode true []) [(Node 7 (OtherNode 2) [(Node 6 (CallNode (Call (Name (u "sleep")) [(NoStar, None, (Number (u "2")))]) [(u "asyncio.sleep")]) [(Node 4 (NameNode (u "sleep") [(u "asyncio.sleep")] (among [(u "func"); (u "sleep"); (u "time")])) []); (Node 5 (OtherNode 2) [])])]); (Node 12 (OtherNode 2) [(Node 11 (CallNode (Call (Attribute (Name (u "time")) (u "sleep")) [(NoStar, None, (Number (u "1")))]) [(u "time.sleep")]) [(Node 9 (OtherNode 2) [(Node 8 (NameNode (u "time") [(u "time")] (among [(u "func"); (u "sleep"); (u "time")])) [])]); (Node 10 (OtherNode 2) [])])])])]),
    None)].

Example UseAsyncSleepInAsyncDef_conforms : wrong (quiet async_sleep false) UseAsyncSleepInAsyncDef_VALID = [] /\ wrong (tree_invalid async_sleep false) UseAsyncSleepInAsyncDef_INVALID = [].
Proof. vm_compute. split; reflexivity. Qed.

(** /repo/src/fixit/rules/no_redundant_arguments_super.py NoRedundantArgumentsSuper *)
Definition NoRedundantArgumentsSuper_VALID : list (node) :=
  [(Node 10 (OtherNode 2) [(Node 9 (ClassNode (u "Foo")) [(Node 1 (NameNode (u "Bar") [] (among [(u "Foo"); (u "foo")])) []); (Node 8 (FunctionNode false [(u "self"); (u "bar")]) [(Node 7 (OtherNode 2) [(Node 6 (CallNode (Call (Attribute (Call (Name (u "super")) []) (u "foo")) [(NoStar, None, (Name (u "bar")))]) [(u "builtins.super.foo")]) [(Node 4 (OtherNode 2) [(Node 3 (CallNode (Call (Name (u "super")) []) [(u "builtins.super")]) [(Node 2 (NameNode (u "super") [(u "builtins.super")] (among [(u "Foo"); (u "foo")])) [])])]); (Node 5 (NameNode (u "bar") [] (among [(u "Foo"); (u "foo")])) [])])])])])]);
   (Node 12 (OtherNode 2) [(Node 11 (ClassNode (u "Foo")) [(Node 1 (NameNode (u "Bar") [] (among [(u "Foo"); (u "foo")])) []); (Node 10 (FunctionNode false [(u "self"); (u "bar")]) [(Node 9 (OtherNode 2) [(Node 8 (CallNode (Call (Attribute (Call (Name (u "super")) [(NoStar, None, (Name (u "Bar"))); (NoStar, None, (Name (u "self")))]) (u "foo")) [(NoStar, None, (Name (u "bar")))]) [(u "builtins.super.foo")]) [(Node 6 (OtherNode 2) [(Node 5 (CallNode (Call (Name (u "super")) [(NoStar, None, (Name (u "Bar"))); (NoStar, None, (Name (u "self")))]) [(u "builtins.super")]) [(Node 2 (NameNode (u "super") [(u "builtins.super")] (among [(u "Foo"); (u "foo")])) []); (Node 3 (NameNode (u "Bar") [] (among [(u "Foo"); (u "foo")])) []); (Node 4 (NameNode (u "self") [] (among [(u "Foo"); (u "foo")])) [])])]); (Node 7 (NameNode (u "bar") [] (among [(u "Foo"); (u "foo")])) [])])])])])]);
   (Node 13 (OtherNode 2) [(Node 12 (ClassNode (u "Foo")) [(Node 1 (NameNode (u "Bar") [] (among [(u "Foo"); (u "foo")])) []); (Node 11 (FunctionNode false [(u "cls"); (u "bar")]) [(Node 2 (NameNode (u "classmethod") [(u "builtins.classmethod")] (among [(u "Foo"); (u "foo")])) []); (Node 10 (OtherNode 2) [(Node 9 (CallNode (Call (Attribute (Call (Name (u "super")) [(NoStar, None, (Name (u "Bar"))); (NoStar, None, (Name (u "cls")))]) (u "foo")) [(NoStar, None, (Name (u "bar")))]) [(u "builtins.super.foo")]) [(Node 7 (OtherNode 2) [(Node 6 (CallNode (Call (Name (u "super")) [(NoStar, None, (Name (u "Bar"))); (NoStar, None, (Name (u "cls")))]) [(u "builtins.super")]) [(Node 3 (NameNode (u "super") [(u "builtins.super")] (among [(u "Foo"); (u "foo")])) []); (Node 4 (NameNode (u "Bar") [] (among [(u "Foo"); (u "foo")])) []); (Node 5 (NameNode (u "cls") [] (among [(u "Foo"); (u "foo")])) [])])]); (Node 8 (NameNode (u "bar") [] (among [(u "Foo"); (u "foo")])) [])])])])])]);
   (Node 17 (OtherNode 2) [(Node 16 (ClassNode (u "Foo")) [(Node 4 (ClassNode (u "InnerBar")) [(Node 1 (NameNode (u "Bar") [] (among [(u "Foo"); (u "InnerBar"); (u "InnerFoo"); (u "foo")])) []); (Node 3 (FunctionNode false [(u "self"); (u "bar")]) [(Node 2 (OtherNode 2) [])])]); (Node 15 (ClassNode (u "InnerFoo")) [(Node 5 (NameNode (u "InnerBar") [(u "InnerBar")] (among [(u "Foo"); (u "InnerBar"); (u "InnerFoo"); (u "foo")])) []); (Node 14 (FunctionNode false [(u "self"); (u "bar")]) [(Node 13 (OtherNode 2) [(Node 12 (CallNode (Call (Attribute (Call (Name (u "super")) [(NoStar, None, (Name (u "InnerBar"))); (NoStar, None, (Name (u "self")))]) (u "foo")) [(NoStar, None, (Name (u "bar")))]) [(u "builtins.super.foo")]) [(Node 10 (OtherNode 2) [(Node 9 (CallNode (Call (Name (u "super")) [(NoStar, None, (Name (u "InnerBar"))); (NoStar, None, (Name (u "self")))]) [(u "builtins.super")]) [(Node 6 (NameNode (u "super") [(u "builtins.super")] (among [(u "Foo"); (u "InnerBar"); (u "InnerFoo"); (u "foo")])) []); (Node 7 (NameNode (u "InnerBar") [(u "InnerBar")] (among [(u "Foo"); (u "InnerBar"); (u "InnerFoo"); (u "foo")])) []); (Node 8 (NameNode (u "self") [] (among [(u "Foo"); (u "InnerBar"); (u "InnerFoo"); (u "foo")])) [])])]); (Node 11 (NameNode (u "bar") [] (among [(u "Foo"); (u "InnerBar"); (u "InnerFoo"); (u "foo")])) [])])])])])])])].

Definition NoRedundantArgumentsSuper_INVALID : list (node * option (nat * node)) :=
  [((Node 12 (OtherNode 2) [(Node 11 (ClassNode (u "Foo")) [(Node 1 (NameNode (u "Bar") [] (among [(u "Foo"); (u "foo")])) []); (Node 10 (FunctionNode false [(u "self"); (u "bar")]) [(Node 9 (OtherNode 2) [(Node 8 (CallNode (Call (Attribute (Call (Name (u "super")) [(NoStar, None, (Name (u "Foo"))); (NoStar, None, (Name (u "self")))]) (u "foo")) [(NoStar, None, (Name (u "bar")))]) [(u "builtins.super.foo")]) [(Node 6 (OtherNode 2) [(Node 5 (CallNode (Call (Name (u "super")) [(NoStar, None, (Name (u "Foo"))); (NoStar, None, (Name (u "self")))]) [(u "builtins.super")]) [(Node 2 (NameNode (u "super") [(u "builtins.super")] (among [(u "Foo"); (u "foo")])) []); (Node 3 (NameNode (u "Foo") [(u "Foo")] (among [(u "Foo"); (u "foo")])) []); (Node 4 (NameNode (u "self") [] (among [(u "Foo"); (u "foo")])) [])])]); (Node 7 (NameNode (u "bar") [] (among [(u "Foo"); (u "foo")])) [])])])])])]),
    Some (1%nat, (Node 10 (OtherNode 2) [(Node 9 (ClassNode (u "Foo")) [(Node 1 (NameNode (u "Bar") [] (among [(u "Foo"); (u "foo")])) []); (Node 8 (FunctionNode false [(u "self"); (u "bar")]) [(Node 7 (OtherNode 2) [(Node 6 (CallNode (Call (Attribute (Call (Name (u "super")) []) (u "foo")) [(NoStar, None, (Name (u "bar")))]) [(u "builtins.super.foo")]) [(Node 4 (OtherNode 2) [(Node 3 (CallNode (Call (Name (u "super")) []) [(u "builtins.super")]) [(Node 2 (NameNode (u "super") [(u "builtins.super")] (among [(u "Foo"); (u "foo")])) [])])]); (Node 5 (NameNode (u "bar") [] (among [(u "Foo"); (u "foo")])) [])])])])])])));
   ((Node 13 (OtherNode 2) [(Node 12 (ClassNode (u "Foo")) [(Node 1 (NameNode (u "Bar") [] (among [(u "Foo"); (u "foo")])) []); (Node 11 (FunctionNode false [(u "cls"); (u "bar")]) [(Node 2 (NameNode (u "classmethod") [(u "builtins.classmethod")] (among [(u "Foo"); (u "foo")])) []); (Node 10 (OtherNode 2) [(Node 9 (CallNode (Call (Attribute (Call (Name (u "super")) [(NoStar, None, (Name (u "Foo"))); (NoStar, None, (Name (u "cls")))]) (u "foo")) [(NoStar, None, (Name (u "bar")))]) [(u "builtins.super.foo")]) [(Node 7 (OtherNode 2) [(Node 6 (CallNode (Call (Name (u "super")) [(NoStar, None, (Name (u "Foo"))); (NoStar, None, (Name (u "cls")))]) [(u "builtins.super")]) [(Node 3 (NameNode (u "super") [(u "builtins.super")] (among [(u "Foo"); (u "foo")])) []); (Node 4 (NameNode (u "Foo") [(u "Foo")] (among [(u "Foo"); (u "foo")])) []); (Node 5 (NameNode (u "cls") [] (among [(u "Foo"); (u "foo")])) [])])]); (Node 8 (NameNode (u "bar") [] (among [(u "Foo"); (u "foo")])) [])])])])])]),
    Some (1%nat, (Node 11 (OtherNode 2) [(Node 10 (ClassNode (u "Foo")) [(Node 1 (NameNode (u "Bar") [] (among [(u "Foo"); (u "foo")])) []); (Node 9 (FunctionNode false [(u "cls"); (u "bar")]) [(Node 2 (NameNode (u "classmethod") [(u "builtins.classmethod")] (among [(u "Foo"); (u "foo")])) []); (Node 8 (OtherNode 2) [(Node 7 (CallNode (Call (Attribute (Call (Name (u "super")) []) (u "foo")) [(NoStar, None, (Name (u "bar")))]) [(u "builtins.super.foo")]) [(Node 5 (OtherNode 2) [(Node 4 (CallNode (Call (Name (u "super")) []) [(u "builtins.super")]) [(Node 3 (NameNode (u "super") [(u "builtins.super")] (among [(u "Foo"); (u "foo")])) [])])]); (Node 6 (NameNode (u "bar") [] (among [(u "Foo"); (u "foo")])) [])])])])])])));
   ((Node 14 (OtherNode 2) [(Node 13 (ClassNode (u "Foo")) [(Node 12 (ClassNode (u "InnerFoo")) [(Node 1 (NameNode (u "Bar") [] (among [(u "Foo"); (u "InnerFoo"); (u "foo")])) []); (Node 11 (FunctionNode false [(u "self"); (u "bar")]) [(Node 10 (OtherNode 2) [(Node 9 (CallNode (Call (Attribute (Call (Name (u "super")) [(NoStar, None, (Attribute (Name (u "Foo")) (u "InnerFoo"))); (NoStar, None, (Name (u "self")))]) (u "foo")) [(NoStar, None, (Name (u "bar")))]) [(u "builtins.super.foo")]) [(Node 7 (OtherNode 2) [(Node 6 (CallNode (Call (Name (u "super")) [(NoStar, None, (Attribute (Name (u "Foo")) (u "InnerFoo"))); (NoStar, None, (Name (u "self")))]) [(u "builtins.super")]) [(Node 2 (NameNode (u "super") [(u "builtins.super")] (among [(u "Foo"); (u "InnerFoo"); (u "foo")])) []); (Node 4 (OtherNode 2) [(Node 3 (NameNode (u "Foo") [(u "Foo")] (among [(u "Foo"); (u "InnerFoo"); (u "foo")])) [])]); (Node 5 (NameNode (u "self") [] (among [(u "Foo"); (u "InnerFoo"); (u "foo")])) [])])]); (Node 8 (NameNode (u "bar") [] (among [(u "Foo"); (u "InnerFoo"); (u "foo")])) [])])])])])])]),
    Some (1%nat, (Node 11 (OtherNode 2) [(Node 10 (ClassNode (u "Foo")) [(Node 9 (ClassNode (u "InnerFoo")) [(Node 1 (NameNode (u "Bar") [] (among [(u "Foo"); (u "InnerFoo"); (u "foo")])) []); (Node 8 (FunctionNode false [(u "self"); (u "bar")]) [(Node 7 (OtherNode 2) [(Node 6 (CallNode (Call (Attribute (Call (Name (u "super")) []) (u "foo")) [(NoStar, None, (Name (u "bar")))]) [(u "builtins.super.foo")]) [(Node 4 (OtherNode 2) [(Node 3 (CallNode (Call (Name (u "super")) []) [(u "builtins.super")]) [(Node 2 (NameNode (u "super") [(u "builtins.super")] (among [(u "Foo"); (u "InnerFoo"); (u "foo")])) [])])]); (Node 5 (NameNode (u "bar") [] (among [(u "Foo"); (u "InnerFoo"); (u "foo")])) [])])])])])])])));
   ((Node 17 (OtherNode 2) [(Node 16 (ClassNode (u "Foo")) [(Node 15 (ClassNode (u "InnerFoo")) [(Node 1 (NameNode (u "Bar") [] (among [(u "Foo"); (u "InnerFoo"); (u "InnerInnerFoo"); (u "foo")])) []); (Node 14 (ClassNode (u "InnerInnerFoo")) [(Node 2 (NameNode (u "Bar") [] (among [(u "Foo"); (u "InnerFoo"); (u "InnerInnerFoo"); (u "foo")])) []); (Node 13 (FunctionNode false [(u "self"); (u "bar")]) [(Node 12 (OtherNode 2) [(Node 11 (CallNode (Call (Attribute (Call (Name (u "super")) [(NoStar, None, (Attribute (Attribute (Name (u "Foo")) (u "InnerFoo")) (u "InnerInnerFoo"))); (NoStar, None, (Name (u "self")))]) (u "foo")) [(NoStar, None, (Name (u "bar")))]) [(u "builtins.super.foo")]) [(Node 9 (OtherNode 2) [(Node 8 (CallNode (Call (Name (u "super")) [(NoStar, None, (Attribute (Attribute (Name (u "Foo")) (u "InnerFoo")) (u "InnerInnerFoo"))); (NoStar, None, (Name (u "self")))]) [(u "builtins.super")]) [(Node 3 (NameNode (u "super") [(u "builtins.super")] (among [(u "Foo"); (u "InnerFoo"); (u "InnerInnerFoo"); (u "foo")])) []); (Node 6 (OtherNode 2) [(Node 5 (OtherNode 2) [(Node 4 (NameNode (u "Foo") [(u "Foo")] (among [(u "Foo"); (u "InnerFoo"); (u "InnerInnerFoo"); (u "foo")])) [])])]); (Node 7 (NameNode (u "self") [] (among [(u "Foo"); (u "InnerFoo"); (u "InnerInnerFoo"); (u "foo")])) [])])]); (Node 10 (NameNode (u "bar") [] (among [(u "Foo"); (u "InnerFoo"); (u "InnerInnerFoo"); (u "foo")])) [])])])])])])])]),
    Some (1%nat, (Node 13 (OtherNode 2) [(Node 12 (ClassNode (u "Foo")) [(Node 11 (ClassNode (u "InnerFoo")) [(Node 1 (NameNode (u "Bar") [] (among [(u "Foo"); (u "InnerFoo"); (u "InnerInnerFoo"); (u "foo")])) []); (Node 10 (ClassNode (u "InnerInnerFoo")) [(Node 2 (NameNode (u "Bar") [] (among [(u "Foo"); (u "InnerFoo"); (u "InnerInnerFoo"); (u "foo")])) []); (Node 9 (FunctionNode false [(u "self"); (u "bar")]) [(Node 8 (OtherNode 2) [(Node 7 (CallNode (Call (Attribute (Call (Name (u "super")) []) (u "foo")) [(NoStar, None, (Name (u "bar")))]) [(u "builtins.super.foo")]) [(Node 5 (OtherNode 2) [(Node 4 (CallNode (Call (Name (u "super")) []) [(u "builtins.super")]) [(Node 3 (NameNode (u "super") [(u "builtins.super")] (among [(u "Foo"); (u "InnerFoo"); (u "InnerInnerFoo"); (u "foo")])) [])])]); (Node 6 (NameNode (u "bar") [] (among [(u "Foo"); (u "InnerFoo"); (u "InnerInnerFoo"); (u "foo")])) [])])])])])])])])))].

Example NoRedundantArgumentsSuper_conforms : wrong (quiet redundant_super []) NoRedundantArgumentsSuper_VALID = [] /\ wrong (tree_invalid redundant_super []) NoRedundantArgumentsSuper_INVALID = [].
Proof. vm_compute. split; reflexivity. Qed.

(** /repo/src/fixit/rules/use_types_from_typing.py UseTypesFromTyping *)
Definition UseTypesFromTyping_VALID : list (node) :=
  [(Node 9 (OtherNode 2) [(Node 8 (FunctionNode false [(u "list")]) [(Node 4 AnnotationNode [(Node 3 (SubscriptNode []) [(Node 1 (NameNode (u "List") [] (among [(u "fuction")])) []); (Node 2 (NameNode (u "str") [(u "builtins.str")] (among [(u "fuction")])) [])])]); (Node 6 AnnotationNode [(Node 5 (OtherNode 2) [])]); (Node 7 (OtherNode 2) [])])]);
   (Node 13 (OtherNode 2) [(Node 12 (FunctionNode false []) [(Node 2 AnnotationNode [(Node 1 (OtherNode 2) [])]); (Node 11 (OtherNode 0) [(Node 3 (NameNode (u "thing") [(u "thing")] (among [(u "function"); (u "thing")])) []); (Node 9 AnnotationNode [(Node 8 (SubscriptNode []) [(Node 4 (NameNode (u "Dict") [] (among [(u "function"); (u "thing")])) []); (Node 7 (OtherNode 2) [(Node 5 (NameNode (u "str") [(u "builtins.str")] (among [(u "function"); (u "thing")])) []); (Node 6 (NameNode (u "str") [(u "builtins.str")] (among [(u "function"); (u "thing")])) [])])])]); (Node 10 (OtherNode 2) [])])])]);
   (Node 10 (OtherNode 2) [(Node 9 (FunctionNode false []) [(Node 2 AnnotationNode [(Node 1 (OtherNode 2) [])]); (Node 8 (OtherNode 0) [(Node 3 (NameNode (u "thing") [(u "thing")] (among [(u "function"); (u "thing")])) []); (Node 7 AnnotationNode [(Node 6 (SubscriptNode []) [(Node 4 (NameNode (u "Tuple") [] (among [(u "function"); (u "thing")])) []); (Node 5 (NameNode (u "str") [(u "builtins.str")] (among [(u "function"); (u "thing")])) [])])])])])]);
   (Node 9 (OtherNode 2) [(Node 1 (ImportFromNode (Some (Name (u "typing"))) (Some [(Name (u "Dict")); (Name (u "List"))])) []); (Node 8 (FunctionNode false []) [(Node 3 AnnotationNode [(Node 2 (NameNode (u "bool") [(u "builtins.bool")] (among [(u "Dict"); (u "List"); (u "function")])) [])]); (Node 7 (OtherNode 2) [(Node 6 (OtherNode 2) [(Node 4 (NameNode (u "Dict") [(u "typing.Dict")] (among [(u "Dict"); (u "List"); (u "function")])) []); (Node 5 (NameNode (u "List") [(u "typing.List")] (among [(u "Dict"); (u "List"); (u "function")])) [])])])])]);
   (Node 14 (OtherNode 2) [(Node 1 (ImportFromNode (Some (Name (u "typing"))) (Some [(Name (u "List"))])) []); (Node 2 (ImportFromNode (Some (Name (u "graphene"))) (Some [(Name (u "List"))])) []); (Node 13 (FunctionNode false [(u "a")]) [(Node 6 AnnotationNode [(Node 5 (SubscriptNode [(u "typing.List")]) [(Node 3 (NameNode (u "list") [(u "typing.List")] (among [(u "List"); (u "function"); (u "list")])) []); (Node 4 (NameNode (u "int") [(u "builtins.int")] (among [(u "List"); (u "function"); (u "list")])) [])])]); (Node 10 AnnotationNode [(Node 9 (SubscriptNode [(u "graphene.List")]) [(Node 7 (NameNode (u "List") [(u "graphene.List")] (among [(u "List"); (u "function"); (u "list")])) []); (Node 8 (NameNode (u "int") [(u "builtins.int")] (among [(u "List"); (u "function"); (u "list")])) [])])]); (Node 12 (OtherNode 2) [(Node 11 (OtherNode 2) [])])])])].

Definition UseTypesFromTyping_INVALID : list (node * option (nat * node)) :=
  [((Node 10 (OtherNode 2) [(Node 1 (ImportFromNode (Some (Name (u "typing"))) (Some [(Name (u "List"))])) []); (Node 9 (FunctionNode false [(u "list")]) [(Node 5 AnnotationNode [(Node 4 (SubscriptNode [(u "builtins.list")]) [(Node 2 (NameNode (u "list") [(u "builtins.list")] (among [(u "List"); (u "whatever")])) []); (Node 3 (NameNode (u "str") [(u "builtins.str")] (among [(u "List"); (u "whatever")])) [])])]); (Node 7 AnnotationNode [(Node 6 (OtherNode 2) [])]); (Node 8 (OtherNode 2) [])])]),
    Some (1%nat, (Node 10 (OtherNode 2) [(Node 1 (ImportFromNode (Some (Name (u "typing"))) (Some [(Name (u "List"))])) []); (Node 9 (FunctionNode false [(u "list")]) [(Node 5 AnnotationNode [(Node 4 (SubscriptNode [(u "typing.List")]) [(Node 2 (NameNode (u "List") [(u "typing.List")] (among [(u "List"); (u "whatever")])) []); (Node 3 (NameNode (u "str") [(u "builtins.str")] (among [(u "List"); (u "whatever")])) [])])]); (Node 7 AnnotationNode [(Node 6 (OtherNode 2) [])]); (Node 8 (OtherNode 2) [])])])));
   ((Node 9 (OtherNode 2) [(Node 8 (FunctionNode false [(u "list")]) [(Node 4 AnnotationNode [(Node 3 (SubscriptNode [(u "builtins.list")]) [(Node 1 (NameNode (u "list") [(u "builtins.list")] (among [(u "function")])) []); (Node 2 (NameNode (u "str") [(u "builtins.str")] (among [(u "function")])) [])])]); (Node 6 AnnotationNode [(Node 5 (OtherNode 2) [])]); (Node 7 (OtherNode 2) [])])]),
    None);
   ((Node 13 (OtherNode 2) [(Node 12 (FunctionNode false []) [(Node 2 AnnotationNode [(Node 1 (OtherNode 2) [])]); (Node 11 (OtherNode 0) [(Node 3 (NameNode (u "thing") [(u "thing")] (among [(u "func"); (u "thing")])) []); (Node 9 AnnotationNode [(Node 8 (SubscriptNode [(u "builtins.dict")]) [(Node 4 (NameNode (u "dict") [(u "builtins.dict")] (among [(u "func"); (u "thing")])) []); (Node 7 (OtherNode 2) [(Node 5 (NameNode (u "str") [(u "builtins.str")] (among [(u "func"); (u "thing")])) []); (Node 6 (NameNode (u "str") [(u "builtins.str")] (among [(u "func"); (u "thing")])) [])])])]); (Node 10 (OtherNode 2) [])])])]),
    None);
   ((Node 10 (OtherNode 2) [(Node 9 (FunctionNode false []) [(Node 2 AnnotationNode [(Node 1 (OtherNode 2) [])]); (Node 8 (OtherNode 0) [(Node 3 (NameNode (u "thing") [(u "thing")] (among [(u "func"); (u "thing")])) []); (Node 7 AnnotationNode [(Node 6 (SubscriptNode [(u "builtins.tuple")]) [(Node 4 (NameNode (u "tuple") [(u "builtins.tuple")] (among [(u "func"); (u "thing")])) []); (Node 5 (NameNode (u "str") [(u "builtins.str")] (among [(u "func"); (u "thing")])) [])])])])])]),
    None);
   ((Node 14 (OtherNode 2) [(Node 1 (ImportFromNode (Some (Name (u "typing"))) (Some [(Name (u "Dict"))])) []); (Node 13 (FunctionNode false []) [(Node 3 AnnotationNode [(Node 2 (OtherNode 2) [])]); (Node 12 (OtherNode 0) [(Node 4 (NameNode (u "thing") [(u "thing")] (among [(u "Dict"); (u "func"); (u "thing")])) []); (Node 10 AnnotationNode [(Node 9 (SubscriptNode [(u "builtins.dict")]) [(Node 5 (NameNode (u "dict") [(u "builtins.dict")] (among [(u "Dict"); (u "func"); (u "thing")])) []); (Node 8 (OtherNode 2) [(Node 6 (NameNode (u "str") [(u "builtins.str")] (among [(u "Dict"); (u "func"); (u "thing")])) []); (Node 7 (NameNode (u "str") [(u "builtins.str")] (among [(u "Dict"); (u "func"); (u "thing")])) [])])])]); (Node 11 (OtherNode 2) [])])])]),
    Some (1%nat, (Node 14 (OtherNode 2) [(Node 1 (ImportFromNode (Some (Name (u "typing"))) (Some [(Name (u "Dict"))])) []); (Node 13 (FunctionNode false []) [(Node 3 AnnotationNode [(Node 2 (OtherNode 2) [])]); (Node 12 (OtherNode 0) [(Node 4 (NameNode (u "thing") [(u "thing")] (among [(u "Dict"); (u "func"); (u "thing")])) []); (Node 10 AnnotationNode [(Node 9 (SubscriptNode [(u "typing.Dict")]) [(Node 5 (NameNode (u "Dict") [(u "typing.Dict")] (among [(u "Dict"); (u "func"); (u "thing")])) []); (Node 8 (OtherNode 2) [(Node 6 (NameNode (u "str") [(u "builtins.str")] (among [(u "Dict"); (u "func"); (u "thing")])) []); (Node 7 (NameNode (u "str") [(u "builtins.str")] (among [(u "Dict"); (u "func"); (u "thing")])) [])])])]); (Node 11 (OtherNode 2) [])])])])))].

Example UseTypesFromTyping_conforms : wrong (quiet typing_types 0%nat) UseTypesFromTyping_VALID = [] /\ wrong (tree_invalid typing_types 0%nat) UseTypesFromTyping_INVALID = [].
Proof. vm_compute. split; reflexivity. Qed.

(** /repo/src/fixit/rules/no_string_type_annotation.py NoStringTypeAnnotation *)
Definition NoStringTypeAnnotation_VALID : list (node) :=
  [(Node 8 (OtherNode 2) [(Node 1 (ImportFromNode (Some (Attribute (Name (u "a")) (u "b"))) (Some [(Name (u "Class"))])) []); (Node 7 (FunctionNode false []) [(Node 3 AnnotationNode [(Node 2 (NameNode (u "Class") [(u "a.b.Class")] (among [(u "Class"); (u "foo")])) [])]); (Node 6 (OtherNode 2) [(Node 5 (CallNode (Call (Name (u "Class")) []) [(u "a.b.Class")]) [(Node 4 (NameNode (u "Class") [(u "a.b.Class")] (among [(u "Class"); (u "foo")])) [])])])])]);
   (Node 12 (OtherNode 2) [(Node 2 (OtherNode 2) [(Node 1 (OtherNode 2) [])]); (Node 3 (ImportFromNode (Some (Attribute (Name (u "a")) (u "b"))) (Some [(Name (u "Class"))])) []); (Node 11 (FunctionNode false []) [(Node 8 AnnotationNode [(Node 7 (SubscriptNode [(u "typing.Type")]) [(Node 5 (OtherNode 2) [(Node 4 (NameNode (u "typing") [(u "typing")] (among [(u "Class"); (u "foo"); (u "typing")])) [])]); (Node 6 (NameNode (u "Class") [(u "a.b.Class")] (among [(u "Class"); (u "foo"); (u "typing")])) [])])]); (Node 10 (OtherNode 2) [(Node 9 (NameNode (u "Class") [(u "a.b.Class")] (among [(u "Class"); (u "foo"); (u "typing")])) [])])])]);
   (Node 20 (OtherNode 2) [(Node 2 (OtherNode 2) [(Node 1 (OtherNode 2) [])]); (Node 3 (ImportFromNode (Some (Attribute (Name (u "a")) (u "b"))) (Some [(Name (u "Class"))])) []); (Node 4 (ImportFromNode (Some (Name (u "c"))) (Some [(Name (u "func"))])) []); (Node 19 (FunctionNode false []) [(Node 12 AnnotationNode [(Node 11 (SubscriptNode [(u "typing.Optional")]) [(Node 6 (OtherNode 2) [(Node 5 (NameNode (u "typing") [(u "typing")] (among [(u "Class"); (u "foo"); (u "func"); (u "typing")])) [])]); (Node 10 (SubscriptNode [(u "typing.Type")]) [(Node 8 (OtherNode 2) [(Node 7 (NameNode (u "typing") [(u "typing")] (among [(u "Class"); (u "foo"); (u "func"); (u "typing")])) [])]); (Node 9 (NameNode (u "Class") [(u "a.b.Class")] (among [(u "Class"); (u "foo"); (u "func"); (u "typing")])) [])])])]); (Node 18 (OtherNode 2) [(Node 17 (OtherNode 2) [(Node 14 (CallNode (Call (Name (u "func")) []) [(u "c.func")]) [(Node 13 (NameNode (u "func") [(u "c.func")] (among [(u "Class"); (u "foo"); (u "func"); (u "typing")])) [])]); (Node 15 (NameNode (u "Class") [(u "a.b.Class")] (among [(u "Class"); (u "foo"); (u "func"); (u "typing")])) []); (Node 16 (OtherNode 2) [])])])])]);
   (Node 13 (OtherNode 2) [(Node 1 (ImportFromNode (Some (Attribute (Name (u "a")) (u "b"))) (Some [(Name (u "Class"))])) []); (Node 7 (FunctionNode false [(u "arg")]) [(Node 3 AnnotationNode [(Node 2 (NameNode (u "Class") [(u "a.b.Class")] (among [(u "Class"); (u "foo")])) [])]); (Node 5 AnnotationNode [(Node 4 (OtherNode 2) [])]); (Node 6 (OtherNode 2) [])]); (Node 12 (OtherNode 2) [(Node 11 (CallNode (Call (Name (u "foo")) [(NoStar, None, (Call (Name (u "Class")) []))]) [(u "foo")]) [(Node 8 (NameNode (u "foo") [(u "foo")] (among [(u "Class"); (u "foo")])) []); (Node 10 (CallNode (Call (Name (u "Class")) []) [(u "a.b.Class")]) [(Node 9 (NameNode (u "Class") [(u "a.b.Class")] (among [(u "Class"); (u "foo")])) [])])])])]);
   (Node 8 (OtherNode 2) [(Node 1 (ImportFromNode (Some (Attribute (Name (u "a")) (u "b"))) (Some [(Name (u "Class"))])) []); (Node 7 (OtherNode 0) [(Node 2 (NameNode (u "module_var") [(u "module_var")] (among [(u "Class"); (u "module_var")])) []); (Node 4 AnnotationNode [(Node 3 (NameNode (u "Class") [(u "a.b.Class")] (among [(u "Class"); (u "module_var")])) [])]); (Node 6 (CallNode (Call (Name (u "Class")) []) [(u "a.b.Class")]) [(Node 5 (NameNode (u "Class") [(u "a.b.Class")] (among [(u "Class"); (u "module_var")])) [])])])]);
   (Node 11 (OtherNode 2) [(Node 1 (ImportFromNode (Some (Name (u "typing"))) (Some [(Name (u "Literal"))])) []); (Node 10 (FunctionNode false []) [(Node 7 AnnotationNode [(Node 6 (SubscriptNode [(u "typing.Literal")]) [(Node 2 (NameNode (u "Literal") [(u "typing.Literal")] (among [(u "Literal"); (u "foo")])) []); (Node 5 (OtherNode 2) [(Node 3 (StringNode (Some (Name (u "a")))) []); (Node 4 (StringNode (Some (Name (u "b")))) [])])])]); (Node 9 (OtherNode 2) [(Node 8 (StringNode (Some (Name (u "a")))) [])])])]);
   (Node 16 (OtherNode 2) [(Node 2 (OtherNode 2) [(Node 1 (OtherNode 2) [])]); (Node 15 (FunctionNode false []) [(Node 12 AnnotationNode [(Node 11 (SubscriptNode [(u "typing.Optional")]) [(Node 4 (OtherNode 2) [(Node 3 (NameNode (u "typing") [(u "typing")] (among [(u "foo"); (u "typing")])) [])]); (Node 10 (SubscriptNode [(u "typing.Literal")]) [(Node 6 (OtherNode 2) [(Node 5 (NameNode (u "typing") [(u "typing")] (among [(u "foo"); (u "typing")])) [])]); (Node 9 (OtherNode 2) [(Node 7 (StringNode (Some (Name (u "a")))) []); (Node 8 (StringNode (Some (Name (u "b")))) [])])])])]); (Node 14 (OtherNode 2) [(Node 13 (StringNode (Some (Name (u "a")))) [])])])]);
   (Node 16 (OtherNode 2) [(Node 2 (OtherNode 2) [(Node 1 (OtherNode 2) [])]); (Node 15 (FunctionNode false []) [(Node 12 AnnotationNode [(Node 11 (SubscriptNode [(u "typing.Optional")]) [(Node 4 (OtherNode 2) [(Node 3 (NameNode (u "typing") [(u "typing")] (among [(u "foo"); (u "typing")])) [])]); (Node 10 (SubscriptNode [(u "typing.Literal")]) [(Node 6 (OtherNode 2) [(Node 5 (NameNode (u "typing") [(u "typing")] (among [(u "foo"); (u "typing")])) [])]); (Node 9 (OtherNode 2) [(Node 7 (StringNode None) []); (Node 8 (StringNode (Some (Name (u "function")))) [])])])])]); (Node 14 (OtherNode 2) [(Node 13 (StringNode None) [])])])])].

Definition NoStringTypeAnnotation_INVALID : list (node * option (nat * node)) :=
  [((Node 9 (OtherNode 2) [(Node 1 (ImportFromNode (Some (Name (u "__future__"))) (Some [(Name (u "annotations"))])) []); (Node 2 (ImportFromNode (Some (Attribute (Name (u "a")) (u "b"))) (Some [(Name (u "Class"))])) []); (Node 8 (FunctionNode false []) [(Node 4 AnnotationNode [(Node 3 (StringNode (Some (Name (u "Class")))) [])]); (Node 7 (OtherNode 2) [(Node 6 (CallNode (Call (Name (u "Class")) []) [(u "a.b.Class")]) [(Node 5 (NameNode (u "Class") [(u "a.b.Class")] (among [(u "Class"); (u "annotations"); (u "foo")])) [])])])])]),
    Some (1%nat, (Node 9 (OtherNode 2) [(Node 1 (ImportFromNode (Some (Name (u "__future__"))) (Some [(Name (u "annotations"))])) []); (Node 2 (ImportFromNode (Some (Attribute (Name (u "a")) (u "b"))) (Some [(Name (u "Class"))])) []); (Node 8 (FunctionNode false []) [(Node 4 AnnotationNode [(Node 3 (NameNode (u "Class") [(u "a.b.Class")] (among [(u "Class"); (u "annotations"); (u "foo")])) [])]); (Node 7 (OtherNode 2) [(Node 6 (CallNode (Call (Name (u "Class")) []) [(u "a.b.Class")]) [(Node 5 (NameNode (u "Class") [(u "a.b.Class")] (among [(u "Class"); (u "annotations"); (u "foo")])) [])])])])])));
   ((Node 10 (OtherNode 2) [(Node 1 (ImportFromNode (Some (Name (u "__future__"))) (Some [(Name (u "annotations"))])) []); (Node 2 (ImportFromNode (Some (Attribute (Name (u "a")) (u "b"))) (Some [(Name (u "Class"))])) []); (Node 9 (FunctionNode true []) [(Node 4 AnnotationNode [(Node 3 (StringNode (Some (Name (u "Class")))) [])]); (Node 8 (OtherNode 2) [(Node 7 (OtherNode 2) [(Node 6 (CallNode (Call (Name (u "Class")) []) [(u "a.b.Class")]) [(Node 5 (NameNode (u "Class") [(u "a.b.Class")] (among [(u "Class"); (u "annotations"); (u "foo")])) [])])])])])]),
    Some (1%nat, (Node 10 (OtherNode 2) [(Node 1 (ImportFromNode (Some (Name (u "__future__"))) (Some [(Name (u "annotations"))])) []); (Node 2 (ImportFromNode (Some (Attribute (Name (u "a")) (u "b"))) (Some [(Name (u "Class"))])) []); (Node 9 (FunctionNode true []) [(Node 4 AnnotationNode [(Node 3 (NameNode (u "Class") [(u "a.b.Class")] (among [(u "Class"); (u "annotations"); (u "foo")])) [])]); (Node 8 (OtherNode 2) [(Node 7 (OtherNode 2) [(Node 6 (CallNode (Call (Name (u "Class")) []) [(u "a.b.Class")]) [(Node 5 (NameNode (u "Class") [(u "a.b.Class")] (among [(u "Class"); (u "annotations"); (u "foo")])) [])])])])])])));
   ((Node 13 (OtherNode 2) [(Node 1 (ImportFromNode (Some (Name (u "__future__"))) (Some [(Name (u "annotations"))])) []); (Node 3 (OtherNode 2) [(Node 2 (OtherNode 2) [])]); (Node 4 (ImportFromNode (Some (Attribute (Name (u "a")) (u "b"))) (Some [(Name (u "Class"))])) []); (Node 12 (FunctionNode false []) [(Node 9 AnnotationNode [(Node 8 (SubscriptNode [(u "typing.Type")]) [(Node 6 (OtherNode 2) [(Node 5 (NameNode (u "typing") [(u "typing")] (among [(u "Class"); (u "annotations"); (u "foo"); (u "typing")])) [])]); (Node 7 (StringNode (Some (Name (u "Class")))) [])])]); (Node 11 (OtherNode 2) [(Node 10 (NameNode (u "Class") [(u "a.b.Class")] (among [(u "Class"); (u "annotations"); (u "foo"); (u "typing")])) [])])])]),
    Some (1%nat, (Node 13 (OtherNode 2) [(Node 1 (ImportFromNode (Some (Name (u "__future__"))) (Some [(Name (u "annotations"))])) []); (Node 3 (OtherNode 2) [(Node 2 (OtherNode 2) [])]); (Node 4 (ImportFromNode (Some (Attribute (Name (u "a")) (u "b"))) (Some [(Name (u "Class"))])) []); (Node 12 (FunctionNode false []) [(Node 9 AnnotationNode [(Node 8 (SubscriptNode [(u "typing.Type")]) [(Node 6 (OtherNode 2) [(Node 5 (NameNode (u "typing") [(u "typing")] (among [(u "Class"); (u "annotations"); (u "foo"); (u "typing")])) [])]); (Node 7 (NameNode (u "Class") [(u "a.b.Class")] (among [(u "Class"); (u "annotations"); (u "foo"); (u "typing")])) [])])]); (Node 11 (OtherNode 2) [(Node 10 (NameNode (u "Class") [(u "a.b.Class")] (among [(u "Class"); (u "annotations"); (u "foo"); (u "typing")])) [])])])])));
   ((Node 20 (OtherNode 2) [(Node 1 (ImportFromNode (Some (Name (u "__future__"))) (Some [(Name (u "annotations"))])) []); (Node 3 (OtherNode 2) [(Node 2 (OtherNode 2) [])]); (Node 4 (ImportFromNode (Some (Attribute (Name (u "a")) (u "b"))) (Some [(Name (u "Class"))])) []); (Node 5 (ImportFromNode (Some (Name (u "c"))) (Some [(Name (u "func"))])) []); (Node 19 (FunctionNode false []) [(Node 12 AnnotationNode [(Node 11 (SubscriptNode []) [(Node 6 (NameNode (u "Optional") [] (among [(u "Class"); (u "annotations"); (u "foo"); (u "func"); (u "typing")])) []); (Node 10 (SubscriptNode [(u "typing.Type")]) [(Node 8 (OtherNode 2) [(Node 7 (NameNode (u "typing") [(u "typing")] (among [(u "Class"); (u "annotations"); (u "foo"); (u "func"); (u "typing")])) [])]); (Node 9 (StringNode (Some (Name (u "Class")))) [])])])]); (Node 18 (OtherNode 2) [(Node 17 (OtherNode 2) [(Node 14 (CallNode (Call (Name (u "func")) []) [(u "c.func")]) [(Node 13 (NameNode (u "func") [(u "c.func")] (among [(u "Class"); (u "annotations"); (u "foo"); (u "func"); (u "typing")])) [])]); (Node 15 (NameNode (u "Class") [(u "a.b.Class")] (among [(u "Class"); (u "annotations"); (u "foo"); (u "func"); (u "typing")])) []); (Node 16 (OtherNode 2) [])])])])]),
    Some (1%nat, (Node 20 (OtherNode 2) [(Node 1 (ImportFromNode (Some (Name (u "__future__"))) (Some [(Name (u "annotations"))])) []); (Node 3 (OtherNode 2) [(Node 2 (OtherNode 2) [])]); (Node 4 (ImportFromNode (Some (Attribute (Name (u "a")) (u "b"))) (Some [(Name (u "Class"))])) []); (Node 5 (ImportFromNode (Some (Name (u "c"))) (Some [(Name (u "func"))])) []); (Node 19 (FunctionNode false []) [(Node 12 AnnotationNode [(Node 11 (SubscriptNode []) [(Node 6 (NameNode (u "Optional") [] (among [(u "Class"); (u "annotations"); (u "foo"); (u "func"); (u "typing")])) []); (Node 10 (SubscriptNode [(u "typing.Type")]) [(Node 8 (OtherNode 2) [(Node 7 (NameNode (u "typing") [(u "typing")] (among [(u "Class"); (u "annotations"); (u "foo"); (u "func"); (u "typing")])) [])]); (Node 9 (NameNode (u "Class") [(u "a.b.Class")] (among [(u "Class"); (u "annotations"); (u "foo"); (u "func"); (u "typing")])) [])])])]); (Node 18 (OtherNode 2) [(Node 17 (OtherNode 2) [(Node 14 (CallNode (Call (Name (u "func")) []) [(u "c.func")]) [(Node 13 (NameNode (u "func") [(u "c.func")] (among [(u "Class"); (u "annotations"); (u "foo"); (u "func"); (u "typing")])) [])]); (Node 15 (NameNode (u "Class") [(u "a.b.Class")] (among [(u "Class"); (u "annotations"); (u "foo"); (u "func"); (u "typing")])) []); (Node 16 (OtherNode 2) [])])])])])));
   ((Node 14 (OtherNode 2) [(Node 1 (ImportFromNode (Some (Name (u "__future__"))) (Some [(Name (u "annotations"))])) []); (Node 2 (ImportFromNode (Some (Attribute (Name (u "a")) (u "b"))) (Some [(Name (u "Class"))])) []); (Node 8 (FunctionNode false [(u "arg")]) [(Node 4 AnnotationNode [(Node 3 (StringNode (Some (Name (u "Class")))) [])]); (Node 6 AnnotationNode [(Node 5 (OtherNode 2) [])]); (Node 7 (OtherNode 2) [])]); (Node 13 (OtherNode 2) [(Node 12 (CallNode (Call (Name (u "foo")) [(NoStar, None, (Call (Name (u "Class")) []))]) [(u "foo")]) [(Node 9 (NameNode (u "foo") [(u "foo")] (among [(u "Class"); (u "annotations"); (u "foo")])) []); (Node 11 (CallNode (Call (Name (u "Class")) []) [(u "a.b.Class")]) [(Node 10 (NameNode (u "Class") [(u "a.b.Class")] (among [(u "Class"); (u "annotations"); (u "foo")])) [])])])])]),
    Some (1%nat, (Node 14 (OtherNode 2) [(Node 1 (ImportFromNode (Some (Name (u "__future__"))) (Some [(Name (u "annotations"))])) []); (Node 2 (ImportFromNode (Some (Attribute (Name (u "a")) (u "b"))) (Some [(Name (u "Class"))])) []); (Node 8 (FunctionNode false [(u "arg")]) [(Node 4 AnnotationNode [(Node 3 (NameNode (u "Class") [(u "a.b.Class")] (among [(u "Class"); (u "annotations"); (u "foo")])) [])]); (Node 6 AnnotationNode [(Node 5 (OtherNode 2) [])]); (Node 7 (OtherNode 2) [])]); (Node 13 (OtherNode 2) [(Node 12 (CallNode (Call (Name (u "foo")) [(NoStar, None, (Call (Name (u "Class")) []))]) [(u "foo")]) [(Node 9 (NameNode (u "foo") [(u "foo")] (among [(u "Class"); (u "annotations"); (u "foo")])) []); (Node 11 (CallNode (Call (Name (u "Class")) []) [(u "a.b.Class")]) [(Node 10 (NameNode (u "Class") [(u "a.b.Class")] (among [(u "Class"); (u "annotations"); (u "foo")])) [])])])])])));
   ((Node 9 (OtherNode 2) [(Node 1 (ImportFromNode (Some (Name (u "__future__"))) (Some [(Name (u "annotations"))])) []); (Node 2 (ImportFromNode (Some (Attribute (Name (u "a")) (u "b"))) (Some [(Name (u "Class"))])) []); (Node 8 (OtherNode 0) [(Node 3 (NameNode (u "module_var") [(u "module_var")] (among [(u "Class"); (u "annotations"); (u "module_var")])) []); (Node 5 AnnotationNode [(Node 4 (StringNode (Some (Name (u "Class")))) [])]); (Node 7 (CallNode (Call (Name (u "Class")) []) [(u "a.b.Class")]) [(Node 6 (NameNode (u "Class") [(u "a.b.Class")] (among [(u "Class"); (u "annotations"); (u "module_var")])) [])])])]),
    Some (1%nat, (Node 9 (OtherNode 2) [(Node 1 (ImportFromNode (Some (Name (u "__future__"))) (Some [(Name (u "annotations"))])) []); (Node 2 (ImportFromNode (Some (Attribute (Name (u "a")) (u "b"))) (Some [(Name (u "Class"))])) []); (Node 8 (OtherNode 0) [(Node 3 (NameNode (u "module_var") [(u "module_var")] (among [(u "Class"); (u "annotations"); (u "module_var")])) []); (Node 5 AnnotationNode [(Node 4 (NameNode (u "Class") [(u "a.b.Class")] (among [(u "Class"); (u "annotations"); (u "module_var")])) [])]); (Node 7 (CallNode (Call (Name (u "Class")) []) [(u "a.b.Class")]) [(Node 6 (NameNode (u "Class") [(u "a.b.Class")] (among [(u "Class"); (u "annotations"); (u "module_var")])) [])])])])));
   ((Node 21 (OtherNode 2) [(Node 1 (ImportFromNode (Some (Name (u "__future__"))) (Some [(Name (u "annotations"))])) []); (Node 3 (OtherNode 2) [(Node 2 (OtherNode 2) [])]); (Node 4 (ImportFromNode (Some (Name (u "typing_extensions"))) (Some [(Name (u "Literal"))])) []); (Node 5 (ImportFromNode (Some (Attribute (Name (u "a")) (u "b"))) (Some [(Name (u "Class"))])) []); (Node 20 (FunctionNode false []) [(Node 16 AnnotationNode [(Node 15 (SubscriptNode [(u "typing.Tuple")]) [(Node 7 (OtherNode 2) [(Node 6 (NameNode (u "typing") [(u "typing")] (among [(u "Class"); (u "Literal"); (u "annotations"); (u "foo"); (u "typing")])) [])]); (Node 14 (OtherNode 2) [(Node 12 (SubscriptNode [(u "typing_extensions.Literal")]) [(Node 8 (NameNode (u "Literal") [(u "typing_extensions.Literal")] (among [(u "Class"); (u "Literal"); (u "annotations"); (u "foo"); (u "typing")])) []); (Node 11 (OtherNode 2) [(Node 9 (StringNode (Some (Name (u "a")))) []); (Node 10 (StringNode (Some (Name (u "b")))) [])])]); (Node 13 (StringNode (Some (Name (u "Class")))) [])])])]); (Node 19 (OtherNode 2) [(Node 18 (CallNode (Call (Name (u "Class")) []) [(u "a.b.Class")]) [(Node 17 (NameNode (u "Class") [(u "a.b.Class")] (among [(u "Class"); (u "Literal"); (u "annotations"); (u "foo"); (u "typing")])) [])])])])]),
    Some (1%nat, (Node 21 (OtherNode 2) [(Node 1 (ImportFromNode (Some (Name (u "__future__"))) (Some [(Name (u "annotations"))])) []); (Node 3 (OtherNode 2) [(Node 2 (OtherNode 2) [])]); (Node 4 (ImportFromNode (Some (Name (u "typing_extensions"))) (Some [(Name (u "Literal"))])) []); (Node 5 (ImportFromNode (Some (Attribute (Name (u "a")) (u "b"))) (Some [(Name (u "Class"))])) []); (Node 20 (FunctionNode false []) [(Node 16 AnnotationNode [(Node 15 (SubscriptNode [(u "typing.Tuple")]) [(Node 7 (OtherNode 2) [(Node 6 (NameNode (u "typing") [(u "typing")] (among [(u "Class"); (u "Literal"); (u "annotations"); (u "foo"); (u "typing")])) [])]); (Node 14 (OtherNode 2) [(Node 12 (SubscriptNode [(u "typing_extensions.Literal")]) [(Node 8 (NameNode (u "Literal") [(u "typing_extensions.Literal")] (among [(u "Class"); (u "Literal"); (u "annotations"); (u "foo"); (u "typing")])) []); (Node 11 (OtherNode 2) [(Node 9 (StringNode (Some (Name (u "a")))) []); (Node 10 (StringNode (Some (Name (u "b")))) [])])]); (Node 13 (NameNode (u "Class") [(u "a.b.Class")] (among [(u "Class"); (u "Literal"); (u "annotations"); (u "foo"); (u "typing")])) [])])])]); (Node 19 (OtherNode 2) [(Node 18 (CallNode (Call (Name (u "Class")) []) [(u "a.b.Class")]) [(Node 17 (NameNode (u "Class") [(u "a.b.Class")] (among [(u "Class"); (u "Literal"); (u "annotations"); (u "foo"); (u "typing")])) [])])])])])))].

Example NoStringTypeAnnotation_conforms : wrong (quiet string_types (Strings [] [] false)) NoStringTypeAnnotation_VALID = [] /\ wrong (tree_invalid string_types (Strings [] [] false)) NoStringTypeAnnotation_INVALID = [].
Proof. vm_compute. split; reflexivity. Qed.

(** /repo/src/fixit/rules/no_inherit_from_object.py NoInheritFromObject *)
Definition NoInheritFromObject_VALID : list (list class_def) :=
  [[(ClassDef (u "A") [(NoStar, None, (Name (u "something")))] [] [] (Block [(Line 0 (Simple [(OtherSmall 0)]))]))];
   [(ClassDef (u "A") [] [] [] (Block [(Line 0 (Simple [(OtherSmall 0)]))]))]].

Definition NoInheritFromObject_INVALID : list (list class_def * option (list class_def)) :=
  [([(ClassDef (u "B") [(NoStar, None, (Name (u "object")))] [] [] (Block [(Line 0 (Simple [(OtherSmall 0)]))]))],
    Some [(ClassDef (u "B") [] [] [] (Block [(Line 0 (Simple [(OtherSmall 0)]))]))]);
   ([(ClassDef (u "B") [(NoStar, None, (Name (u "object"))); (NoStar, None, (Name (u "A")))] [] [] (Block [(Line 0 (Simple [(OtherSmall 0)]))]))],
    Some [(ClassDef (u "B") [(NoStar, None, (Name (u "A")))] [] [] (Block [(Line 0 (Simple [(OtherSmall 0)]))]))])].

Example NoInheritFromObject_conforms : wrong (class_valid (no_object)) NoInheritFromObject_VALID = [] /\ wrong (class_wrong (no_object)) NoInheritFromObject_INVALID = [].
Proof. vm_compute. split; reflexivity. Qed.

(** /repo/src/fixit/rules/no_namedtuple.py NoNamedTuple *)
Definition NoNamedTuple_VALID : list (list expr * list class_def) :=
  [([], [(ClassDef (u "Foo") [] [] [(Call (Name (u "dataclass")) [(NoStar, Some (u "frozen"), (Name (u "True")))])] (Block [(Line 0 (Simple [(OtherSmall 0)]))]))]);
   ([], [(ClassDef (u "Foo") [] [] [(Call (Name (u "dataclass")) [(NoStar, Some (u "frozen"), (Name (u "False")))])] (Block [(Line 0 (Simple [(OtherSmall 0)]))]))]);
   ([], [(ClassDef (u "Foo") [] [] [] (Block [(Line 0 (Simple [(OtherSmall 0)]))]))]);
   ([], [(ClassDef (u "Foo") [(NoStar, None, (Name (u "SomeOtherBase")))] [] [] (Block [(Line 0 (Simple [(OtherSmall 0)]))]))]);
   ([], [(ClassDef (u "Foo") [] [] [(Name (u "some_other_decorator"))] (Block [(Line 0 (Simple [(OtherSmall 0)]))]))]);
   ([], [(ClassDef (u "Foo") [(NoStar, None, (Name (u "SomeOtherBase")))] [] [(Name (u "some_other_decorator"))] (Block [(Line 0 (Simple [(OtherSmall 0)]))]))])].

Definition NoNamedTuple_INVALID : list (list expr * (list class_def * option (list class_def))) :=
  [([(Name (u "NamedTuple"))], ([(ClassDef (u "Foo") [(NoStar, None, (Name (u "NamedTuple")))] [] [] (Block [(Line 0 (Simple [(OtherSmall 0)]))]))],
    Some [(ClassDef (u "Foo") [] [] [(Call (Name (u "dataclass")) [(NoStar, Some (u "frozen"), (Name (u "True")))])] (Block [(Line 0 (Simple [(OtherSmall 0)]))]))]));
   ([(Name (u "NT"))], ([(ClassDef (u "Foo") [(NoStar, None, (Name (u "NT")))] [] [] (Block [(Line 0 (Simple [(OtherSmall 0)]))]))],
    Some [(ClassDef (u "Foo") [] [] [(Call (Name (u "dataclass")) [(NoStar, Some (u "frozen"), (Name (u "True")))])] (Block [(Line 0 (Simple [(OtherSmall 0)]))]))]));
   ([(Attribute (Name (u "typ")) (u "NamedTuple"))], ([(ClassDef (u "Foo") [(NoStar, None, (Attribute (Name (u "typ")) (u "NamedTuple")))] [] [] (Block [(Line 0 (Simple [(OtherSmall 0)]))]))],
    Some [(ClassDef (u "Foo") [] [] [(Call (Name (u "dataclass")) [(NoStar, Some (u "frozen"), (Name (u "True")))])] (Block [(Line 0 (Simple [(OtherSmall 0)]))]))]));
   ([(Name (u "NamedTuple"))], ([(ClassDef (u "Foo") [(NoStar, None, (Name (u "NamedTuple"))); (NoStar, None, (Name (u "AnotherBase"))); (NoStar, None, (Name (u "YetAnotherBase")))] [] [] (Block [(Line 0 (Simple [(OtherSmall 0)]))]))],
    Some [(ClassDef (u "Foo") [(NoStar, None, (Name (u "AnotherBase"))); (NoStar, None, (Name (u "YetAnotherBase")))] [] [(Call (Name (u "dataclass")) [(NoStar, Some (u "frozen"), (Name (u "True")))])] (Block [(Line 0 (Simple [(OtherSmall 0)]))]))]));
   ([(Name (u "NamedTuple"))], ([(ClassDef (u "OuterClass") [(NoStar, None, (Name (u "SomeBase")))] [] [] (Block [(Line 2 (Compound 1))])); (ClassDef (u "InnerClass") [(NoStar, None, (Name (u "NamedTuple")))] [] [] (Block [(Line 0 (Simple [(OtherSmall 0)]))]))],
    Some [(ClassDef (u "OuterClass") [(NoStar, None, (Name (u "SomeBase")))] [] [] (Block [(Line 3 (Compound 1))])); (ClassDef (u "InnerClass") [] [] [(Call (Name (u "dataclass")) [(NoStar, Some (u "frozen"), (Name (u "True")))])] (Block [(Line 0 (Simple [(OtherSmall 0)]))]))]));
   ([(Name (u "NamedTuple"))], ([(ClassDef (u "Foo") [(NoStar, None, (Name (u "NamedTuple")))] [] [(Name (u "some_other_decorator"))] (Block [(Line 0 (Simple [(OtherSmall 0)]))]))],
    Some [(ClassDef (u "Foo") [] [] [(Name (u "some_other_decorator")); (Call (Name (u "dataclass")) [(NoStar, Some (u "frozen"), (Name (u "True")))])] (Block [(Line 0 (Simple [(OtherSmall 0)]))]))]))].

Example NoNamedTuple_conforms : wrong (fun c => class_valid (no_named_tuple (fun e => existsb (same e) (fst c))) (snd c)) NoNamedTuple_VALID = [] /\ wrong (fun c => class_wrong (no_named_tuple (fun e => existsb (same e) (fst c))) (snd c)) NoNamedTuple_INVALID = [].
Proof. vm_compute. split; reflexivity. Qed.

Definition frozen (d : expr -> bool) (c : class_def) : option class_def :=
  if existsb (fun x => match frozen_decorator d x with Some _ => true | None => false end) (d_decorators c) then
    Some (ClassDef (d_name c) (d_bases c) (d_keywords c) (map (fun x => match frozen_decorator d x with Some y => y | None => x end) (d_decorators c)) (d_body c))
  else None.

(** /repo/src/fixit/rules/extra/explicit_frozen_dataclass.py ExplicitFrozenDataclass *)
Definition ExplicitFrozenDataclass_VALID : list (list expr * list class_def) :=
  [([], [(ClassDef (u "Cls") [] [] [(Name (u "some_other_decorator"))] (Block [(Line 0 (Simple [(OtherSmall 0)]))]))]);
   ([(Call (Name (u "dataclass")) [(NoStar, Some (u "frozen"), (Name (u "False")))])], [(ClassDef (u "Cls") [] [] [(Call (Name (u "dataclass")) [(NoStar, Some (u "frozen"), (Name (u "False")))])] (Block [(Line 0 (Simple [(OtherSmall 0)]))]))]);
   ([(Call (Attribute (Name (u "dataclasses")) (u "dataclass")) [(NoStar, Some (u "frozen"), (Name (u "False")))])], [(ClassDef (u "Cls") [] [] [(Call (Attribute (Name (u "dataclasses")) (u "dataclass")) [(NoStar, Some (u "frozen"), (Name (u "False")))])] (Block [(Line 0 (Simple [(OtherSmall 0)]))]))]);
   ([(Call (Attribute (Name (u "dc")) (u "dataclass")) [(NoStar, Some (u "frozen"), (Name (u "False")))])], [(ClassDef (u "Cls") [] [] [(Call (Attribute (Name (u "dc")) (u "dataclass")) [(NoStar, Some (u "frozen"), (Name (u "False")))])] (Block [(Line 0 (Simple [(OtherSmall 0)]))]))]);
   ([(Call (Name (u "dc")) [(NoStar, Some (u "frozen"), (Name (u "False")))])], [(ClassDef (u "Cls") [] [] [(Call (Name (u "dc")) [(NoStar, Some (u "frozen"), (Name (u "False")))])] (Block [(Line 0 (Simple [(OtherSmall 0)]))]))])].

Definition ExplicitFrozenDataclass_INVALID : list (list expr * (list class_def * option (list class_def))) :=
  [([(Name (u "dataclass"))], ([(ClassDef (u "Cls") [] [] [(Name (u "some_unrelated_decorator")); (Name (u "dataclass")); (Name (u "another_unrelated_decorator"))] (Block [(Line 0 (Simple [(OtherSmall 0)]))]))],
    Some [(ClassDef (u "Cls") [] [] [(Name (u "some_unrelated_decorator")); (Call (Name (u "dataclass")) [(NoStar, Some (u "frozen"), (Name (u "True")))]); (Name (u "another_unrelated_decorator"))] (Block [(Line 0 (Simple [(OtherSmall 0)]))]))]));
   ([(Call (Name (u "dataclass")) [])], ([(ClassDef (u "Cls") [] [] [(Call (Name (u "dataclass")) [])] (Block [(Line 0 (Simple [(OtherSmall 0)]))]))],
    Some [(ClassDef (u "Cls") [] [] [(Call (Name (u "dataclass")) [(NoStar, Some (u "frozen"), (Name (u "True")))])] (Block [(Line 0 (Simple [(OtherSmall 0)]))]))]));
   ([(Call (Name (u "dataclass")) [(NoStar, Some (u "other_kwarg"), (Name (u "False")))])], ([(ClassDef (u "Cls") [] [] [(Call (Name (u "dataclass")) [(NoStar, Some (u "other_kwarg"), (Name (u "False")))])] (Block [(Line 0 (Simple [(OtherSmall 0)]))]))],
    Some [(ClassDef (u "Cls") [] [] [(Call (Name (u "dataclass")) [(NoStar, Some (u "other_kwarg"), (Name (u "False"))); (NoStar, Some (u "frozen"), (Name (u "True")))])] (Block [(Line 0 (Simple [(OtherSmall 0)]))]))]));
   ([(Attribute (Name (u "dataclasses")) (u "dataclass"))], ([(ClassDef (u "Cls") [] [] [(Attribute (Name (u "dataclasses")) (u "dataclass"))] (Block [(Line 0 (Simple [(OtherSmall 0)]))]))],
    Some [(ClassDef (u "Cls") [] [] [(Call (Attribute (Name (u "dataclasses")) (u "dataclass")) [(NoStar, Some (u "frozen"), (Name (u "True")))])] (Block [(Line 0 (Simple [(OtherSmall 0)]))]))]));
   ([(Call (Attribute (Name (u "dataclasses")) (u "dataclass")) [])], ([(ClassDef (u "Cls") [] [] [(Call (Attribute (Name (u "dataclasses")) (u "dataclass")) [])] (Block [(Line 0 (Simple [(OtherSmall 0)]))]))],
    Some [(ClassDef (u "Cls") [] [] [(Call (Attribute (Name (u "dataclasses")) (u "dataclass")) [(NoStar, Some (u "frozen"), (Name (u "True")))])] (Block [(Line 0 (Simple [(OtherSmall 0)]))]))]));
   ([(Call (Attribute (Name (u "dataclasses")) (u "dataclass")) [(NoStar, Some (u "other_kwarg"), (Name (u "False")))])], ([(ClassDef (u "Cls") [] [] [(Call (Attribute (Name (u "dataclasses")) (u "dataclass")) [(NoStar, Some (u "other_kwarg"), (Name (u "False")))])] (Block [(Line 0 (Simple [(OtherSmall 0)]))]))],
    Some [(ClassDef (u "Cls") [] [] [(Call (Attribute (Name (u "dataclasses")) (u "dataclass")) [(NoStar, Some (u "other_kwarg"), (Name (u "False"))); (NoStar, Some (u "frozen"), (Name (u "True")))])] (Block [(Line 0 (Simple [(OtherSmall 0)]))]))]));
   ([(Name (u "dc"))], ([(ClassDef (u "Cls") [] [] [(Name (u "dc"))] (Block [(Line 0 (Simple [(OtherSmall 0)]))]))],
    Some [(ClassDef (u "Cls") [] [] [(Call (Name (u "dc")) [(NoStar, Some (u "frozen"), (Name (u "True")))])] (Block [(Line 0 (Simple [(OtherSmall 0)]))]))]));
   ([(Call (Name (u "dc")) [])], ([(ClassDef (u "Cls") [] [] [(Call (Name (u "dc")) [])] (Block [(Line 0 (Simple [(OtherSmall 0)]))]))],
    Some [(ClassDef (u "Cls") [] [] [(Call (Name (u "dc")) [(NoStar, Some (u "frozen"), (Name (u "True")))])] (Block [(Line 0 (Simple [(OtherSmall 0)]))]))]));
   ([(Call (Name (u "dc")) [(NoStar, Some (u "other_kwarg"), (Name (u "False")))])], ([(ClassDef (u "Cls") [] [] [(Call (Name (u "dc")) [(NoStar, Some (u "other_kwarg"), (Name (u "False")))])] (Block [(Line 0 (Simple [(OtherSmall 0)]))]))],
    Some [(ClassDef (u "Cls") [] [] [(Call (Name (u "dc")) [(NoStar, Some (u "other_kwarg"), (Name (u "False"))); (NoStar, Some (u "frozen"), (Name (u "True")))])] (Block [(Line 0 (Simple [(OtherSmall 0)]))]))]));
   ([(Attribute (Name (u "dc")) (u "dataclass"))], ([(ClassDef (u "Cls") [] [] [(Attribute (Name (u "dc")) (u "dataclass"))] (Block [(Line 0 (Simple [(OtherSmall 0)]))]))],
    Some [(ClassDef (u "Cls") [] [] [(Call (Attribute (Name (u "dc")) (u "dataclass")) [(NoStar, Some (u "frozen"), (Name (u "True")))])] (Block [(Line 0 (Simple [(OtherSmall 0)]))]))]));
   ([(Call (Attribute (Name (u "dc")) (u "dataclass")) [])], ([(ClassDef (u "Cls") [] [] [(Call (Attribute (Name (u "dc")) (u "dataclass")) [])] (Block [(Line 0 (Simple [(OtherSmall 0)]))]))],
    Some [(ClassDef (u "Cls") [] [] [(Call (Attribute (Name (u "dc")) (u "dataclass")) [(NoStar, Some (u "frozen"), (Name (u "True")))])] (Block [(Line 0 (Simple [(OtherSmall 0)]))]))]));
   ([(Call (Attribute (Name (u "dc")) (u "dataclass")) [(NoStar, Some (u "other_kwarg"), (Name (u "False")))])], ([(ClassDef (u "Cls") [] [] [(Call (Attribute (Name (u "dc")) (u "dataclass")) [(NoStar, Some (u "other_kwarg"), (Name (u "False")))])] (Block [(Line 0 (Simple [(OtherSmall 0)]))]))],
    Some [(ClassDef (u "Cls") [] [] [(Call (Attribute (Name (u "dc")) (u "dataclass")) [(NoStar, Some (u "other_kwarg"), (Name (u "False"))); (NoStar, Some (u "frozen"), (Name (u "True")))])] (Block [(Line 0 (Simple [(OtherSmall 0)]))]))]))].

Example ExplicitFrozenDataclass_conforms : wrong (fun c => class_valid (frozen (fun e => existsb (same e) (fst c))) (snd c)) ExplicitFrozenDataclass_VALID = [] /\ wrong (fun c => class_wrong (frozen (fun e => existsb (same e) (fst c))) (snd c)) ExplicitFrozenDataclass_INVALID = [].
Proof. vm_compute. split; reflexivity. Qed.

(** /repo/src/fixit/rules/sorted_attributes_rule.py SortedAttributes *)
Definition SortedAttributes_VALID : list (list class_def) :=
  [[(ClassDef (u "MyConstants") [] [] [] (Block [(Line 4 (Simple [(ExprStmt (SimpleString []%N (u """""""") [10;32;32;32;32;64;115;111;114;116;101;100;45;97;116;116;114;105;98;117;116;101;115;10;32;32;32;32]%N))])); (Line 5 (Simple [(Assign [(Name (u "A"))] (SimpleString []%N (u "'") (u "zzz123")))])); (Line 6 (Simple [(Assign [(Name (u "B"))] (SimpleString []%N (u "'") (u "aaa234")))]))])); (ClassDef (u "MyUnsortedConstants") [] [] [] (Block [(Line 6 (Simple [(Assign [(Name (u "B"))] (SimpleString []%N (u "'") (u "aaa234")))])); (Line 5 (Simple [(Assign [(Name (u "A"))] (SimpleString []%N (u "'") (u "zzz123")))]))]))]].

Definition SortedAttributes_INVALID : list (list class_def * option (list class_def)) :=
  [([(ClassDef (u "MyUnsortedConstants") [] [] [] (Block [(Line 4 (Simple [(ExprStmt (SimpleString []%N (u """""""") [10;32;32;32;32;64;115;111;114;116;101;100;45;97;116;116;114;105;98;117;116;101;115;10;32;32;32;32]%N))])); (Line 7 (Simple [(Assign [(Name (u "z"))] (SimpleString []%N (u """") (u "hehehe")))])); (Line 6 (Simple [(Assign [(Name (u "B"))] (SimpleString []%N (u "'") (u "aaa234")))])); (Line 5 (Simple [(Assign [(Name (u "A"))] (SimpleString []%N (u "'") (u "zzz123")))])); (Line 8 (Simple [(Assign [(Name (u "cab"))] (SimpleString []%N (u """") (u "foo bar")))])); (Line 9 (Simple [(Assign [(Name (u "Daaa"))] (SimpleString []%N (u """") (u "banana")))])); (Line 11 (Compound 10))]))],
    Some [(ClassDef (u "MyUnsortedConstants") [] [] [] (Block [(Line 4 (Simple [(ExprStmt (SimpleString []%N (u """""""") [10;32;32;32;32;64;115;111;114;116;101;100;45;97;116;116;114;105;98;117;116;101;115;10;32;32;32;32]%N))])); (Line 5 (Simple [(Assign [(Name (u "A"))] (SimpleString []%N (u "'") (u "zzz123")))])); (Line 6 (Simple [(Assign [(Name (u "B"))] (SimpleString []%N (u "'") (u "aaa234")))])); (Line 9 (Simple [(Assign [(Name (u "Daaa"))] (SimpleString []%N (u """") (u "banana")))])); (Line 8 (Simple [(Assign [(Name (u "cab"))] (SimpleString []%N (u """") (u "foo bar")))])); (Line 7 (Simple [(Assign [(Name (u "z"))] (SimpleString []%N (u """") (u "hehehe")))])); (Line 11 (Compound 10))]))])].

Example SortedAttributes_conforms : wrong (class_valid (ok_class (sorted_attributes of_string))) SortedAttributes_VALID = [] /\ wrong (class_wrong (ok_class (sorted_attributes of_string))) SortedAttributes_INVALID = [].
Proof. vm_compute. split; reflexivity. Qed.

(** /repo/src/fixit/rules/cls_in_classmethod.py UseClsInClassmethod *)
Definition UseClsInClassmethod_VALID : list (list (list (list str) * function)) :=
  [[([[(u "cm")]; [(u "foo")]], (Function true [] [(u "cls"); (u "a"); (u "b"); (u "c")] [] (Group [(Group [])])))];
   [([[(u "nm")]; [(u "foo")]], (Function false [] [(u "self"); (u "a"); (u "b"); (u "c")] [] (Group [(Group [])])))];
   [([[(u "sm")]; [(u "foo")]], (Function false [] [(u "a")] [] (Group [(Group [])])))]].

Definition UseClsInClassmethod_INVALID : list (list (list (list str) * function) * option (list function)) :=
  [([([[(u "cm")]; [(u "foo")]], (Function true [] [] [] (Group [(Group [])])))],
    Some [(Function true [] [(u "cls")] [] (Group [(Group [])]))]);
   ([([[(u "cm")]; [(u "foo")]], (Function true [] [(u "a")] [] (Group [(Group [(Ref (u "a"))])])))],
    Some [(Function true [] [(u "cls")] [] (Group [(Group [(Ref (u "cls"))])]))]);
   ([([[(u "cm")]; [(u "foo")]], (Function true [] [(u "a")] [] (Group [(Group [(Bind (u "cls")); (Group [])])])))],
    None);
   ([([[(u "cm")]; [(u "foo")]], (Function true [] [(u "a"); (u "b")] [] (Group [(Group [(Bind (u "b")); (Ref (u "a"))]); (Group [(Bind (u "b")); (Group [(Ref (u "a")); (Group [])])])])))],
    Some [(Function true [] [(u "cls"); (u "b")] [] (Group [(Group [(Bind (u "b")); (Ref (u "cls"))]); (Group [(Bind (u "b")); (Group [(Ref (u "cls")); (Group [])])])]))]);
   ([([[(u "cm")]; [(u "foo")]], (Function true [] [(u "a"); (u "b")] [] (Group [(Group [(Bind (u "b")); (Ref (u "a"))]); (Group [(Bind (u "b")); (Nested [(u "_")] [] (Group [(Ref (u "a")); (Group [])]))]); (Group [BindOther (u "g"); Nested [] [] (Group [(Group [(Group [(Ref (u "a")); (Group [])])])])]); (Group [(Bind (u "b")); (Group [(Group [(Group []); (Group []); (Group []); (Group [])]); Nested [] [] (Group [(Ref (u "a")); (Bind (u "a"))])])]); (Group [BindOther (u "f"); Nested [(u "a")] [] (Group [(Group [(Group [(Ref (u "a")); (Group []); (Group [])])])])])])))],
    Some [(Function true [] [(u "cls"); (u "b")] [] (Group [(Group [(Bind (u "b")); (Ref (u "cls"))]); (Group [(Bind (u "b")); (Nested [(u "_")] [] (Group [(Ref (u "cls")); (Group [])]))]); (Group [BindOther (u "g"); Nested [] [] (Group [(Group [(Group [(Ref (u "cls")); (Group [])])])])]); (Group [(Bind (u "b")); (Group [(Group [(Group []); (Group []); (Group []); (Group [])]); Nested [] [] (Group [(Ref (u "a")); (Bind (u "a"))])])]); (Group [BindOther (u "f"); Nested [(u "a")] [] (Group [(Group [(Group [(Ref (u "a")); (Group []); (Group [])])])])])]))]);
   ([([[(u "a"); (u "im"); (u "cm")]; [(u "a"); (u "foo")]], (Function false [] [(u "a")] [] (Group [(Group [(Bind (u "a")); (Ref (u "a"))])]))); ([[(u "a"); (u "im"); (u "cm")]; [(u "a"); (u "foo")]], (Function true [] [(u "a")] [] (Group [(Group [(Group [(Ref (u "a")); (Group []); (Group [])]); (Group [(Group [(Ref (u "foo")); (Group [])]); (Group [(Ref (u "a"))])])])])))],
    Some [(Function false [] [(u "a")] [] (Group [(Group [(Bind (u "a")); (Ref (u "a"))])])); (Function true [] [(u "cls")] [] (Group [(Group [(Group [(Ref (u "cls")); (Group []); (Group [])]); (Group [(Group [(Ref (u "foo")); (Group [])]); (Group [(Ref (u "cls"))])])])]))]);
   ([([[(u "another_decorator"); (u "foo")]], (Function false [] [(u "x")] [] (Group [(Group [])]))); ([[(u "cm")]; [(u "another_decorator"); (u "foo")]], (Function true [] [(u "a"); (u "b"); (u "c")] [] (Group [(Group [])])))],
    Some [(Function false [] [(u "x")] [] (Group [(Group [])])); (Function true [] [(u "cls"); (u "b"); (u "c")] [] (Group [(Group [])]))])].

Example UseClsInClassmethod_conforms : wrong (cls_valid) UseClsInClassmethod_VALID = [] /\ wrong (cls_invalid) UseClsInClassmethod_INVALID = [].
Proof. vm_compute. split; reflexivity. Qed.

(** /repo/src/fixit/rules/avoid_or_in_except.py AvoidOrInExcept *)
Definition AvoidOrInExcept_VALID : list (list (list (option expr))) :=
  [[[Some (Tuple [(false, (Name (u "ValueError"))); (false, (Name (u "TypeError")))])]]].

Definition AvoidOrInExcept_INVALID : list (list (list (option expr))) :=
  [[[Some (BoolOp (Name (u "ValueError")) Or (Name (u "TypeError")))]]].

Example AvoidOrInExcept_conforms : wrong (fun c => negb (existsb or_in_except c)) AvoidOrInExcept_VALID = [] /\ wrong (existsb or_in_except) AvoidOrInExcept_INVALID = [].
Proof. vm_compute. split; reflexivity. Qed.

(** /repo/src/fixit/rules/extra/use_lint_fixme_comment.py UseLintFixmeComment *)
Definition UseLintFixmeComment_VALID : list (list str) :=
  [[(u "# lint-fixme: UseFstringRule")];
   [(u "# lint-ignore: UsePlusForStringConcatRule")]].

Definition UseLintFixmeComment_INVALID : list (list str) :=
  [[(u "# noqa")];
   [(u "# noqa")];
   [(u "# noqa")]].

Example UseLintFixmeComment_conforms : wrong (fun c => negb (existsb noqa_comment c)) UseLintFixmeComment_VALID = [] /\ wrong (existsb noqa_comment) UseLintFixmeComment_INVALID = [].
Proof. vm_compute. split; reflexivity. Qed.

(** /repo/src/fixit/rules/replace_union_with_optional.py ReplaceUnionWithOptional *)
Definition ReplaceUnionWithOptional_VALID : list (list (bool * expr * list element)) :=
  [[(false, (Name (u "Optional")), [Index (Name (u "str"))])];
   [(false, (Name (u "Optional")), [Index (Name (u "Dict"))])];
   [(false, (Name (u "Union")), [Index (Name (u "str")); Index (Name (u "int")); Index (Name (u "None"))])]].

Definition ReplaceUnionWithOptional_INVALID : list (list (bool * expr * list element) * option (list (bool * expr * list element))) :=
  [([(false, (Name (u "Union")), [Index (Name (u "str")); Index (Name (u "None"))])],
    None);
   ([(true, (Name (u "Union")), [Index (Subscript (Name (u "Dict")) [(Name (u "str")); (Name (u "int"))]); Index (Name (u "None"))])],
    Some [(true, (Name (u "Optional")), [Index (Subscript (Name (u "Dict")) [(Name (u "str")); (Name (u "int"))])])]);
   ([(true, (Name (u "Union")), [Index (Name (u "str")); Index (Name (u "None"))])],
    Some [(true, (Name (u "Optional")), [Index (Name (u "str"))])]);
   ([(true, (Name (u "Union")), [Index (Name (u "Dict")); Index (Name (u "None"))])],
    Some [(true, (Name (u "Optional")), [Index (Name (u "Dict"))])])].

Example ReplaceUnionWithOptional_conforms : wrong (union_valid) ReplaceUnionWithOptional_VALID = [] /\ wrong (union_invalid) ReplaceUnionWithOptional_INVALID = [].
Proof. vm_compute. split; reflexivity. Qed.

(** /repo/src/fixit/rules/deprecated_abc_import.py DeprecatedABCImport *)
Definition DeprecatedABCImport_VALID : list (abc_case) :=
  [(AbcCase [ImportLine (From 0 (Some [(u "collections"); (u "abc")]) (Some [Alias (u "Container") None]))] [] []);
   (AbcCase [ImportLine (From 0 (Some [(u "collections"); (u "abc")]) (Some [Alias (u "Container") None; Alias (u "Hashable") None]))] [] []);
   (AbcCase [ImportLine (From 0 (Some [(u "collections"); (u "abc")]) (Some [Alias (u "Container") None; Alias (u "Hashable") None]))] [] []);
   (AbcCase [ImportLine (From 0 (Some [(u "collections")]) (Some [Alias (u "defaultdict") None]))] [] []);
   (AbcCase [ImportLine (From 0 (Some [(u "collections")]) (Some [Alias (u "abc") None]))] [] []);
   (AbcCase [OtherStatement 12 []] [ImportAlias [(u "collections")] None] []);
   (AbcCase [OtherStatement 13 []] [ImportAlias [(u "collections"); (u "abc")] None] []);
   (AbcCase [OtherStatement 14 []] [ImportAlias [(u "collections"); (u "abc"); (u "Container")] None] []);
   (AbcCase [OtherStatement 15 []] [] [(ClassDef (u "MyTest") [(NoStar, None, (Attribute (Name (u "collections")) (u "Something")))] [] [] (Block [(Line 17 (Compound 16))]))]);
   (AbcCase [OtherStatement 18 [(false, (From 0 (Some [(u "collections"); (u "abc")]) (Some [Alias (u "Mapping") None]))); (true, (From 0 (Some [(u "collections")]) (Some [Alias (u "Mapping") None])))]] [] []);
   (AbcCase [OtherStatement 19 [(false, (From 0 (Some [(u "collections"); (u "abc")]) (Some [Alias (u "Mapping") None; Alias (u "Container") None]))); (true, (From 0 (Some [(u "collections")]) (Some [Alias (u "Mapping") None; Alias (u "Container") None])))]] [] []);
   (AbcCase [OtherStatement 20 [(false, (From 0 (Some [(u "collections"); (u "abc")]) (Some [Alias (u "Mapping") None; Alias (u "Container") None]))); (true, (From 0 (Some [(u "collections")]) (Some [Alias (u "Mapping") None; Alias (u "Container") None])))]] [] []);
   (AbcCase [OtherStatement 21 [(false, (From 0 (Some [(u "collections"); (u "abc")]) (Some [Alias (u "Mapping") None; Alias (u "Container") None])))]] [] []);
   (AbcCase [OtherStatement 22 [(false, (From 0 (Some [(u "collections")]) (Some [Alias (u "defaultdict") None])))]] [] [])].

Definition DeprecatedABCImport_INVALID : list (abc_case * option abc_case) :=
  [((AbcCase [ImportLine (From 0 (Some [(u "collections")]) (Some [Alias (u "Container") None]))] [] []),
    Some (AbcCase [ImportLine (From 0 (Some [(u "collections"); (u "abc")]) (Some [Alias (u "Container") None]))] [] []));
   ((AbcCase [ImportLine (From 0 (Some [(u "collections")]) (Some [Alias (u "Container") None; Alias (u "Hashable") None]))] [] []),
    Some (AbcCase [ImportLine (From 0 (Some [(u "collections"); (u "abc")]) (Some [Alias (u "Container") None; Alias (u "Hashable") None]))] [] []));
   ((AbcCase [ImportLine (From 0 (Some [(u "collections")]) (Some [Alias (u "Container") None; Alias (u "Hashable") None]))] [] []),
    Some (AbcCase [ImportLine (From 0 (Some [(u "collections"); (u "abc")]) (Some [Alias (u "Container") None; Alias (u "Hashable") None]))] [] []));
   ((AbcCase [OtherStatement 23 []] [ImportAlias [(u "collections"); (u "Container")] None] []),
    Some (AbcCase [OtherStatement 14 []] [ImportAlias [(u "collections"); (u "abc"); (u "Container")] None] []));
   ((AbcCase [OtherStatement 24 []] [ImportAlias [(u "collections"); (u "Container")] (Some (u "cont"))] []),
    Some (AbcCase [OtherStatement 25 []] [ImportAlias [(u "collections"); (u "abc"); (u "Container")] (Some (u "cont"))] []));
   ((AbcCase [ImportLine (From 0 (Some [(u "collections")]) (Some [Alias (u "defaultdict") None; Alias (u "Container") None]))] [] []),
    Some (AbcCase [ImportLine (From 0 (Some [(u "collections")]) (Some [Alias (u "defaultdict") None])); ImportLine (From 0 (Some [(u "collections"); (u "abc")]) (Some [Alias (u "Container") None]))] [] []));
   ((AbcCase [ImportLine (From 0 (Some [(u "collections")]) (Some [Alias (u "defaultdict") None])); ImportLine (From 0 (Some [(u "collections")]) (Some [Alias (u "Container") None]))] [] []),
    Some (AbcCase [ImportLine (From 0 (Some [(u "collections")]) (Some [Alias (u "defaultdict") None])); ImportLine (From 0 (Some [(u "collections"); (u "abc")]) (Some [Alias (u "Container") None]))] [] []));
   ((AbcCase [OtherStatement 26 []] [] [(ClassDef (u "MyTest") [(NoStar, None, (Attribute (Name (u "collections")) (u "Container")))] [] [] (Block [(Line 17 (Compound 16))]))]),
    Some (AbcCase [OtherStatement 27 []] [] [(ClassDef (u "MyTest") [(NoStar, None, (Attribute (Attribute (Name (u "collections")) (u "abc")) (u "Container")))] [] [] (Block [(Line 17 (Compound 16))]))]))].

Example DeprecatedABCImport_conforms : wrong (abc_quiet) DeprecatedABCImport_VALID = [] /\ wrong (abc_fixed) DeprecatedABCImport_INVALID = [].
Proof. vm_compute. split; reflexivity. Qed.

(** /repo/src/fixit/upgrade/deprecated_import.py FixitDeprecatedImport *)
Definition FixitDeprecatedImport_VALID : list (list import_from * list (list str * str)) :=
  [([(From 0 (Some [(u "fixit")]) (Some [Alias (u "LintRule") None]))], []);
   ([(From 0 (Some [(u "fixit")]) (Some [Alias (u "Invalid") None]))], []);
   ([(From 0 (Some [(u "fixit")]) (Some [Alias (u "Valid") None]))], [])].

Definition FixitDeprecatedImport_INVALID : list ((list import_from * list (list str * str)) * (list import_from * list (list str * str))) :=
  [(([(From 0 (Some [(u "fixit")]) (Some [Alias (u "CstLintRule") None]))], []),
    ([(From 0 (Some [(u "fixit")]) (Some [Alias (u "LintRule") None]))], []));
   (([(From 0 (Some [(u "fixit")]) (Some [Alias (u "CSTLintRule") None]))], []),
    ([(From 0 (Some [(u "fixit")]) (Some [Alias (u "LintRule") None]))], []));
   (([(From 0 (Some [(u "fixit")]) (Some [Alias (u "InvalidTestCase") None]))], []),
    ([(From 0 (Some [(u "fixit")]) (Some [Alias (u "Invalid") None]))], []));
   (([(From 0 (Some [(u "fixit")]) (Some [Alias (u "InvalidTestCase") (Some (u "Invalid"))]))], []),
    ([(From 0 (Some [(u "fixit")]) (Some [Alias (u "Invalid") None]))], []));
   (([(From 0 (Some [(u "fixit")]) (Some [Alias (u "ValidTestCase") (Some (u "Valid"))]))], []),
    ([(From 0 (Some [(u "fixit")]) (Some [Alias (u "Valid") None]))], []));
   (([(From 0 (Some [(u "fixit")]) (Some [Alias (u "CstLintRule") None; Alias (u "InvalidTestCase") (Some (u "Invalid")); Alias (u "ValidTestCase") None]))], [([(u "fixit.CstLintRule")], (u "CstLintRule")); ([(u "VALID")], (u "VALID")); ([(u "INVALID")], (u "INVALID")); ([(u "fixit.ValidTestCase")], (u "ValidTestCase")); ([(u "fixit.InvalidTestCase")], (u "Invalid"))]),
    ([(From 0 (Some [(u "fixit")]) (Some [Alias (u "LintRule") None; Alias (u "Invalid") None; Alias (u "Valid") None]))], [([(u "fixit.LintRule")], (u "LintRule")); ([(u "VALID")], (u "VALID")); ([(u "INVALID")], (u "INVALID")); ([(u "fixit.Valid")], (u "Valid")); ([(u "fixit.Invalid")], (u "Invalid"))]))].

Example FixitDeprecatedImport_conforms : wrong (dep_valid) FixitDeprecatedImport_VALID = [] /\ wrong (dep_invalid) FixitDeprecatedImport_INVALID = [].
Proof. vm_compute. split; reflexivity. Qed.

(** /repo/src/fixit/upgrade/remove_rule_suffix.py FixitRemoveRuleSuffix *)
Definition FixitRemoveRuleSuffix_VALID : list (list (str * list (option (list str)))) :=
  [[((u "DontTryThisAtHome"), [Some [(u "fixit.LintRule")]])];
   [((u "CatsRuleDogsDrool"), [Some [(u "fixit.LintRule")]])];
   [((u "NotALintRule"), [])]].

Definition FixitRemoveRuleSuffix_INVALID : list (list (str * list (option (list str)))) :=
  [[((u "DontTryThisAtHomeRule"), [Some [(u "fixit.LintRule")]])];
   [((u "CatsRuleDogsDroolRule"), [Some [(u "fixit.LintRule")]])]].

Example FixitRemoveRuleSuffix_conforms : wrong (fun c => negb (suffix_reports c)) FixitRemoveRuleSuffix_VALID = [] /\ wrong (suffix_reports) FixitRemoveRuleSuffix_INVALID = [].
Proof. vm_compute. split; reflexivity. Qed.

(** /repo/src/fixit/upgrade/deprecated_testcase_keywords.py FixitDeprecatedTestCaseKeywords *)
Definition FixitDeprecatedTestCaseKeywords_VALID : list (list (list arg)) :=
  [[[(NoStar, None, (SimpleString []%N (u """") (u "print('hello')"))); (NoStar, Some (u "message"), (SimpleString []%N (u """") (u "oops")))]]].

Definition FixitDeprecatedTestCaseKeywords_INVALID : list (list (list arg) * list (list arg)) :=
  [([[(NoStar, None, (SimpleString []%N (u """") (u "print('hello')"))); (NoStar, Some (u "line"), (Number (u "3"))); (NoStar, Some (u "column"), (Number (u "10"))); (NoStar, Some (u "config"), (Name (u "None"))); (NoStar, Some (u "filename"), (SimpleString []%N (u """") (u "hello.py"))); (NoStar, Some (u "kind"), (SimpleString []%N (u """") (u "X123")))]],
    [[(NoStar, None, (SimpleString []%N (u """") (u "print('hello')"))); (NoStar, Some (u "range"), (Call (Name (u "CodeRange")) [(NoStar, Some (u "start"), (Call (Name (u "CodePosition")) [(NoStar, None, (Number (u "3"))); (NoStar, None, (Number (u "10")))])); (NoStar, Some (u "end"), (Call (Name (u "CodePosition")) [(NoStar, None, (Other 0 [(Number (u "1")); (Number (u "3"))])); (NoStar, None, (Number (u "0")))]))]))]])].

Example FixitDeprecatedTestCaseKeywords_conforms : wrong (keywords_valid) FixitDeprecatedTestCaseKeywords_VALID = [] /\ wrong (keywords_invalid) FixitDeprecatedTestCaseKeywords_INVALID = [].
Proof. vm_compute. split; reflexivity. Qed.
