(** * What the replacements of the expression rules should do

    [same_meaning]: two expressions do the same in every state: same value or exception, same state
    after it. The laws below say what a machine must be like for the built-in functions, the displays
    and the assertions of a test case to be the ones of Python; all else is left open. *)
From Coq Require Import String List NArith ZArith Bool Arith.
From Verif Require Import Base PyStr Py.
Import ListNotations.

Definition same_meaning (P : py) (rho : scope P) (a b : expr) : Prop := forall s, eval P rho a s = eval P rho b s.

(** What an [if] makes of its condition: "and", "or" and "not" become jumps, so that the truth value of
    each operand is asked for once. *)
Fixpoint condition (P : py) (rho : scope P) (e : expr) : M (state P) bool :=
  match e with
  | Not e' => let* b := condition P rho e' in ret (negb b)
  | BoolOp l Or r => let* b := condition P rho l in if b then ret true else condition P rho r
  | BoolOp l And r => let* b := condition P rho l in if b then condition P rho r else ret false
  | _ => let* v := eval P rho e in p_truth P v
  end.

(** ** Laws *)

(** True is true and False is false. *)
Definition honest_bools (P : py) : Prop := forall b s, p_truth P (p_bool P b) s = (Ok b, s).

(** Comparing with [v] by == is the same as by "is": so it is with None for all types that do not define
    another ==; not so with True, as 1 == True. *)
Definition by_identity (P : py) (v : value P) : Prop := forall a b s, a = v \/ b = v ->
  p_compare P Equal a b s = (Ok (p_bool P (p_same P a b)), s) /\
  p_compare P NotEqual a b s = (Ok (p_bool P (negb (p_same P a b))), s).
(** the names of singletons *)
Definition names_singleton (P : py) (e : expr) (v : value P) : Prop :=
  (e = Name (u "None") /\ v = p_none P) \/ (e = Name (u "True") /\ v = p_bool P true) \/ (e = Name (u "False") /\ v = p_bool P false).

(** The name of a built-in function stands for it. *)
Definition builtin (P : py) (rho : scope P) (name : string) (f : value P) : Prop := forall s, eval P rho (Name (u name)) s = (Ok f, s).

(** isinstance: [inst] says whether a value is an instance of a class or of one of a tuple of classes *)
Record isinstance_laws (P : py) (f : value P) (inst : value P -> value P -> bool) (tup : list (value P) -> value P) : Prop := {
  call_isinstance : forall v c s, p_call P f [v; c] [] s = (Ok (p_bool P (inst v c)), s);
  make_tuple : forall vs s, p_tuple P vs s = (Ok (tup vs), s);
  inst_tuple : forall v cs, inst v (tup cs) = existsb (inst v) cs }.

(** [self] is a test case of unittest. *)
Definition check_that (P : py) (m : M (state P) bool) : M (state P) (value P) := let* b := m in if b then ret (p_none P) else throw AssertionError.
Record test_case_laws (P : py) (rho : scope P) (self : value P) (method : string -> value P) : Prop := {
  self_is : forall s, eval P rho (Name (u "self")) s = (Ok self, s);
  methods : forall n s, List.In n ["assertTrue"; "assertFalse"; "assertIn"; "assertNotIn"; "assertIsNone"; "assertIsNotNone"; "assertEqual"]%string ->
              p_attr P self (u n) s = (Ok (method n), s);
  call_true : forall v s, p_call P (method "assertTrue"%string) [v] [] s = check_that P (p_truth P v) s;
  call_false : forall v s, p_call P (method "assertFalse"%string) [v] [] s = check_that P (let* b := p_truth P v in ret (negb b)) s;
  call_in : forall a b s, p_call P (method "assertIn"%string) [a; b] [] s = check_that P (let* c := p_compare P InOp a b in p_truth P c) s;
  call_not_in : forall a b s, p_call P (method "assertNotIn"%string) [a; b] [] s = check_that P (let* c := p_compare P InOp a b in let* x := p_truth P c in ret (negb x)) s;
  call_none : forall a s, p_call P (method "assertIsNone"%string) [a] [] s = check_that P (ret (p_same P a (p_none P))) s;
  call_not_none : forall a s, p_call P (method "assertIsNotNone"%string) [a] [] s = check_that P (ret (negb (p_same P a (p_none P)))) s;
  call_equal : forall a b s, p_call P (method "assertEqual"%string) [a; b] [] s = check_that P (let* c := p_compare P Equal a b in p_truth P c) s;
  (* the second argument of assertTrue is a message *)
  call_true_msg : forall a b s, p_call P (method "assertTrue"%string) [a; b] [] s = check_that P (p_truth P a) s }.

(** Displays have no effect, and list, tuple, set and dict convert them. *)
Record display_laws (P : py) (rho : scope P) (tup lst : list (value P) -> value P) (flist ftuple fset fdict : value P) : Prop := {
  d_list : builtin P rho "list" flist; d_tuple : builtin P rho "tuple" ftuple; d_set : builtin P rho "set" fset; d_dict : builtin P rho "dict" fdict;
  d_tup : forall vs s, p_tuple P vs s = (Ok (tup vs), s);
  d_lst : forall vs s, p_list P vs s = (Ok (lst vs), s);
  list_none : forall s, p_call P flist [] [] s = (Ok (lst []), s);
  tuple_none : forall s, p_call P ftuple [] [] s = (Ok (tup []), s);
  set_none : forall s, p_call P fset [] [] s = p_set P [] s;
  dict_none : forall s, p_call P fdict [] [] s = p_dict P [] s;
  list_of : forall vs s, p_call P flist [lst vs] [] s = (Ok (lst vs), s) /\ p_call P flist [tup vs] [] s = (Ok (lst vs), s);
  tuple_of : forall vs s, p_call P ftuple [lst vs] [] s = (Ok (tup vs), s) /\ p_call P ftuple [tup vs] [] s = (Ok (tup vs), s);
  set_of : forall vs s, p_call P fset [lst vs] [] s = p_set P vs s /\ p_call P fset [tup vs] [] s = p_set P vs s;
  (* of pairs, each a tuple or a list *)
  dict_of : forall (kvs : list (value P * value P)) ps s, Forall2 (fun kv p => p = tup [fst kv; snd kv] \/ p = lst [fst kv; snd kv]) kvs ps ->
    p_call P fdict [lst ps] [] s = p_dict P kvs s /\ p_call P fdict [tup ps] [] s = p_dict P kvs s }.

(** ... and generators. *)
Record generator_laws (P : py) (tup lst : list (value P) -> value P) (flist fset fdict : value P) : Prop := {
  list_gen : forall g s, p_call P flist [p_generator P g] [] s = (let* vs := drain g in p_list P vs) s;
  set_gen : forall g s, p_call P fset [p_generator P g] [] s = (let* vs := drain g in p_set P vs) s;
  dict_gen : forall g s, p_call P fdict [p_generator P g] [] s = (let* vs := drain g in p_call P fdict [lst vs] []) s }.

(** any and all: the first element that decides *)
Fixpoint search {P : py} (stop : bool) (g : gen (value P) (state P)) : M (state P) (value P) :=
  match g with
  | Gen n => fun s => match n s with
                      | (Ok (Some (a, g')), s') => (let* b := p_truth P a in if Bool.eqb b stop then ret (p_bool P stop) else search stop g') s'
                      | (Ok None, s') => (Ok (p_bool P (negb stop)), s')
                      | (Err e, s') => (Err e, s')
                      end
  end.
Fixpoint of_list {A S} (l : list A) : gen A S := match l with [] => gnil | a :: l' => Gen (fun s => (Ok (Some (a, of_list l')), s)) end.
Record search_laws (P : py) (rho : scope P) (lst : list (value P) -> value P) (fany fall : value P) : Prop := {
  s_any : builtin P rho "any" fany; s_all : builtin P rho "all" fall;
  s_lst : forall vs s, p_list P vs s = (Ok (lst vs), s);
  any_of : forall v s, p_call P fany [v] [] s = (let* g := p_iter P v in search true g) s;
  all_of : forall v s, p_call P fall [v] [] s = (let* g := p_iter P v in search false g) s;
  iter_list : forall vs s, p_iter P (lst vs) s = (Ok (of_list vs), s);
  iter_gen : forall g s, p_iter P (p_generator P g) s = (Ok g, s) }.

(** An iterator whose steps change nothing and do not fail. *)
Inductive quiet {A S} (s : S) : gen A S -> list A -> Prop :=
  | Q_nil : forall g, next g s = (Ok None, s) -> quiet s g []
  | Q_cons : forall g a g' l, next g s = (Ok (Some (a, g')), s) -> quiet s g' l -> quiet s g (a :: l).

(** ** Lambda: what a call with positional arguments does *)
Definition call_lambda (P : py) (rho : scope P) (ps : list str) (body : expr) (vs : list (value P)) : M (state P) (value P) :=
  if (List.length vs =? List.length ps)%nat then eval P (combine ps vs ++ rho) body else throw TypeError.

(** the names an expression mentions (bound ones included) *)
Fixpoint mentions (n : str) (e : expr) : Prop :=
  let clauses := fold_right (fun (c : clause) acc => mentions n (fst (fst c)) \/ mentions n (snd (fst c)) \/ fold_right (fun e acc => mentions n e \/ acc) False (snd c) \/ acc) False in
  let elems := fold_right (fun (x : bool * expr) acc => mentions n (snd x) \/ acc) False in
  match e with
  | Name s => s = n
  | Number _ | SimpleString _ _ _ => False
  | Concatenated l r | BoolOp l _ r | Modulo l r => mentions n l \/ mentions n r
  | FString _ _ parts => fold_right (fun x acc => match x with inl _ => acc | inr e => mentions n e \/ acc end) False parts
  | Attribute e _ | Not e => mentions n e
  | Subscript e sl => mentions n e \/ fold_right (fun e acc => mentions n e \/ acc) False sl
  | Call f args => mentions n f \/ fold_right (fun (a : arg) acc => mentions n (snd a) \/ acc) False args
  | Compare l rest => mentions n l \/ fold_right (fun (x : cmpop * expr) acc => mentions n (snd x) \/ acc) False rest
  | Tuple es | List es | Set_ es => elems es
  | Dict es => fold_right (fun (x : expr * expr) acc => mentions n (fst x) \/ mentions n (snd x) \/ acc) False es
  | Lambda ps _ body => List.In n ps \/ mentions n body
  | ListComp elt cs | SetComp elt cs | GeneratorExp elt cs => mentions n elt \/ clauses cs
  | DictComp k v cs => mentions n k \/ mentions n v \/ clauses cs
  | Other _ es => fold_right (fun e acc => mentions n e \/ acc) False es
  end.

(** ** Formatting *)

(** "%s" for each of the values, in order; a wrong number of values is an error. *)
Fixpoint percent (P : py) (format : str) (vs : list (value P)) : M (state P) str :=
  match format with
  | [] => match vs with [] => ret [] | _ => throw TypeError end
  | c :: r =>
      match r with
      | d :: format' =>
          if ((c =? 37) && (d =? 115))%N then
            match vs with
            | v :: vs' => let* t := p_format P v in let* ts := percent P format' vs' in ret (t ++ ts)
            | [] => throw TypeError
            end
          else let* ts := percent P r vs in ret (c :: ts)
      | [] => match vs with [] => ret [c] | _ => throw TypeError end
      end
  end.
(** every % is followed by s *)
Definition only_s (t : str) : Prop := forall a b, t = a ++ 37%N :: b -> exists c, b = 115%N :: c.
(** The last law but one: str(v) is format(v); a value that is not a tuple is the only value. *)
Record format_laws (P : py) (tup : list (value P) -> value P) (is_tuple : value P -> Prop) : Prop := {
  f_tuple : forall vs s, p_tuple P vs s = (Ok (tup vs), s);
  f_mod : forall t vs s, only_s t -> p_mod P (p_str P t) (tup vs) s = (let* x := percent P t vs in ret (p_str P x)) s;
  f_mod1 : forall t v s, only_s t -> ~ is_tuple v -> p_mod P (p_str P t) v s = (let* x := percent P t [v] in ret (p_str P x)) s;
  (* a literal without backslash stands for itself *)
  f_text : forall raw t s, ~ List.In 92%N t -> p_text P raw t s = (Ok t, s) }.

(** The value of a lambda depends on the names it mentions only. *)
Definition lambda_law (P : py) : Prop := forall rho1 rho2 ps simple body,
  (forall n, mentions n (Lambda ps simple body) -> assoc n rho1 = assoc n rho2) -> p_lambda P rho1 ps simple body = p_lambda P rho2 ps simple body.

(** An expression without the quotes of its plain strings *)
Fixpoint no_quotes (e : expr) : expr :=
  let clauses := map (fun c : clause => (no_quotes (fst (fst c)), no_quotes (snd (fst c)), map no_quotes (snd c))) in
  let elems := map (fun x : bool * expr => (fst x, no_quotes (snd x))) in
  match e with
  | SimpleString prefix _ raw => SimpleString prefix [] raw
  | Name _ | Number _ => e
  | Concatenated l r => Concatenated (no_quotes l) (no_quotes r)
  | FString p q parts => FString p q (map (fun x => match x with inl t => inl t | inr e => inr (no_quotes e) end) parts)
  | Attribute e a => Attribute (no_quotes e) a
  | Subscript e sl => Subscript (no_quotes e) (map no_quotes sl)
  | Call f args => Call (no_quotes f) (map (fun a : arg => (fst a, no_quotes (snd a))) args)
  | Not e => Not (no_quotes e)
  | BoolOp l op r => BoolOp (no_quotes l) op (no_quotes r)
  | Modulo l r => Modulo (no_quotes l) (no_quotes r)
  | Compare l rest => Compare (no_quotes l) (map (fun x : cmpop * expr => (fst x, no_quotes (snd x))) rest)
  | Tuple es => Tuple (elems es)
  | List es => List (elems es)
  | Set_ es => Set_ (elems es)
  | Dict es => Dict (map (fun kv : expr * expr => (no_quotes (fst kv), no_quotes (snd kv))) es)
  | Lambda ps simple body => Lambda ps simple (no_quotes body)
  | ListComp elt cs => ListComp (no_quotes elt) (clauses cs)
  | SetComp elt cs => SetComp (no_quotes elt) (clauses cs)
  | GeneratorExp elt cs => GeneratorExp (no_quotes elt) (clauses cs)
  | DictComp k v cs => DictComp (no_quotes k) (no_quotes v) (clauses cs)
  | Other n es => Other n (map no_quotes es)
  end.
(** Functions and assignments do not depend on quotes. *)
Definition quote_laws (P : py) : Prop :=
  (forall rho ps simple body, p_lambda P rho ps simple (no_quotes body) = p_lambda P rho ps simple body) /\
  (forall t v, p_unpack P (no_quotes t) v = p_unpack P t v).

(** the number of %s *)
Fixpoint holes (t : str) : nat :=
  match t with
  | c :: (d :: t') as r => if ((c =? 37) && (d =? 115))%N then S (holes t') else holes r
  | _ => 0
  end.

(** The code of an expression starts with a brace. *)
Fixpoint opens_brace (e : expr) : bool :=
  match e with
  | Dict _ | Set_ _ | SetComp _ _ | DictComp _ _ _ => true
  | Attribute e _ | Subscript e _ | Call e _ | BoolOp e _ _ | Modulo e _ | Compare e _ => opens_brace e
  | _ => false
  end.
