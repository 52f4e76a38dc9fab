(** * Py: Python expressions as lint rules see them, and what they mean

    The rules of /repo/src/fixit/rules look at LibCST nodes. [expr] has the node types they tell apart;
    white space, parentheses and commas are left out, and all node types no rule names are [Other].
    [eval] is the meaning of an expression, so that one can say what a replacement changes. It is
    relative to a machine [py]: any values and any state, any behaviour of names, attributes, calls,
    operators; every theorem about rules is for all machines. *)
From Coq Require Import String List NArith ZArith Bool Arith.
From Verif Require Import Base PyStr.
Import ListNotations.
Set Implicit Arguments.

(** ** Syntax *)

Inductive cmpop := Is | IsNot | Equal | NotEqual | InOp | NotInOp | OtherCmp (n : N).
Inductive boolop := And | Or.
Inductive stars := NoStar | OneStar | TwoStars.

Inductive expr :=
  | Name (s : str)
  | Number (s : str)                              (* Integer, Float, Imaginary *)
  | SimpleString (prefix quote raw : str)
  | Concatenated (l r : expr)                     (* ConcatenatedString *)
  | FString (prefix quote : str) (parts : list (str + expr))      (* FormattedString: text, expressions *)
  | Attribute (e : expr) (attr : str)
  | Subscript (e : expr) (slices : list expr)
  | Call (f : expr) (args : list (stars * option str * expr))
  | Not (e : expr)                                (* UnaryOperation with not *)
  | BoolOp (l : expr) (op : boolop) (r : expr)
  | Modulo (l r : expr)                           (* BinaryOperation with % *)
  | Compare (l : expr) (rest : list (cmpop * expr))
  | Tuple (es : list (bool * expr))               (* true: starred *)
  | List (es : list (bool * expr))
  | Set_ (es : list (bool * expr))
  | Dict (es : list (expr * expr))
  | Lambda (ps : list str) (simple : bool) (body : expr)  (* simple: plain parameters without defaults *)
  | ListComp (elt : expr) (for_in : list (expr * expr * list expr))    (* for target in iterable if ... *)
  | SetComp (elt : expr) (for_in : list (expr * expr * list expr))
  | GeneratorExp (elt : expr) (for_in : list (expr * expr * list expr))
  | DictComp (k v : expr) (for_in : list (expr * expr * list expr))
  | Other (n : N) (es : list expr).

Definition arg := (stars * option str * expr)%type.
Definition a_value (a : arg) : expr := snd a.
Definition plain_arg (e : expr) : arg := (NoStar, None, e).
Definition clause := (expr * expr * list expr)%type.

(** ** Computations: state and exceptions *)
Definition M (S A : Type) := S -> res A * S.
Definition ret {S A} (a : A) : M S A := fun s => (Ok a, s).
Definition throw {S A} (e : exn) : M S A := fun s => (Err e, s).
Definition mbind {S A B} (m : M S A) (f : A -> M S B) : M S B :=
  fun s => match m s with (Ok a, s') => f a s' | (Err e, s') => (Err e, s') end.
Notation "'let*' x ':=' m 'in' k" := (mbind m (fun x => k)) (at level 200, x pattern, m at level 100, k at level 200).

Section MapM.
  Context {S A B : Type} (f : A -> M S B).
  Fixpoint mapM (l : list A) : M S (list B) :=
    match l with
    | [] => ret []
    | a :: l' => let* b := f a in let* bs := mapM l' in ret (b :: bs)
    end.
End MapM.

(** Iterators: the next element, or none. They are finite. *)
Inductive gen (A S : Type) := Gen (next : S -> res (option (A * gen A S)) * S).
Arguments Gen {A S} next.

Definition next {A S} (g : gen A S) : M S (option (A * gen A S)) := match g with Gen n => n end.
Definition gnil {A S} : gen A S := Gen (fun s => (Ok None, s)).
Definition gone {A S} (a : A) : gen A S := Gen (fun s => (Ok (Some (a, gnil)), s)).
(** a computation that ends with an iterator *)
Definition glift {A S} (m : M S (gen A S)) : gen A S := Gen (mbind m next).

Fixpoint gapp {A S} (g h : gen A S) : gen A S :=
  match g with
  | Gen n => Gen (fun s => match n s with
                           | (Ok (Some (a, g')), s') => (Ok (Some (a, gapp g' h)), s')
                           | (Ok None, s') => next h s'
                           | (Err e, s') => (Err e, s')
                           end)
  end.
Fixpoint gflat {A B S} (g : gen A S) (f : A -> gen B S) : gen B S :=
  match g with
  | Gen n => Gen (fun s => match n s with
                           | (Ok (Some (a, g')), s') => next (gapp (f a) (gflat g' f)) s'
                           | (Ok None, s') => (Ok None, s')
                           | (Err e, s') => (Err e, s')
                           end)
  end.
(** all elements *)
Fixpoint drain {A S} (g : gen A S) : M S (list A) :=
  match g with
  | Gen n => fun s => match n s with
                      | (Ok (Some (a, g')), s') => (let* l := drain g' in ret (a :: l)) s'
                      | (Ok None, s') => (Ok [], s')
                      | (Err e, s') => (Err e, s')
                      end
  end.

(** ** Machines *)
Record py := Py {
  value : Type; state : Type;
  p_bool : bool -> value; p_none : value; p_str : str -> value;
  p_name : str -> M state value;                   (* a variable that is not a parameter *)
  p_number : str -> M state value;
  p_text : bool -> str -> M state str;             (* the text of a literal; true: without escapes *)
  p_bytes : str -> str -> M state value;           (* ... of a bytes literal *)
  p_join : value -> value -> M state value;        (* adjacent literals *)
  p_format : value -> M state str;                 (* in an f-string *)
  p_attr : value -> str -> M state value;
  p_index : value -> list value -> M state value;
  p_call : value -> list value -> list (str * value) -> M state value;
  p_truth : value -> M state bool;
  p_mod : value -> value -> M state value;
  p_same : value -> value -> bool;                 (* is *)
  p_compare : cmpop -> value -> value -> M state value;
  p_tuple : list value -> M state value;
  p_list : list value -> M state value;
  p_set : list value -> M state value;
  p_dict : list (value * value) -> M state value;
  p_iter : value -> M state (gen value state);
  p_mapping : value -> M state (list (str * value));   (* the items of a ** argument *)
  p_unpack : expr -> value -> M state (list (str * value));   (* assignment to a target that is not a name *)
  p_generator : gen value state -> value;
  p_lambda : list (str * value) -> list str -> bool -> expr -> value;
  p_other : N -> list value -> M state value }.

(** Parameters in scope, the innermost first *)
Definition scope (P : py) := list (str * value P).
Fixpoint assoc {V} (k : str) (l : list (str * V)) : option V :=
  match l with [] => None | (k', v) :: l' => if str_eqb k k' then Some v else assoc k l' end.

Definition lower_has (c : N) (s : str) : bool := existsb (fun x => ((x =? c) || (x + 32 =? c))%N) s.
Definition is_bytes (prefix : str) : bool := lower_has 98 prefix.
Definition is_raw (prefix : str) : bool := lower_has 114 prefix.

(** f-string text: doubled braces stand for single ones. Python's tokenizer, left to right *)
Fixpoint unbrace (s : str) : str :=
  match s with
  | c :: (d :: s') as r => if (((c =? 123) || (c =? 125)) && (c =? d))%N then c :: unbrace s' else c :: unbrace r
  | _ => s
  end.

Section Eval.
  Context (P : py).
  Notation V := (value P).
  Notation T := (state P).

  Definition keyword_value (s : str) : option V :=
    if str_eqb s (u "True") then Some (p_bool P true) else if str_eqb s (u "False") then Some (p_bool P false)
    else if str_eqb s (u "None") then Some (p_none P) else None.

  Definition negate (m : M T bool) : M T V := let* b := m in ret (p_bool P (negb b)).

  (** one comparison *)
  Definition compare (op : cmpop) (a b : V) : M T V :=
    match op with
    | Is => ret (p_bool P (p_same P a b))
    | IsNot => ret (p_bool P (negb (p_same P a b)))
    | NotInOp => let* c := p_compare P InOp a b in negate (p_truth P c)
    | _ => p_compare P op a b
    end.

  (** the value of [a op b op c ...]: stops at the first false one *)
  Section Chain.
    Context {A : Type} (ev : A -> M T V).
    Fixpoint chain (v : V) (rest : list (cmpop * A)) : M T V :=
      match rest with
      | [] => ret v
      | (op, e) :: rest' =>
          let* w := ev e in
          let* c := compare op v w in
          match rest' with
          | [] => ret c
          | _ => let* b := p_truth P c in if b then chain w rest' else ret c
          end
      end.

    (** elements of a display; starred ones are iterated *)
    Fixpoint elements (es : list (bool * A)) : M T (list V) :=
      match es with
      | [] => ret []
      | (st, e) :: es' =>
          let* v := ev e in
          let* xs := (if st : bool then let* g := p_iter P v in drain g else ret [v]) in
          let* ys := elements es' in
          ret (xs ++ ys)
      end.

    (** arguments: positional and keyword values *)
    Fixpoint arguments (args : list (stars * option str * A)) : M T (list V * list (str * V)) :=
      match args with
      | [] => ret ([], [])
      | (st, kw, e) :: args' =>
          let* v := ev e in
          let* (ps, ks) := (match st, kw with
                            | NoStar, None => ret ([v], [])
                            | NoStar, Some k => ret ([], [(k, v)])
                            | OneStar, _ => let* g := p_iter P v in let* xs := drain g in ret (xs, [])
                            | TwoStars, _ => let* ks := p_mapping P v in ret ([], ks)
                            end) in
          let* (ps', ks') := arguments args' in
          ret (ps ++ ps', ks ++ ks')
      end.

    Fixpoint all_true (es : list A) : M T bool :=
      match es with
      | [] => ret true
      | e :: es' => let* v := ev e in let* b := p_truth P v in if b then all_true es' else ret false
      end.
  End Chain.

  Definition bind_target (t : expr) (v : V) : M T (scope P) :=
    match t with Name s => ret [(s, v)] | _ => p_unpack P t v end.

  (** comprehensions: the elements, [k] is what one element is *)
  Section Comp.
    Context {B : Type} (ev : scope P -> expr -> M T V) (k : scope P -> M T B).
    Definition body_of (rho : scope P) (t : expr) (ifs : list expr) (inner : scope P -> gen B T) (v : V) : gen B T :=
      glift (let* bs := bind_target t v in
             let* ok := all_true (ev (bs ++ rho)) ifs in
             ret (if ok then inner (bs ++ rho) else gnil)).
    Fixpoint comp (rho : scope P) (cs : list clause) : gen B T :=
      match cs with
      | [] => glift (let* b := k rho in ret (gone b))
      | (t, it, ifs) :: cs' =>
          glift (let* v := ev rho it in let* g := p_iter P v in
                 ret (gflat g (body_of rho t ifs (fun rho => comp rho cs'))))
      end.
    (** the first iterable is evaluated at once *)
    Definition comp_start (rho : scope P) (cs : list clause) : M T (gen B T) :=
      match cs with
      | [] => ret gnil
      | (t, it, ifs) :: cs' =>
          let* v := ev rho it in let* g := p_iter P v in
          ret (gflat g (body_of rho t ifs (fun rho => comp rho cs')))
      end.
  End Comp.

  Fixpoint eval (rho : scope P) (e : expr) {struct e} : M T V :=
    match e with
    | Name s => match keyword_value s with
                | Some v => ret v
                | None => match assoc s rho with Some v => ret v | None => p_name P s end
                end
    | Number s => p_number P s
    | SimpleString prefix quote raw =>
        if is_bytes prefix then p_bytes P prefix raw else let* t := p_text P (is_raw prefix) raw in ret (p_str P t)
    | Concatenated l r => let* a := eval rho l in let* b := eval rho r in p_join P a b
    | FString prefix quote parts =>
        let* ts := mapM (fun p => match p with
                                  | inl raw => p_text P (is_raw prefix) (unbrace raw)
                                  | inr e => let* v := eval rho e in p_format P v
                                  end) parts in
        ret (p_str P (concat ts))
    | Attribute e a => let* v := eval rho e in p_attr P v a
    | Subscript e sl => let* v := eval rho e in let* xs := mapM (eval rho) sl in p_index P v xs
    | Call f args => let* vf := eval rho f in let* (ps, ks) := arguments (eval rho) args in p_call P vf ps ks
    | Not e => let* v := eval rho e in negate (p_truth P v)
    | BoolOp l op r =>
        let* v := eval rho l in
        let* b := p_truth P v in
        match op with
        | Or => if b then ret v else eval rho r
        | And => if b then eval rho r else ret v
        end
    | Modulo l r => let* a := eval rho l in let* b := eval rho r in p_mod P a b
    | Compare l rest => let* v := eval rho l in chain (eval rho) v rest
    | Tuple es => let* vs := elements (eval rho) es in p_tuple P vs
    | List es => let* vs := elements (eval rho) es in p_list P vs
    | Set_ es => let* vs := elements (eval rho) es in p_set P vs
    | Dict es => let* vs := mapM (fun kv => let* a := eval rho (fst kv) in let* b := eval rho (snd kv) in ret (a, b)) es in p_dict P vs
    | Lambda ps simple body => ret (p_lambda P rho ps simple body)
    | ListComp elt cs => let* g := comp_start eval (fun rho => eval rho elt) rho cs in let* vs := drain g in p_list P vs
    | SetComp elt cs => let* g := comp_start eval (fun rho => eval rho elt) rho cs in let* vs := drain g in p_set P vs
    | GeneratorExp elt cs => let* g := comp_start eval (fun rho => eval rho elt) rho cs in ret (p_generator P g)
    | DictComp k v cs =>
        let* g := comp_start eval (fun rho => let* a := eval rho k in let* b := eval rho v in ret (a, b)) rho cs in
        let* vs := drain g in p_dict P vs
    | Other n es => let* vs := mapM (eval rho) es in p_other P n vs
    end.
End Eval.
Arguments eval : clear implicits.
