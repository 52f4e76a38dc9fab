(** * What a user expects of fixing a whole program (C76) *)
From Coq Require Import String List NArith ZArith Bool Arith.
From Verif Require Import Base PyStr Py Rules RulesSpec Whole.
Import ListNotations.

(** The program after n runs *)
Fixpoint runs (run : expr -> expr) (n : nat) (e : expr) : expr := match n with 0 => e | S n => runs run n (run e) end.

(** Nothing more to fix: no rule has a fix for any part *)
Definition finished (rules : list (expr -> res report)) (e : expr) : Prop :=
  forall x rule e', List.In x (subnodes e) -> List.In rule rules -> rule x <> Ok (Some (Some e')).

(** A rule raises at some node. *)
Definition raises (rules : list (expr -> res report)) (e : expr) : Prop :=
  exists x rule err, List.In x (subnodes e) /\ List.In rule rules /\ rule x = Err err.

(** Some part of the program compares a literal with None, True or False, by is or by ==. *)
Fixpoint pair_in (Q : expr -> cmpop -> expr -> Prop) (l : expr) (rest : list (cmpop * expr)) : Prop :=
  match rest with [] => False | (op, r) :: rest' => Q l op r \/ pair_in Q r rest' end.
Definition literal_and_singleton (qual : expr -> bool) (l : expr) (op : cmpop) (r : expr) : Prop :=
  List.In op [Is; IsNot; Equal; NotEqual] /\
  ((primitive l = true /\ exists n, r = Name n /\ qual r = true) \/ (primitive r = true /\ exists n, l = Name n /\ qual l = true)).
Definition mixed_comparison (qual : expr -> bool) (e : expr) : Prop :=
  exists l rest, List.In (Compare l rest) (subnodes e) /\ pair_in (literal_and_singleton qual) l rest.

(** ** Meaning *)

(** targets of comprehensions: names, and tuples and lists of targets *)
Inductive plain_target : expr -> Prop :=
  | PT_name : forall n, plain_target (Name n)
  | PT_tuple : forall es, Forall (fun x : bool * expr => plain_target (snd x)) es -> plain_target (Tuple es)
  | PT_list : forall es, Forall (fun x : bool * expr => plain_target (snd x)) es -> plain_target (List es).

(** the clauses and the parameters of a node *)
Definition clauses_of (e : expr) : list clause :=
  match e with ListComp _ cs | SetComp _ cs | GeneratorExp _ cs | DictComp _ _ cs => cs | _ => [] end.
Definition params_of (e : expr) : list str := match e with Lambda ps _ _ => ps | _ => [] end.

(** [R]: names that must keep their meaning ("list", "self" ...): no lambda and no comprehension of
    the program binds them. *)
Definition binds_no (R : str -> Prop) (e : expr) : Prop := forall x n, List.In x (subnodes e) -> R n ->
  ~ List.In n (params_of x) /\ forall t it ifs, List.In (t, it, ifs) (clauses_of x) -> ~ mentions n t.
Definition plain_targets (e : expr) : Prop := forall x t it ifs, List.In x (subnodes e) -> List.In (t, it, ifs) (clauses_of x) -> plain_target t.
Definition free_scope (P : py) (R : str -> Prop) (rho : scope P) : Prop := forall n, R n -> assoc n rho = None.

(** Python: an assignment binds names of its target; functions whose bodies mean the same whatever their
    parameters are bound to are the same. *)
Definition assignment_law (P : py) : Prop := forall t v s bs s' n w, p_unpack P t v s = (Ok bs, s') -> List.In (n, w) bs -> mentions n t.
Definition function_law (P : py) : Prop := forall rho ps simple body body',
  (forall bs, (forall n w, List.In (n, w) bs -> List.In n ps) -> same_meaning P (bs ++ rho) body body') ->
  p_lambda P rho ps simple body = p_lambda P rho ps simple body'.
