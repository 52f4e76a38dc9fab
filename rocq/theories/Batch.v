(** * Batch: several rules in one traversal, and the time they take (engine.py 57-118, rule.py 267-281) *)
From Coq Require Import String List NArith ZArith Bool Arith.
From Verif Require Import Base PyStr Ftypes Suppress Cst Engine.
Import ListNotations.
Set Implicit Arguments.

(** A node as LibCST traverses it: an identity, the name of its type, its attributes in order with the nodes in them. *)
Inductive cst := Cst (id : N) (type : str) (attributes : list (str * list cst)).

(** LibCST (trusted): the methods called for a tree, in order, each with the node. [CSTNode.visit] and the
    [on_visit_attribute], [on_leave_attribute] calls around each attribute; a batched visitor always visits children. *)
Fixpoint calls (t : cst) : list (str * cst) :=
  match t with
  | Cst _ type attrs =>
      (u "visit_" ++ type, t) ::
      flat_map (fun a => match a with
                         | (name, cs) => (u "visit_" ++ type ++ u "_" ++ name, t) ::
                                         flat_map calls cs ++ [(u "leave_" ++ type ++ u "_" ++ name, t)]
                         end) attrs ++
      [(u "leave_" ++ type, t)]
  end.

(** A rule instance: its class, the methods it has (any functions of its own state, which may raise), its state, and what
    of it [collect_violations] uses afterwards: name and violations. *)
Record actor := Actor {
  a_class : str;
  a_state : Type;
  a_method : str -> option (cst -> a_state -> res a_state);
  a_now : a_state;
  a_rule : a_state -> rule }.

Definition with_state (a : actor) (s : a_state a) : actor := Actor (a_class a) (a_method a) s (a_rule a).
Definition rule_of (a : actor) : rule := a_rule a (a_now a).

Section Clock.
  (** How many microseconds the n-th call of a method takes: any numbers. *)
  Context (took : nat -> nat).

  Definition duration_key (class method : str) : str := u "Duration." ++ class ++ u "." ++ method.

  (** engine.py 71-79 [visit_hook] around rule.py 269-274: [self.metrics[...] += duration_us]. When the method raises, the
      metrics are lost with the generator. *)
  Definition add_time (class method : str) (n : nat) (m : metrics) : metrics :=
    let k := duration_key class method in
    dset k (match dget k m with Some x => x | None => 0 end + took n) m.

  (** LibCST's [_BatchedCSTVisitor]: the methods of that name, in the order of the rules *)
  Fixpoint call_all (method : str) (t : cst) (actors : list actor) (m : metrics) (n : nat) : res (list actor * metrics * nat) :=
    match actors with
    | [] => Ok ([], m, n)
    | a :: rest =>
        match a_method a method with
        | None => let! '(rest', m', n') := call_all method t rest m n in Ok (a :: rest', m', n')
        | Some f =>
            let! s := f t (a_now a) in
            let! '(rest', m', n') := call_all method t rest (add_time (a_class a) method n m) (S n) in
            Ok (with_state a s :: rest', m', n')
        end
    end.

  Fixpoint run_calls (cs : list (str * cst)) (actors : list actor) (m : metrics) (n : nat) : res (list actor * metrics * nat) :=
    match cs with
    | [] => Ok (actors, m, n)
    | (method, t) :: cs' => let! '(actors', m', n') := call_all method t actors m n in run_calls cs' actors' m' n'
    end.

  (** engine.py 98 [visit_batched], with what collect_violations then reads. (81-97, the metadata: any values, as the methods
      are any functions; shared metadata that a method changes is not covered, see C69.) *)
  Definition visit_batched (t : cst) (actors : list actor) : res (list rule * metrics) :=
    let! '(actors', m, _) := run_calls (calls t) actors [] 0 in Ok (map rule_of actors', m).

  (** engine.py 57-118, from the rules as they are before the traversal *)
  Definition lint_with (udiff : str -> str -> str) (md : module) (t : cst) (actors : list actor) (hook : bool) : list event * res nat :=
    collect_violations udiff md (visit_batched t actors) hook.
End Clock.
