(** * Capture: the wrapper around generators (fixit/util.py 20-66) *)
From Coq Require Import String List NArith Bool Arith.
From Verif Require Import Base.
Import ListNotations.
Set Implicit Arguments.

Section Capture.
  Variables Y S R : Type.

  (** A generator that yields [Y], is sent [S] or None, and returns [R]. *)
  Inductive gen := GRet (r : R) | GRaise (e : exn) | GYield (y : Y) (k : option S -> gen).

  (** Python's generator objects. *)
  Inductive gstate := NotStarted (g : gen) | Suspended (k : option S -> gen) | Finished.

  (** The outcome of [send]: a value, StopIteration (with the return value, None if the generator
      was finished already) or another exception. *)
  Inductive out := Item (y : Y) | Stop (r : option R) | Exc (e : exn).

  Definition resume (g : gen) : gstate * out :=
    match g with
    | GRet r => (Finished, Stop (Some r))
    | GRaise e => (Finished, Exc e)
    | GYield y k => (Suspended k, Item y)
    end.

  (** [generator.send(v)] *)
  Definition send (st : gstate) (v : option S) : gstate * out :=
    match st with
    | NotStarted g => match v with
                      | None => resume g
                      | Some _ => (st, Exc TypeError)   (* can't send non-None to a just-started generator *)
                      end
    | Suspended k => resume (k v)
    | Finished => (Finished, Stop None)
    end.

  (** util.py 38-41: the attributes; [c_result]: [None] is Sentinel *)
  Record cap := Cap { c_gen : gstate; c_send : option S; c_result : option (option R) }.

  Definition new_cap (g : gen) : cap := Cap (NotStarted g) None None.

  (** util.py 43-53: an iterator made by [__iter__]: not started, waiting at its yield, finished *)
  Inductive iter := INew | IWaiting | IDone.

  (** util.py 46-48 and 51-53: one turn of the loop up to the yield or the end *)
  Definition turn (c : cap) : cap * iter * out :=
    match send (c_gen c) (c_send c) with
    | (g, Item y) => (Cap g None (c_result c), IWaiting, Item y)
    | (g, Stop r) => (Cap g (c_send c) (Some r), IDone, Stop r)
    | (g, Exc e) => (Cap g (c_send c) (c_result c), IDone, Exc e)
    end.

  (** [next(it)] (with [None]) and [it.send(v)] *)
  Definition it_send (c : cap) (it : iter) (v : option S) : cap * iter * out :=
    match it with
    | INew => match v with
              | None => turn c
              | Some _ => (c, INew, Exc TypeError)
              end
    | IWaiting =>
        turn (match v with None => c | Some _ => Cap (c_gen c) v (c_result c) end)   (* util.py 49-50 *)
    | IDone => (c, IDone, Stop None)
    end.

  (** util.py 55-61 [respond] *)
  Definition respond (c : cap) (a : S) : cap := Cap (c_gen c) (Some a) (c_result c).

  (** util.py 63-70 [result] *)
  Definition result_of (c : cap) : res (option R) :=
    match c_result c with None => Err ValueError | Some r => Ok r end.

  (** A caller that iterates once: before each step it may respond any number of times. *)
  Fixpoint use (c : cap) (it : iter) (rounds : list (list S * option S)) : cap * iter * list out :=
    match rounds with
    | [] => (c, it, [])
    | (rs, v) :: rounds' =>
        let '(c, it, o) := it_send (fold_left respond rs c) it v in
        let '(c, it, os) := use c it rounds' in
        (c, it, o :: os)
    end.
End Capture.
Arguments GRet {Y S R} r.
Arguments GRaise {Y S R} e.
Arguments GYield {Y S R} y k.
Arguments NotStarted {Y S R} g.
Arguments Suspended {Y S R} k.
Arguments Finished {Y S R}.
Arguments Item {Y R} y.
Arguments Stop {Y R} r.
Arguments Exc {Y R} e.
