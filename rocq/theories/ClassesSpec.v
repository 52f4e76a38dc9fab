(** * Vocabulary for the properties about classes: Python's method resolution order (C3) *)
From Coq Require Import String List NArith Bool Arith Permutation.
Import ListNotations.
Set Implicit Arguments.

Section C3.
  Context {C : Type}.

  (** A class can come next if it is in no list behind the first place. *)
  Definition good (ls : list (list C)) (h : C) : Prop := forall l, In l ls -> ~ In h (tl l).

  (** The next class is the head of the first list with a good head. *)
  Definition picks (ls : list (list C)) (h : C) : Prop :=
    exists l1 t l2, ls = l1 ++ (h :: t) :: l2 /\ good ls h /\
      forall x t', In (x :: t') l1 -> ~ good ls x.

  (** [l'] is [l] without the class [h] at its head. *)
  Definition without (h : C) (l l' : list C) : Prop := l = h :: l' \/ (l' = l /\ hd_error l <> Some h).

  (** The merge of the lists, if there is one. *)
  Inductive merges : list (list C) -> list C -> Prop :=
  | merges_end : forall ls, (forall l, In l ls -> l = []) -> merges ls []
  | merges_next : forall ls ls' h out,
      picks ls h -> Forall2 (without h) ls ls' -> merges ls' out -> merges ls (h :: out).

  (** The method resolution order of a new class [c] with the given base classes (object if there is none),
      [L] being the orders of the existing classes. *)
  Definition new_class (object_ : C) (L : C -> list C) (c : C) (bases mro : list C) : Prop :=
    let bases := match bases with [] => [object_] | _ => bases end in
    exists out, mro = c :: out /\ merges (map L bases ++ [bases]) out.

  (** What every existing hierarchy looks like: a class comes first, object after it. *)
  Definition hierarchy (object_ : C) (L : C -> list C) : Prop :=
    L object_ = [object_] /\
    forall b, b <> object_ -> exists t, L b = b :: t /\ In object_ t.
End C3.

(** [l'] is [l] with exactly the elements of [P], in the same order. *)
Inductive keeps {A} (P : A -> Prop) : list A -> list A -> Prop :=
| keeps_end : keeps P [] []
| keeps_one : forall x l l', P x -> keeps P l l' -> keeps P (x :: l) (x :: l')
| keeps_not : forall x l l', ~ P x -> keeps P l l' -> keeps P (x :: l) l'.

(** [a] comes before [b] in [l]. *)
Definition precedes {A} (a b : A) (l : list A) : Prop := exists x y z, l = x ++ a :: y ++ b :: z.

(** Executing steps that may fail one after the other. *)
Fixpoint execute {S A} (step : A -> S -> option S) (l : list A) (s : S) : option S :=
  match l with
  | [] => Some s
  | a :: l' => match step a s with Some s' => execute step l' s' | None => None end
  end.

Definition commute {S A} (step : A -> S -> option S) (a b : A) : Prop :=
  forall s, execute step [a; b] s = execute step [b; a] s.
