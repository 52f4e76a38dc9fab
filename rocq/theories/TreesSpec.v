(** * Vocabulary for rules over trees: places in a tree *)
From Coq Require Import String List NArith Bool Arith.
From Verif Require Import Base Py Classes Trees.
Import ListNotations.
Set Implicit Arguments.

(** Where a node stands: its ancestors from the nearest to the root, each with the children before the one on the way. *)
Definition place := list (node * list node).

(** All nodes with their places in the order in which they begin, and in which they end. *)
Fixpoint preorder (p : place) (t : node) : list (place * node) :=
  match t with
  | Node i k cs =>
      (p, t) :: (fix go before l := match l with
                                    | [] => []
                                    | c :: l' => preorder ((t, before) :: p) c ++ go (before ++ [c]) l'
                                    end) [] cs
  end.

Fixpoint postorder (p : place) (t : node) : list (place * node) :=
  match t with
  | Node i k cs =>
      (fix go before l := match l with
                          | [] => []
                          | c :: l' => postorder ((t, before) :: p) c ++ go (before ++ [c]) l'
                          end) [] cs ++ [(p, t)]
  end.

(** [n] is [t] or stands somewhere below it. *)
Inductive within (n : node) : node -> Prop :=
| within_here : within n n
| within_below : forall i k cs c, In c cs -> within n c -> within n (Node i k cs).

Definition is_function (n : node) : Prop := exists a ps, node_kind n = FunctionNode a ps.
Definition is_annotation (n : node) : Prop := node_kind n = AnnotationNode.

(** An expression that is a dotted name. *)
Inductive dotted_name : list str -> expr -> Prop :=
| dotted_one : forall x, dotted_name [x] (Name x)
| dotted_more : forall l e x, dotted_name l e -> dotted_name (l ++ [x]) (Attribute e x).

(** The names of the classes around a place, outermost first. *)
Fixpoint classes_around (p : place) : list str :=
  match p with
  | [] => []
  | (a, _) :: p' => classes_around p' ++ match node_kind a with ClassNode n => [n] | _ => [] end
  end.

(** The nearest function around a place is asynchronous, and no function has ended since it began. *)
Definition directly_in_async (p : place) : Prop :=
  exists inner f before outer ps, p = inner ++ (f, before) :: outer /\ node_kind f = FunctionNode true ps /\
    (forall a bs, In (a, bs) inner -> ~ is_function a) /\
    (forall a bs, In (a, bs) ((f, before) :: inner) -> forall c n, In c bs -> within n c -> ~ is_function n).

(** The nearest function is asynchronous. *)
Definition in_async (p : place) : Prop :=
  exists inner f before outer ps, p = inner ++ (f, before) :: outer /\ node_kind f = FunctionNode true ps /\
    (forall a bs, In (a, bs) inner -> ~ is_function a).

Definition in_annotation (p : place) : Prop := exists a bs, In (a, bs) p /\ is_annotation a.

(** [from __future__ import ..., annotations, ...] *)
Definition is_future_import (n : node) : Prop :=
  exists l, node_kind n = ImportFromNode (Some (Name (u "__future__"))) (Some l) /\ In (Name (u "annotations")) l.

(** ... stands before the place. *)
Definition future_before (p : place) : Prop :=
  exists a bs, In (a, bs) p /\ (is_future_import a \/ exists c n, In c bs /\ within n c /\ is_future_import n).

(** Inside a Literal[...] that itself is part of an annotation after the import. *)
Definition in_literal (p : place) : Prop :=
  exists inner a before outer names, p = inner ++ (a, before) :: outer /\ node_kind a = SubscriptNode names /\
    (In (u "typing.Literal") names \/ In (u "typing_extensions.Literal") names) /\ in_annotation outer /\ future_before outer.

(** Nodes are different objects. *)
Definition distinct (t : node) : Prop := NoDup (map (fun pn => node_id (snd pn)) (preorder [] t)).
