(** * Paths: the pathlib operations used by fixit

    An absolute POSIX path is the list of its components; the root directory is [[]].
    Simplification: no symbolic links, so that [Path.resolve] is lexical. *)
From Coq Require Import String List NArith Bool Arith Lia.
From Verif Require Import Base PyStr Ftypes.
Import ListNotations.
Set Implicit Arguments.

(** [p.parent] (the root is its own parent) *)
Definition parent (p : path) : path := removelast p.

(** [p.relative_to(q)] succeeds *)
Fixpoint is_prefix (q p : path) : bool :=
  match q, p with
  | [], _ => true
  | x :: q', y :: p' => str_eqb x y && is_prefix q' p'
  | _ :: _, [] => false
  end.

Definition path_eqb : path -> path -> bool := list_eqb str_eqb.

(** The parts of a path given as text: empty and "." components vanish. '/' is 47. *)
Definition parts (s : str) : list str :=
  filter (fun c => negb (str_eqb c [] || str_eqb c (u "."))) (split 47 s).

(** [Path(s).is_absolute()] *)
Definition is_absolute (s : str) : bool := startswith (u "/") s.

(** [base / s] *)
Definition joinpath (base : path) (s : str) : path :=
  if is_absolute s then parts s else base ++ parts s.

(** [p.resolve()]: ".." removes the component before it *)
Definition resolve (p : path) : path :=
  fold_left (fun acc c => if str_eqb c (u "..") then removelast acc else acc ++ [c]) p [].

(** ** Facts *)

Lemma is_prefix_spec : forall q p, is_prefix q p = true <-> exists t, p = q ++ t.
Proof.
  induction q as [|x q IH]; intros [|y p]; simpl; split; intro H; eauto.
  - discriminate.
  - destruct H as (t & H). discriminate.
  - apply andb_true_iff in H. destruct H as [H1 H2]. apply str_eqb_eq in H1. subst.
    apply IH in H2. destruct H2 as (t & ->). eauto.
  - destruct H as (t & H). injection H as -> ->. rewrite str_eqb_refl. apply IH. eauto.
Qed.

Lemma is_prefix_refl : forall p, is_prefix p p = true.
Proof. intro p. apply is_prefix_spec. exists []. now rewrite app_nil_r. Qed.

Lemma path_eqb_eq : forall p q, path_eqb p q = true <-> p = q.
Proof. apply list_eqb_spec. apply str_eqb_eq. Qed.

Lemma path_eqb_refl : forall p, path_eqb p p = true.
Proof. intro. now apply path_eqb_eq. Qed.

Lemma resolve_nodots : forall p, ~ In (u "..") p -> resolve p = p.
Proof.
  intros p. unfold resolve.
  assert (H : forall l acc, ~ In (u "..") l ->
    fold_left (fun acc c => if str_eqb c (u "..") then removelast acc else acc ++ [c]) l acc = acc ++ l).
  { induction l as [|c l IH]; intros acc Hn; cbn [fold_left].
    - now rewrite app_nil_r.
    - destruct (str_eqb c (u "..")) eqn:E.
      + apply str_eqb_eq in E. subst. exfalso. apply Hn. simpl. auto.
      + rewrite IH by (intro; apply Hn; simpl; auto). now rewrite <- app_assoc. }
  intro Hn. now rewrite H.
Qed.

Lemma in_removelast : forall A (x : A) l, In x (removelast l) -> In x l.
Proof.
  intros A x l. induction l as [|y l IH]; simpl; auto.
  destruct l as [|z l]; simpl in *; [tauto|]. intros [H|H]; auto.
Qed.

Lemma resolve_has_nodots : forall p, ~ In (u "..") (resolve p).
Proof.
  intros p. unfold resolve.
  assert (H : forall l acc, ~ In (u "..") acc -> ~ In (u "..")
    (fold_left (fun acc c => if str_eqb c (u "..") then removelast acc else acc ++ [c]) l acc)).
  { induction l as [|c l IH]; intros acc Hn; cbn [fold_left]; auto.
    apply IH. destruct (str_eqb c (u "..")) eqn:E.
    - intro Hi. apply Hn. now apply in_removelast in Hi.
    - apply str_eqb_neq in E. intro Hi. apply in_app_iff in Hi.
      destruct Hi as [Hi|[Hi|[]]]; [auto | congruence]. }
  apply H. intros [].
Qed.

Lemma resolve_idem : forall p, resolve (resolve p) = resolve p.
Proof. intro p. apply resolve_nodots, resolve_has_nodots. Qed.
