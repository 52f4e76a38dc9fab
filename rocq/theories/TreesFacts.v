(** * Facts about traversals *)
From Coq Require Import String List NArith Bool Arith Lia Permutation.
From Verif Require Import Base PyStr Py Classes ClassesSpec Trees TreesSpec.
Import ListNotations.
Set Implicit Arguments.

Section NodeInd.
  Variable P : node -> Prop.
  Hypothesis H : forall i k cs, Forall P cs -> P (Node i k cs).
  Fixpoint node_induction (t : node) : P t :=
    match t with
    | Node i k cs => H i k ((fix go l : Forall P l := match l with [] => Forall_nil P | c :: l' => Forall_cons c (node_induction c) (go l') end) cs)
    end.
End NodeInd.

Section Visit.
  Variables (S : Type) (v : visitor S).

  Fixpoint traverse_all (l : list node) (s : S) : S * list note :=
    match l with
    | [] => (s, [])
    | c :: l' => let (s', r) := traverse v c s in let (s'', r') := traverse_all l' s' in (s'', r ++ r')
    end.

  Lemma traverse_eq : forall i k cs s,
    traverse v (Node i k cs) s =
    let (s1, r1) := v_visit v (Node i k cs) s in
    let (s2, r2) := traverse_all cs s1 in
    let (s3, r3) := v_leave v (Node i k cs) s2 in (s3, r1 ++ r2 ++ r3).
  Proof.
    intros i k cs s. cbn [traverse]. destruct (v_visit v (Node i k cs) s) as [s1 r1].
    assert (E : forall l s, (fix go l s := match l with [] => (s, []) | c :: l' => let (s', r) := traverse v c s in let (s'', r') := go l' s' in (s'', r ++ r') end) l s
                 = traverse_all l s).
    { induction l as [|c l IH]; intro s0; [reflexivity|]. cbn [traverse_all]. destruct (traverse v c s0) as [s' r]. now rewrite IH. }
    now rewrite E.
  Qed.

  Lemma traverse_all_app : forall l1 l2 s, fst (traverse_all (l1 ++ l2) s) = fst (traverse_all l2 (fst (traverse_all l1 s))).
  Proof.
    induction l1 as [|c l1 IH]; intros l2 s; [reflexivity|]. cbn [app traverse_all]. destruct (traverse v c s) as [s' r].
    specialize (IH l2 s'). destruct (traverse_all (l1 ++ l2) s'), (traverse_all l1 s'). exact IH.
  Qed.

  (** The state when a node at a place begins. *)
  Fixpoint state_at (s0 : S) (p : place) : S :=
    match p with
    | [] => s0
    | (a, before) :: p' => fst (traverse_all before (fst (v_visit v a (state_at s0 p'))))
    end.

  Fixpoint preorder_all (t : node) (p : place) (before l : list node) : list (place * node) :=
    match l with [] => [] | c :: l' => preorder ((t, before) :: p) c ++ preorder_all t p (before ++ [c]) l' end.
  Fixpoint postorder_all (t : node) (p : place) (before l : list node) : list (place * node) :=
    match l with [] => [] | c :: l' => postorder ((t, before) :: p) c ++ postorder_all t p (before ++ [c]) l' end.

  Lemma preorder_eq : forall p i k cs, preorder p (Node i k cs) = (p, Node i k cs) :: preorder_all (Node i k cs) p [] cs.
  Proof.
    intros p i k cs. cbn [preorder]. f_equal. remember (Node i k cs) as t eqn:Et. clear Et.
    assert (E : forall l before, (fix go (before l : list node) {struct l} := match l with [] => [] | c :: l' => preorder ((t, before) :: p) c ++ go (before ++ [c]) l' end) before l = preorder_all t p before l).
    { induction l as [|c l IH]; intros before; [reflexivity|]. cbn [preorder_all]. now rewrite IH. }
    apply E.
  Qed.
  Lemma postorder_eq : forall p i k cs, postorder p (Node i k cs) = postorder_all (Node i k cs) p [] cs ++ [(p, Node i k cs)].
  Proof.
    intros p i k cs. cbn [postorder]. f_equal. remember (Node i k cs) as t eqn:Et. clear Et.
    assert (E : forall l before, (fix go (before l : list node) {struct l} := match l with [] => [] | c :: l' => postorder ((t, before) :: p) c ++ go (before ++ [c]) l' end) before l = postorder_all t p before l).
    { induction l as [|c l IH]; intros before; [reflexivity|]. cbn [postorder_all]. now rewrite IH. }
    apply E.
  Qed.

  (** Reports made when nodes begin. *)
  Lemma visit_reports : (forall t s, snd (v_leave v t s) = []) -> forall s0 t p,
    snd (traverse v t (state_at s0 p)) = flat_map (fun pn => snd (v_visit v (snd pn) (state_at s0 (fst pn)))) (preorder p t).
  Proof.
    intros Hl s0. induction t as [i k cs IH] using node_induction. intro p. rewrite traverse_eq, preorder_eq. cbn [flat_map fst snd].
    destruct (v_visit v (Node i k cs) (state_at s0 p)) as [s1 r1] eqn:V.
    assert (E : snd (traverse_all cs s1) = flat_map (fun pn => snd (v_visit v (snd pn) (state_at s0 (fst pn)))) (preorder_all (Node i k cs) p [] cs)).
    { assert (G : forall l before, Forall (fun t => forall p, snd (traverse v t (state_at s0 p)) = flat_map (fun pn => snd (v_visit v (snd pn) (state_at s0 (fst pn)))) (preorder p t)) l ->
        snd (traverse_all l (state_at s0 ((Node i k cs, before) :: p))) =
        flat_map (fun pn => snd (v_visit v (snd pn) (state_at s0 (fst pn)))) (preorder_all (Node i k cs) p before l)).
      { induction l as [|c l IHl]; intros before F; [reflexivity|]. inversion F as [|? ? Fc Fl]; subst.
        cbn [traverse_all preorder_all]. rewrite flat_map_app, <- Fc, <- IHl by exact Fl.
        assert (Q : fst (traverse v c (state_at s0 ((Node i k cs, before) :: p))) = state_at s0 ((Node i k cs, before ++ [c]) :: p)).
        { cbn [state_at]. rewrite traverse_all_app. cbn [traverse_all]. destruct (traverse v c _); reflexivity. }
        rewrite <- Q. destruct (traverse v c _) as [s' r]. cbn [fst]. destruct (traverse_all l s'). reflexivity. }
      specialize (G cs [] IH). cbn [state_at traverse_all fst] in G. rewrite V in G. exact G. }
    destruct (traverse_all cs s1) as [s2 r2]. cbn [snd] in E. specialize (Hl (Node i k cs) s2). destruct (v_leave v (Node i k cs) s2) as [s3 r3].
    cbn [snd] in *. subst r3. now rewrite app_nil_r, E.
  Qed.

  (** ... and when they end. *)
  Definition state_after (s0 : S) (p : place) (t : node) : S := fst (traverse_all (children t) (fst (v_visit v t (state_at s0 p)))).

  Lemma leave_reports : (forall t s, snd (v_visit v t s) = []) -> forall s0 t p,
    snd (traverse v t (state_at s0 p)) = flat_map (fun pn => snd (v_leave v (snd pn) (state_after s0 (fst pn) (snd pn)))) (postorder p t).
  Proof.
    intros Hv s0. induction t as [i k cs IH] using node_induction. intro p. rewrite traverse_eq, postorder_eq. rewrite flat_map_app. cbn [flat_map fst snd].
    unfold state_after at 2. cbn [children]. pose proof (Hv (Node i k cs) (state_at s0 p)) as V1.
    destruct (v_visit v (Node i k cs) (state_at s0 p)) as [s1 r1] eqn:V. cbn [snd] in V1. subst r1. cbn [fst].
    assert (E : snd (traverse_all cs s1) = flat_map (fun pn => snd (v_leave v (snd pn) (state_after s0 (fst pn) (snd pn)))) (postorder_all (Node i k cs) p [] cs)).
    { assert (G : forall l before, Forall (fun t => forall p, snd (traverse v t (state_at s0 p)) = flat_map (fun pn => snd (v_leave v (snd pn) (state_after s0 (fst pn) (snd pn)))) (postorder p t)) l ->
        snd (traverse_all l (state_at s0 ((Node i k cs, before) :: p))) =
        flat_map (fun pn => snd (v_leave v (snd pn) (state_after s0 (fst pn) (snd pn)))) (postorder_all (Node i k cs) p before l)).
      { induction l as [|c l IHl]; intros before F; [reflexivity|]. inversion F as [|? ? Fc Fl]; subst.
        cbn [traverse_all postorder_all]. rewrite flat_map_app, <- Fc, <- IHl by exact Fl.
        assert (Q : fst (traverse v c (state_at s0 ((Node i k cs, before) :: p))) = state_at s0 ((Node i k cs, before ++ [c]) :: p)).
        { cbn [state_at]. rewrite traverse_all_app. cbn [traverse_all]. destruct (traverse v c _); reflexivity. }
        rewrite <- Q. destruct (traverse v c _) as [s' r]. cbn [fst]. destruct (traverse_all l s'). reflexivity. }
      specialize (G cs [] IH). cbn [state_at traverse_all fst] in G. rewrite V in G. exact G. }
    destruct (traverse_all cs s1) as [s2 r2]. cbn [snd fst] in E |- *. destruct (v_leave v (Node i k cs) s2) as [s3 r3].
    cbn [snd app]. now rewrite app_nil_r, E.
  Qed.
End Visit.

(** From a decision per place to a selection of places. *)
Lemma select : forall A B (f : A -> list B) (g : A -> B) (P : A -> Prop) l,
  (forall x, In x l -> (P x /\ f x = [g x]) \/ (~ P x /\ f x = [])) ->
  exists sel, keeps P l sel /\ flat_map f l = map g sel.
Proof.
  intros A B f g P l. induction l as [|x l IH]; intro H; [exists []; split; constructor|].
  destruct IH as (sel & K & E); [intros; apply H; simpl; auto|]. cbn [flat_map].
  destruct (H x (or_introl eq_refl)) as [[Hx ->]|[Hx ->]].
  - exists (x :: sel). split; [now apply keeps_one|]. cbn [map app]. now rewrite E.
  - exists sel. split; [now apply keeps_not|]. exact E.
Qed.

(** Places in a tree *)
Lemma within_children : forall n t, within n t <-> n = t \/ exists c, In c (children t) /\ within n c.
Proof.
  intros n t. split.
  - destruct 1 as [|i k cs c I W]; auto. right. exists c. auto.
  - intros [->|(c & I & W)]; [constructor|]. destruct t as [i k cs]. eapply within_below; eauto.
Qed.

Lemma select_rel : forall A B (f : A -> list B) (R : A -> B -> Prop) (P : A -> Prop) l,
  (forall x, In x l -> (P x /\ exists y, f x = [y] /\ R x y) \/ (~ P x /\ f x = [])) ->
  exists sel, keeps P l sel /\ Forall2 R sel (flat_map f l).
Proof.
  intros A B f R P l. induction l as [|x l IH]; intro H; [exists []; split; constructor|].
  destruct IH as (sel & K & E); [intros; apply H; simpl; auto|]. cbn [flat_map].
  destruct (H x (or_introl eq_refl)) as [[Hx (y & -> & Hy)]|[Hx ->]].
  - exists (x :: sel). split; [now apply keeps_one|]. constructor; auto.
  - exists sel. split; [now apply keeps_not|]. exact E.
Qed.

(** Identities *)
Fixpoint ids (t : node) : list N := match t with Node i _ cs => i :: flat_map ids cs end.

Lemma preorder_ids : forall t p, map (fun pn => node_id (snd pn)) (preorder p t) = ids t.
Proof.
  induction t as [i k cs IH] using node_induction. intro p. rewrite preorder_eq. cbn [map ids snd node_id]. f_equal.
  assert (G : forall l before, Forall (fun t => forall p, map (fun pn => node_id (snd pn)) (preorder p t) = ids t) l ->
    map (fun pn => node_id (snd pn)) (preorder_all (Node i k cs) p before l) = flat_map ids l).
  { induction l as [|c l IHl]; intros before F; [reflexivity|]. inversion F as [|? ? Fc Fl]; subst.
    cbn [preorder_all flat_map]. rewrite map_app, Fc, IHl; auto. }
  apply G, IH.
Qed.

Definition place_ids (p : place) : list N := flat_map (fun ab => node_id (fst ab) :: flat_map ids (snd ab)) p.

Lemma in_preorder_all : forall t p l before p' n, In (p', n) (preorder_all t p before l) ->
  exists l1 c l2, l = l1 ++ c :: l2 /\ In (p', n) (preorder ((t, before ++ l1) :: p) c).
Proof.
  intros t p. induction l as [|c l IH]; intros before p' n I; [destruct I|]. cbn [preorder_all] in I. apply in_app_or in I. destruct I as [I|I].
  - exists [], c, l. rewrite app_nil_r. auto.
  - destruct (IH _ _ _ I) as (l1 & c' & l2 & -> & I'). exists (c :: l1), c', l2. rewrite <- app_assoc in I'. auto.
Qed.

Lemma place_distinct : forall t p, NoDup (place_ids p ++ ids t) -> forall p' n, In (p', n) (preorder p t) -> NoDup (place_ids p' ++ ids n).
Proof.
  induction t as [i k cs IH] using node_induction. intros p N p' n I. rewrite preorder_eq in I. destruct I as [I|I].
  - injection I as <- <-. exact N.
  - apply in_preorder_all in I. destruct I as (l1 & c & l2 & E & I). cbn [app] in I. rewrite Forall_forall in IH.
    apply (IH c) with (p := (Node i k cs, l1) :: p); auto; [rewrite E; apply in_or_app; simpl; auto|].
    cbn [ids] in N. rewrite E in N. rewrite flat_map_app in N. cbn [flat_map] in N.
    cbn [place_ids flat_map fst snd node_id]. fold (place_ids p).
    assert (N' : NoDup ((i :: flat_map ids l1 ++ ids c ++ flat_map ids l2) ++ place_ids p)).
    { eapply Permutation_NoDup; [apply Permutation_app_comm|]. exact N. }
    eapply Permutation_NoDup with (l' := (i :: flat_map ids l1 ++ ids c ++ flat_map ids l2) ++ place_ids p) in N'; [|apply Permutation_refl].
    assert (Pm : Permutation ((i :: flat_map ids l1 ++ ids c ++ flat_map ids l2) ++ place_ids p)
                             ((((i :: flat_map ids l1) ++ place_ids p) ++ ids c) ++ flat_map ids l2)).
    { cbn [app]. constructor. rewrite <- !app_assoc. apply Permutation_app_head.
      transitivity ((place_ids p) ++ ids c ++ flat_map ids l2); [|apply Permutation_refl].
      rewrite app_assoc. rewrite (Permutation_app_comm (ids c ++ flat_map ids l2)). now rewrite <- ?app_assoc. }
    apply (Permutation_NoDup Pm) in N'. clear - N'. revert N'. generalize (((i :: flat_map ids l1) ++ place_ids p) ++ ids c) as a. generalize (flat_map ids l2) as b.
    intros b a N. induction a as [|x a IH]; [constructor|]. cbn [app] in N. inversion N as [|? ? N1 N2]; subst. constructor; [|auto].
    intro K. apply N1. apply in_or_app. auto.
Qed.
