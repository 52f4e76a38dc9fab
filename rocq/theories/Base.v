(** * Base: Python values shared by all models

    Strings are lists of Unicode code points, exceptions are values, dicts are
    association lists in insertion order, sets are duplicate free lists whose order
    stands for an arbitrary iteration order. *)
From Coq Require Import List NArith ZArith Bool Arith Lia String Ascii Permutation Sorted.
Import ListNotations.
Set Implicit Arguments.

(** ** Strings *)

(** A Python [str]: the list of its code points. *)
Definition str := list N.

(** String literals of the source. *)
Definition u (s : string) : str := map N_of_ascii (list_ascii_of_string s).

Fixpoint list_eqb {A} (eqb : A -> A -> bool) (a b : list A) : bool :=
  match a, b with
  | [], [] => true
  | x :: a', y :: b' => eqb x y && list_eqb eqb a' b'
  | _, _ => false
  end.

Lemma list_eqb_spec : forall A (eqb : A -> A -> bool),
  (forall x y, eqb x y = true <-> x = y) ->
  forall a b, list_eqb eqb a b = true <-> a = b.
Proof.
  intros A eqb H a; induction a as [|x a IH]; intros [|y b]; simpl; split; intro E;
    try congruence; try discriminate.
  - apply andb_true_iff in E. destruct E as [E1 E2].
    apply H in E1. apply IH in E2. congruence.
  - injection E as -> ->. apply andb_true_iff. split; [apply H | apply IH]; reflexivity.
Qed.

Definition str_eqb : str -> str -> bool := list_eqb N.eqb.

Lemma str_eqb_eq : forall a b, str_eqb a b = true <-> a = b.
Proof. apply list_eqb_spec. apply N.eqb_eq. Qed.

Lemma str_eqb_refl : forall a, str_eqb a a = true.
Proof. intro a. apply str_eqb_eq. reflexivity. Qed.

Lemma str_eqb_neq : forall a b, str_eqb a b = false <-> a <> b.
Proof.
  intros a b. rewrite <- str_eqb_eq. destruct (str_eqb a b); split; intros; congruence.
Qed.

Lemma str_eq_dec : forall a b : str, {a = b} + {a <> b}.
Proof. intros. apply list_eq_dec. apply N.eq_dec. Qed.

(** Python's [<=] on strings: lexicographic order of code points. *)
Fixpoint str_leb (a b : str) : bool :=
  match a, b with
  | [], _ => true
  | _ :: _, [] => false
  | x :: a', y :: b' => if N.ltb x y then true else if N.eqb x y then str_leb a' b' else false
  end.

Lemma str_leb_refl : forall a, str_leb a a = true.
Proof.
  induction a as [|x a IH]; simpl; auto. rewrite N.ltb_irrefl, N.eqb_refl. exact IH.
Qed.

Lemma str_leb_total : forall a b, str_leb a b = true \/ str_leb b a = true.
Proof.
  induction a as [|x a IH]; intros [|y b]; simpl; auto.
  destruct (N.ltb_spec x y); auto.
  destruct (N.ltb_spec y x); auto.
  assert (x = y) by lia. subst. rewrite N.eqb_refl. apply IH.
Qed.

Lemma str_leb_antisym : forall a b, str_leb a b = true -> str_leb b a = true -> a = b.
Proof.
  induction a as [|x a IH]; intros [|y b]; simpl; auto; try discriminate.
  destruct (N.ltb_spec x y); destruct (N.ltb_spec y x);
    destruct (N.eqb_spec x y); destruct (N.eqb_spec y x); try lia; try discriminate; intros.
  subst. f_equal. apply IH; auto.
Qed.

Lemma str_leb_trans : forall a b c, str_leb a b = true -> str_leb b c = true -> str_leb a c = true.
Proof.
  induction a as [|x a IH]; intros [|y b] [|z c]; simpl; auto; try discriminate.
  destruct (N.ltb_spec x y); destruct (N.ltb_spec y z); destruct (N.ltb_spec x z);
    destruct (N.eqb_spec x y); destruct (N.eqb_spec y z); destruct (N.eqb_spec x z);
    try lia; try discriminate; intros; auto.
  eapply IH; eauto.
Qed.

(** ** Exceptions *)

(** The exception classes that the modelled code raises or distinguishes. [ConfigError]
    is fixit's subclass of ValueError, [CollectionError] its subclass of RuntimeError
    (config.py 64-76); [OtherError n] is any other Exception subclass. *)
Inductive exn :=
| ValueError | TypeError | AttributeError | IndexError | KeyError | ImportError
| ConfigError | CollectionError | InvalidSpecifier | TOMLDecodeError | OSError
| UnicodeError | AssertionError | ParserSyntaxError | OtherError (n : N).

Definition exn_eq_dec : forall a b : exn, {a = b} + {a <> b}.
Proof. decide equality. apply N.eq_dec. Defined.

Inductive res (A : Type) := Ok (a : A) | Err (e : exn).
Arguments Ok {A} a.
Arguments Err {A} e.

Definition bind {A B} (r : res A) (f : A -> res B) : res B :=
  match r with Ok a => f a | Err e => Err e end.
Notation "'let!' x := e 'in' f" := (bind e (fun x => f))
  (at level 200, x name, e at level 100, f at level 200).
Notation "'let!' ' p := e 'in' f" := (bind e (fun p => f))
  (at level 200, p strict pattern, e at level 100, f at level 200).

Lemma bind_ok : forall A B (r : res A) (f : A -> res B) b,
  bind r f = Ok b -> exists a, r = Ok a /\ f a = Ok b.
Proof. intros A B [a|e] f b H; simpl in H; [eauto | discriminate]. Qed.

(** [for x in l: s = f(s, x)] in code that may raise. *)
Fixpoint fold_res {A S} (f : S -> A -> res S) (l : list A) (s : S) : res S :=
  match l with
  | [] => Ok s
  | x :: l' => let! s' := f s x in fold_res f l' s'
  end.

Lemma fold_res_app : forall A S (f : S -> A -> res S) l1 l2 s,
  fold_res f (l1 ++ l2) s = (let! s' := fold_res f l1 s in fold_res f l2 s').
Proof.
  induction l1 as [|x l1 IH]; intros; simpl; auto.
  destruct (f s x); simpl; auto.
Qed.

Fixpoint map_res {A B} (f : A -> res B) (l : list A) : res (list B) :=
  match l with
  | [] => Ok []
  | x :: l' => let! y := f x in let! ys := map_res f l' in Ok (y :: ys)
  end.

Lemma map_res_ok : forall A B (f : A -> res B) l ys,
  map_res f l = Ok ys <-> Forall2 (fun x y => f x = Ok y) l ys.
Proof.
  induction l as [|x l IH]; intros ys; simpl; split; intro H.
  - injection H as <-. constructor.
  - inversion H. reflexivity.
  - apply bind_ok in H. destruct H as (y & Hy & H).
    apply bind_ok in H. destruct H as (ys' & Hys & H). injection H as <-.
    constructor; auto. apply IH. exact Hys.
  - inversion H; subst. rewrite H2. simpl. apply IH in H4. rewrite H4. reflexivity.
Qed.

(** ** Dicts: association lists in insertion order *)

Section Dict.
  Context {A : Type}.
  Definition dict := list (str * A).

  (** [d.get(k)] *)
  Fixpoint dget (k : str) (d : dict) : option A :=
    match d with
    | [] => None
    | (k', v) :: d' => if str_eqb k k' then Some v else dget k d'
    end.

  (** [d[k] = v]: keeps the position of an existing key. *)
  Fixpoint dset (k : str) (v : A) (d : dict) : dict :=
    match d with
    | [] => [(k, v)]
    | (k', v') :: d' => if str_eqb k k' then (k, v) :: d' else (k', v') :: dset k v d'
    end.

  (** [del d[k]] *)
  Fixpoint ddel (k : str) (d : dict) : dict :=
    match d with
    | [] => []
    | (k', v') :: d' => if str_eqb k k' then ddel k d' else (k', v') :: ddel k d'
    end.

  (** [d.update(e)] *)
  Definition dupdate (d e : dict) : dict :=
    fold_left (fun acc kv => dset (fst kv) (snd kv) acc) e d.

  Definition dkeys (d : dict) : list str := map fst d.

  Lemma dget_dset_eq : forall k v d, dget k (dset k v d) = Some v.
  Proof.
    induction d as [|[k' v'] d IH]; simpl.
    - now rewrite str_eqb_refl.
    - destruct (str_eqb k k') eqn:E; simpl; [now rewrite str_eqb_refl | now rewrite E].
  Qed.

  Lemma dget_dset_neq : forall k k' v d, k <> k' -> dget k (dset k' v d) = dget k d.
  Proof.
    intros k k' v d H. induction d as [|[k1 v1] d IH]; simpl.
    - destruct (str_eqb k k') eqn:E; auto. apply str_eqb_eq in E. contradiction.
    - destruct (str_eqb k' k1) eqn:E; simpl.
      + apply str_eqb_eq in E. subst k1.
        destruct (str_eqb k k') eqn:E; auto. apply str_eqb_eq in E. contradiction.
      + destruct (str_eqb k k1) eqn:E1; auto.
  Qed.

  Lemma dget_ddel_eq : forall k d, dget k (ddel k d) = None.
  Proof.
    induction d as [|[k' v'] d IH]; simpl; auto.
    destruct (str_eqb k k') eqn:E; auto. simpl. now rewrite E.
  Qed.

  Lemma dget_ddel_neq : forall k k' d, k <> k' -> dget k (ddel k' d) = dget k d.
  Proof.
    intros k k' d H. induction d as [|[k1 v1] d IH]; simpl; auto.
    destruct (str_eqb k' k1) eqn:E; simpl.
    - apply str_eqb_eq in E. subst k1.
      destruct (str_eqb k k') eqn:E; auto. apply str_eqb_eq in E. contradiction.
    - now rewrite IH.
  Qed.

  Lemma dget_in : forall k v d, dget k d = Some v -> In (k, v) d.
  Proof.
    induction d as [|[k' v'] d IH]; simpl; intro H; try discriminate.
    destruct (str_eqb k k') eqn:E.
    - apply str_eqb_eq in E. injection H as <-. subst. auto.
    - auto.
  Qed.

  Lemma dget_none : forall k d, dget k d = None <-> ~ In k (dkeys d).
  Proof.
    unfold dkeys. induction d as [|[k' v'] d IH]; simpl.
    - tauto.
    - destruct (str_eqb k k') eqn:E.
      + apply str_eqb_eq in E. subst. split; [discriminate | tauto].
      + apply str_eqb_neq in E. rewrite IH. split; intros; intuition congruence.
  Qed.

  Lemma dget_in_nodup : forall k v d, NoDup (dkeys d) -> In (k, v) d -> dget k d = Some v.
  Proof.
    unfold dkeys. induction d as [|[k' v'] d IH]; simpl; intros Hn H; [contradiction|].
    inversion Hn; subst. destruct H as [H|H].
    - injection H as -> ->. now rewrite str_eqb_refl.
    - destruct (str_eqb k k') eqn:E; auto.
      apply str_eqb_eq in E. subst k'. exfalso. apply H2.
      apply in_map_iff. exists (k, v). auto.
  Qed.

  Lemma dkeys_dset : forall k v d x, In x (dkeys (dset k v d)) <-> x = k \/ In x (dkeys d).
  Proof.
    unfold dkeys. induction d as [|[k' v'] d IH]; intro x; simpl.
    - intuition.
    - destruct (str_eqb k k') eqn:E; simpl.
      + apply str_eqb_eq in E. subst. intuition.
      + rewrite IH. intuition.
  Qed.

  Lemma dset_nodup : forall k v d, NoDup (dkeys d) -> NoDup (dkeys (dset k v d)).
  Proof.
    induction d as [|[k' v'] d IH]; intro H.
    - unfold dkeys. simpl. constructor; [simpl; tauto | constructor].
    - unfold dkeys in *. simpl in H. inversion H as [|? ? H2 H3]; subst.
      cbn [dset]. destruct (str_eqb k k') eqn:E.
      + apply str_eqb_eq in E. subst. simpl. constructor; auto.
      + simpl. constructor; [|apply IH; auto].
        change (~ In k' (dkeys (dset k v d))). rewrite dkeys_dset. unfold dkeys.
        apply str_eqb_neq in E. intros [?|?]; [congruence | contradiction].
  Qed.

  Lemma dupdate_get : forall e d k,
    dget k (dupdate d e) = match dget k (rev e) with Some v => Some v | None => dget k d end.
  Proof.
    unfold dupdate. induction e as [|[k1 v1] e IH] using rev_ind; intros d k; simpl; auto.
    rewrite fold_left_app, rev_app_distr. simpl.
    destruct (str_eqb k k1) eqn:E.
    - apply str_eqb_eq in E. subst. now rewrite dget_dset_eq.
    - apply str_eqb_neq in E. rewrite dget_dset_neq by auto. apply IH.
  Qed.

  Lemma dupdate_nodup : forall e d, NoDup (dkeys d) -> NoDup (dkeys (dupdate d e)).
  Proof.
    unfold dupdate. induction e as [|kv e IH]; intros d H; simpl; auto.
    apply IH. apply dset_nodup. exact H.
  Qed.
End Dict.
Arguments dict : clear implicits.

(** ** Sets: duplicate free lists under a decidable equality *)

Section Sets.
  Context {A : Type} (eqb : A -> A -> bool).
  Hypothesis eqb_refl : forall x, eqb x x = true.
  Hypothesis eqb_sym : forall x y, eqb x y = eqb y x.
  Hypothesis eqb_trans : forall x y z, eqb x y = true -> eqb y z = true -> eqb x z = true.

  Definition smem (x : A) (s : list A) : bool := existsb (eqb x) s.
  (** [s.add(x)]: an equal element already there is kept. *)
  Definition sadd (x : A) (s : list A) : list A := if smem x s then s else s ++ [x].
  (** [s.discard(x)] *)
  Definition sdiscard (x : A) (s : list A) : list A := filter (fun y => negb (eqb x y)) s.

  Lemma smem_sadd : forall x y s, smem x (sadd y s) = eqb x y || smem x s.
  Proof.
    intros x y s. unfold sadd. destruct (smem y s) eqn:E.
    - destruct (eqb x y) eqn:Exy; simpl; auto.
      unfold smem in *. apply existsb_exists in E. destruct E as (z & Hz & E).
      apply existsb_exists. exists z. split; auto. eapply eqb_trans; eauto.
    - unfold smem. rewrite existsb_app. simpl. rewrite orb_false_r. apply orb_comm.
  Qed.

  Lemma smem_sdiscard : forall x y s, smem x (sdiscard y s) = negb (eqb x y) && smem x s.
  Proof.
    intros x y s. unfold smem, sdiscard. induction s as [|z s IH]; simpl.
    - now rewrite andb_false_r.
    - destruct (eqb y z) eqn:E; simpl.
      + rewrite IH. destruct (eqb x y) eqn:Exy; simpl; auto.
        destruct (eqb x z) eqn:Exz; simpl; auto.
        exfalso. assert (eqb x y = true); [|congruence].
        apply eqb_trans with z; [exact Exz | now rewrite eqb_sym].
      + rewrite IH. destruct (eqb x y) eqn:Exy; simpl; auto.
        destruct (eqb x z) eqn:Exz; simpl; auto.
        exfalso. assert (eqb y z = true); [|congruence].
        apply eqb_trans with x; [now rewrite eqb_sym | exact Exz].
  Qed.

  (** No two positions hold equal elements. *)
  Inductive sset : list A -> Prop :=
  | sset_nil : sset []
  | sset_cons : forall x s, smem x s = false -> sset s -> sset (x :: s).

  Lemma sset_sdiscard : forall x s, sset s -> sset (sdiscard x s).
  Proof.
    intros x s H. induction H as [|y s Hy Hs IH]; simpl; [constructor|].
    destruct (eqb x y) eqn:E; simpl; auto. constructor; auto.
    change (smem y (sdiscard x s) = false). rewrite smem_sdiscard, Hy. apply andb_false_r.
  Qed.

  Lemma sset_snoc : forall x s, smem x s = false -> sset s -> sset (s ++ [x]).
  Proof.
    intros x s H Hs. induction Hs as [|y s Hy Hs IH]; simpl.
    - constructor; [reflexivity | constructor].
    - simpl in H. apply orb_false_iff in H. destruct H as [H1 H2].
      constructor; auto. unfold smem. rewrite existsb_app. fold (smem y s).
      rewrite Hy. simpl. rewrite orb_false_r. now rewrite eqb_sym.
  Qed.

  Lemma sset_sadd : forall x s, sset s -> sset (sadd x s).
  Proof.
    intros x s H. unfold sadd. destruct (smem x s) eqn:E; auto. now apply sset_snoc.
  Qed.
End Sets.

(** ** sorted() *)

Section Sort.
  Context {A : Type} (leb : A -> A -> bool).
  Fixpoint insert_sorted (x : A) (l : list A) : list A :=
    match l with
    | [] => [x]
    | y :: l' => if leb x y then x :: l else y :: insert_sorted x l'
    end.
  (** [sorted(l)]: stable. *)
  Definition sorted (l : list A) : list A := fold_right insert_sorted [] l.

  Lemma insert_perm : forall x l, Permutation (x :: l) (insert_sorted x l).
  Proof.
    induction l as [|y l IH]; simpl; auto.
    destruct (leb x y); auto.
    eapply perm_trans; [apply perm_swap|]. now apply perm_skip.
  Qed.

  Lemma sorted_perm : forall l, Permutation l (sorted l).
  Proof.
    induction l as [|x l IH]; simpl; auto.
    eapply perm_trans; [apply perm_skip, IH|]. apply insert_perm.
  Qed.

  Hypothesis leb_total : forall x y, leb x y = true \/ leb y x = true.
  Hypothesis leb_trans : forall x y z, leb x y = true -> leb y z = true -> leb x z = true.

  Lemma insert_sorted_sorted : forall x l,
    StronglySorted (fun a b => leb a b = true) l ->
    StronglySorted (fun a b => leb a b = true) (insert_sorted x l).
  Proof.
    intros x l H. induction H as [|y l Hl IH Hy]; simpl.
    - repeat constructor.
    - destruct (leb x y) eqn:E.
      + constructor; [constructor; auto|]. constructor; auto.
        eapply Forall_impl; [|exact Hy]. intros z Hz. eapply leb_trans; eauto.
      + constructor; auto.
        assert (Hyx : leb y x = true) by (destruct (leb_total x y); congruence).
        eapply Permutation_Forall; [apply insert_perm|]. constructor; auto.
  Qed.

  Lemma sorted_sorted : forall l, StronglySorted (fun a b => leb a b = true) (sorted l).
  Proof.
    induction l as [|x l IH]; simpl; [constructor|]. now apply insert_sorted_sorted.
  Qed.

  (** Two sorted permutations of each other are equal when ties are equal. *)
  Lemma sorted_unique : forall l1 l2,
    StronglySorted (fun a b => leb a b = true) l1 ->
    StronglySorted (fun a b => leb a b = true) l2 ->
    Permutation l1 l2 ->
    (forall x y, In x l1 -> In y l1 -> leb x y = true -> leb y x = true -> x = y) ->
    l1 = l2.
  Proof.
    induction l1 as [|x l1 IH]; intros l2 H1 H2 HP Hanti.
    - apply Permutation_nil in HP. now subst.
    - destruct l2 as [|y l2].
      { apply Permutation_sym, Permutation_nil in HP. discriminate. }
      inversion H1; subst. inversion H2; subst.
      assert (x = y).
      { assert (Hx : In x (y :: l2)) by (eapply Permutation_in; [exact HP | simpl; auto]).
        assert (Hy : In y (x :: l1))
          by (eapply Permutation_in; [apply Permutation_sym, HP | simpl; auto]).
        simpl in Hx, Hy. destruct Hx as [->|Hx]; auto. destruct Hy as [->|Hy]; auto.
        rewrite Forall_forall in *. apply Hanti; simpl; auto. }
      subst y. f_equal. apply IH; auto.
      + now apply Permutation_cons_inv in HP.
      + intros; apply Hanti; simpl; auto.
  Qed.
End Sort.

Lemma str_sorted_unique : forall l1 l2, Permutation l1 l2 -> sorted str_leb l1 = sorted str_leb l2.
Proof.
  intros l1 l2 H. apply sorted_unique with (leb := str_leb).
  - apply sorted_sorted; [apply str_leb_total | apply str_leb_trans].
  - apply sorted_sorted; [apply str_leb_total | apply str_leb_trans].
  - eapply perm_trans; [apply Permutation_sym, sorted_perm|].
    eapply perm_trans; [exact H | apply sorted_perm].
  - intros. now apply str_leb_antisym.
Qed.
