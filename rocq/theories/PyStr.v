(** * PyStr: the str methods used by fixit *)
From Coq Require Import String List NArith Bool Arith Lia.
From Verif Require Import Base.
Import ListNotations.
Set Implicit Arguments.
Local Open Scope N_scope.

(** [c.isspace()], which is also what [\s] matches (CPython 3.8-3.12 tables). *)
Definition is_space (c : N) : bool :=
  ((9 <=? c) && (c <=? 13)) || ((28 <=? c) && (c <=? 32)) || (c =? 133) || (c =? 160)
  || (c =? 5760) || ((8192 <=? c) && (c <=? 8202)) || (c =? 8232) || (c =? 8233)
  || (c =? 8239) || (c =? 8287) || (c =? 12288).

Definition is_ascii_alnum (c : N) : bool :=
  ((48 <=? c) && (c <=? 57)) || ((65 <=? c) && (c <=? 90)) || ((97 <=? c) && (c <=? 122)).

(** The Unicode data base beyond ASCII: a parameter of everything that needs it. *)
Record unicode := { uni_alnum : N -> bool; uni_lower : str -> str }.

(** What [\w] matches: alphanumerics and the underscore. Whitespace is never matched by
    [\w] in CPython; this is built in for the non-ASCII part. *)
Definition is_word (U : unicode) (c : N) : bool :=
  if c <? 128 then is_ascii_alnum c || (c =? 95) else uni_alnum U c && negb (is_space c).

Definition ascii_lower (c : N) : N := if (65 <=? c) && (c <=? 90) then c + 32 else c.

(** [s.lower()]: exact on ASCII strings, the data base's answer on others. *)
Definition lower (U : unicode) (s : str) : str :=
  if forallb (fun c => c <? 128) s then map ascii_lower s else uni_lower U s.

Fixpoint lstrip (s : str) : str :=
  match s with
  | c :: s' => if is_space c then lstrip s' else s
  | [] => []
  end.
(** [s.strip()] *)
Definition strip (s : str) : str := rev (lstrip (rev (lstrip s))).

(** [s.split(c)] for a one character separator *)
Fixpoint split (c : N) (s : str) : list str :=
  match s with
  | [] => [[]]
  | x :: s' =>
      if x =? c then [] :: split c s'
      else match split c s' with
           | h :: t => (x :: h) :: t
           | [] => [[x]]
           end
  end.

(** [sep.join(l)] *)
Fixpoint join (sep : str) (l : list str) : str :=
  match l with
  | [] => []
  | [x] => x
  | x :: l' => x ++ sep ++ join sep l'
  end.

Fixpoint startswith (p s : str) : bool :=
  match p, s with
  | [], _ => true
  | x :: p', y :: s' => (x =? y) && startswith p' s'
  | _ :: _, [] => false
  end.

Definition endswith (p s : str) : bool := startswith (rev p) (rev s).

(** [if s.endswith("Rule"): s = s[:-4]] *)
Definition trim_rule (s : str) : str :=
  if endswith (u "Rule") s then firstn (List.length s - 4) s else s.

Local Close Scope N_scope.

(** ** Facts *)

Lemma not_space_range : forall c, (33 <= c)%N -> (c <= 126)%N -> is_space c = false.
Proof.
  intros c H1 H2. unfold is_space.
  repeat (apply orb_false_iff; split);
    try (apply N.eqb_neq; lia); apply andb_false_iff;
    first [left; apply N.leb_gt; lia | right; apply N.leb_gt; lia].
Qed.

Lemma is_ascii_alnum_range : forall c, is_ascii_alnum c = true -> (48 <= c <= 122)%N.
Proof.
  intros c H. unfold is_ascii_alnum in H.
  apply orb_true_iff in H. destruct H as [H|H]; [apply orb_true_iff in H; destruct H as [H|H]|];
    apply andb_true_iff in H; destruct H as [H1 H2];
    apply N.leb_le in H1; apply N.leb_le in H2; lia.
Qed.

Lemma is_word_not_space : forall U c, is_word U c = true -> is_space c = false.
Proof.
  intros U c. unfold is_word. destruct (N.ltb_spec c 128).
  - intro H1. apply orb_true_iff in H1. destruct H1 as [H1|H1].
    + apply is_ascii_alnum_range in H1. apply not_space_range; lia.
    + apply N.eqb_eq in H1. subst. reflexivity.
  - intro H1. apply andb_true_iff in H1. destruct H1 as [_ H1].
    now apply negb_true_iff in H1.
Qed.

Lemma lstrip_no_space : forall s, (forall c s', s = c :: s' -> is_space c = false) -> lstrip s = s.
Proof.
  intros [|c s] H; simpl; auto. now rewrite (H c s eq_refl).
Qed.

Lemma lstrip_app : forall ws s, forallb is_space ws = true -> lstrip (ws ++ s) = lstrip s.
Proof.
  induction ws as [|c ws IH]; simpl; intros s H; auto.
  apply andb_true_iff in H. destruct H as [H1 H2]. rewrite H1. now apply IH.
Qed.

Lemma strip_word : forall U ws w,
  forallb is_space ws = true -> forallb (is_word U) w = true -> strip (ws ++ w) = w.
Proof.
  intros U ws w Hs Hw. unfold strip. rewrite lstrip_app by auto.
  assert (H : forall l, forallb (is_word U) l = true -> lstrip l = l).
  { intros l Hl. apply lstrip_no_space. intros c s' ->. simpl in Hl.
    apply andb_true_iff in Hl. destruct Hl. eapply is_word_not_space; eauto. }
  rewrite (H w) by auto. rewrite H.
  - apply rev_involutive.
  - rewrite forallb_forall in *. intros x Hx. apply Hw. now apply in_rev.
Qed.

Lemma split_no_sep : forall c s, ~ In c s -> split c s = [s].
Proof.
  induction s as [|x s IH]; simpl; intro H; auto.
  destruct (N.eqb_spec x c); [subst; tauto|]. rewrite IH by tauto. reflexivity.
Qed.

Lemma split_app_sep : forall c a b, ~ In c a -> split c (a ++ c :: b) = a :: split c b.
Proof.
  induction a as [|x a IH]; simpl; intros b H.
  - now rewrite N.eqb_refl.
  - destruct (N.eqb_spec x c); [subst; tauto|]. rewrite IH by tauto. reflexivity.
Qed.

Lemma split_nonempty : forall c s, split c s <> [].
Proof.
  destruct s as [|x s]; simpl; [discriminate|].
  destruct (N.eqb x c); [discriminate|]. destruct (split c s); discriminate.
Qed.

Lemma startswith_spec : forall p s, startswith p s = true <-> exists t, s = p ++ t.
Proof.
  induction p as [|x p IH]; intros [|y s]; simpl; split; intro H.
  - exists []. reflexivity.
  - reflexivity.
  - exists (y :: s). reflexivity.
  - reflexivity.
  - discriminate.
  - destruct H as (t & H). discriminate.
  - apply andb_true_iff in H. destruct H as [H1 H2]. apply N.eqb_eq in H1.
    apply IH in H2. destruct H2 as (t & ->). exists t. now subst.
  - destruct H as (t & H). injection H as -> ->.
    rewrite N.eqb_refl. simpl. apply IH. exists t. reflexivity.
Qed.

Lemma endswith_spec : forall p s, endswith p s = true <-> exists t, s = t ++ p.
Proof.
  intros p s. unfold endswith. rewrite startswith_spec. split; intros (t & H).
  - exists (rev t). apply (f_equal (@rev N)) in H.
    rewrite rev_involutive, rev_app_distr, rev_involutive in H. exact H.
  - exists (rev t). subst. apply rev_app_distr.
Qed.

Lemma trim_rule_app : forall s, trim_rule (s ++ u "Rule") = s.
Proof.
  intro s. unfold trim_rule.
  assert (E : endswith (u "Rule") (s ++ u "Rule") = true)
    by (apply endswith_spec; eauto).
  rewrite E. rewrite app_length.
  replace (List.length s + List.length (u "Rule") - 4) with (List.length s) by (simpl; lia).
  rewrite firstn_app, Nat.sub_diag. simpl. now rewrite firstn_all, app_nil_r.
Qed.

Lemma trim_rule_other : forall s, (forall t, s <> t ++ u "Rule") -> trim_rule s = s.
Proof.
  intros s H. unfold trim_rule. destruct (endswith (u "Rule") s) eqn:E; auto.
  apply endswith_spec in E. destruct E as (t & E). exfalso. eapply H; eauto.
Qed.
