(** * Facts about commands *)
From Coq Require Import String List NArith ZArith Bool Arith Lia.
From Verif Require Import Base PyStr Ftypes Paths Config Suppress Cst Engine Api ApiSpec ApiFacts Cli CliSpec.
Import ListNotations.

Lemma lines_app : forall a b, lines (a ++ b) = lines a ++ lines b.
Proof. intros. apply flat_map_app. Qed.
Lemma asked_app : forall a b, asked (a ++ b) = asked a ++ asked b.
Proof. intros. apply flat_map_app. Qed.
Lemma effects_app : forall a b, effects (a ++ b) = effects a ++ effects b.
Proof. intros. apply flat_map_app. Qed.
Lemma stdout_app : forall a b, stdout (a ++ b) = stdout a ++ stdout b.
Proof. intros. apply flat_map_app. Qed.

Definition prints (l : list (stream * str)) : list cev := map (fun st => VPrint (fst st) (snd st)) l.

Lemma lines_prints : forall l, lines (prints l) = l.
Proof. induction l as [|[s t] l IH]; [reflexivity|]. cbn [prints map lines flat_map app fst snd]. f_equal. exact IH. Qed.
Lemma asked_prints : forall l, asked (prints l) = [].
Proof. induction l as [|[s t] l IH]; [reflexivity|]. exact IH. Qed.
Lemma effects_prints : forall l, effects (prints l) = [].
Proof. induction l as [|[s t] l IH]; [reflexivity|]. exact IH. Qed.

Lemma run_print_all : forall R l (k : cmd R) vs o, crun (print_all l k) vs o ->
  (o = Stopped /\ exists l1 l2, l = l1 ++ l2 /\ vs = prints l1) \/ exists vs', vs = prints l ++ vs' /\ crun k vs' o.
Proof.
  intros R l k. induction l as [|[s t] l IH]; intros vs o H; cbn [print_all] in H.
  - right. exists vs. auto.
  - inversion H as [| | |? ? ? vs' ? H'| | | | |]; subst.
    + left. split; auto. exists [], ((s, t) :: l). auto.
    + destruct (IH _ _ H') as [(-> & l1 & l2 & -> & ->)|(w & -> & K)].
      * left. split; auto. exists ((s, t) :: l1), l2. auto.
      * right. exists w. auto.
Qed.

(** ** Sets of paths *)

Lemma in_sadd : forall p q l, In q (sadd path_eqb p l) <-> q = p \/ In q l.
Proof.
  intros p q l. unfold sadd. destruct (smem path_eqb p l) eqn:M.
  - split; auto. intros [->|H]; auto. unfold smem in M. apply existsb_exists in M. destruct M as (y & Hy & E).
    apply path_eqb_eq in E. now subst.
  - rewrite in_app_iff. simpl. intuition.
Qed.

Lemma nodup_sadd : forall p l, NoDup l -> NoDup (sadd path_eqb p l).
Proof.
  intros p l H. unfold sadd. destruct (smem path_eqb p l) eqn:M; auto.
  assert (N : ~ In p l).
  { intro I. unfold smem in M. assert (X : existsb (path_eqb p) l = true) by (apply existsb_exists; exists p; split; auto; apply path_eqb_refl). congruence. }
  clear M. induction l as [|x l IH]; cbn [app]; [constructor; [intros []|constructor]|].
  inversion H; subst. constructor.
  - rewrite in_app_iff. intros [I|[I|[]]]; auto. apply N. simpl. auto.
  - apply IH; auto. simpl in N. auto.
Qed.

(** The paths collected so far, if [xs] were handled. *)
Definition set_of (f : result -> bool) (xs : list result) : list path :=
  fold_left (fun s x => if f x then sadd path_eqb (x_path x) s else s) xs [].

Lemma set_of_distinct : forall f xs, distinct_paths f xs (set_of f xs).
Proof.
  intros f xs. unfold set_of. rewrite <- fold_left_rev_right. rewrite <- (rev_involutive xs) at 1.
  induction (rev xs) as [|x l IH]; cbn [fold_right rev].
  - split; [constructor|]. intro p. split; [intros []|intros (x & [] & _)].
  - destruct IH as [IH1 IH2]. split.
    + destruct (f x); auto. now apply nodup_sadd.
    + intro p. destruct (f x) eqn:E.
      * rewrite in_sadd, IH2. split.
        -- intros [->|(y & Hy & K)]; [exists x|exists y]; rewrite in_app_iff; simpl; intuition.
        -- intros (y & Hy & K1 & K2). apply in_app_iff in Hy. destruct Hy as [Hy|[->|[]]]; [right; eauto|left; auto].
      * rewrite IH2. split; intros (y & Hy & K1 & K2); exists y.
        -- rewrite in_app_iff. auto.
        -- apply in_app_iff in Hy. destruct Hy as [Hy|[->|[]]]; [auto|congruence].
Qed.

Lemma set_of_snoc : forall f xs x, set_of f (xs ++ [x]) = if f x then sadd path_eqb (x_path x) (set_of f xs) else set_of f xs.
Proof. intros. unfold set_of. now rewrite fold_left_app. Qed.

Definition number (f : result -> bool) (xs : list result) : nat := List.length (filter f xs).

Lemma number_snoc : forall f xs x, number f (xs ++ [x]) = if f x then S (number f xs) else number f xs.
Proof. intros. unfold number. rewrite filter_app, app_length. cbn [filter]. destruct (f x); cbn; lia. Qed.

(** ** Printing a result *)

Lemma print_item : forall K x d e cfg ls b,
  print_result K x d e (c_format cfg) (c_template cfg) = Ok (ls, b) ->
  ls = item K d (if e then Diag else Std) cfg x /\ b = dirty x.
Proof.
  intros K x d e cfg ls b H. unfold print_result in H. unfold item, dirty. destruct (x_violation x) as [v|].
  - apply bind_ok in H. destruct H as (ln & H1 & H2). injection H2 as <- <-. split; [|reflexivity]. f_equal. f_equal.
    destruct (c_format cfg).
    + destruct (autofixable v); rewrite ?app_nil_r in H1; now rewrite H1.
    + injection H1 as <-. destruct (autofixable v); rewrite ?app_nil_r; reflexivity.
    + injection H1 as <-. destruct (autofixable v); rewrite ?app_nil_r; reflexivity.
  - destruct (x_error x); injection H as <- <-; auto.
Qed.

Lemma splash_summary : forall v d a f, splash v d a f = (Diag, summary (List.length v) (List.length d) a f).
Proof.
  intros v d a f. unfold splash, summary, count, plural. destruct d as [|p d]; [f_equal; now rewrite <- !app_assoc|].
  cbn [List.length Nat.eqb]. f_equal. destruct (Nat.eqb a 0), (Nat.eqb f 0), (Nat.eqb a 1); cbn [commas app];
  rewrite <- ?app_assoc, ?app_nil_r; reflexivity.
Qed.

Lemma screen_app : forall K d out cfg a b, screen K d out cfg (a ++ b) = screen K d out cfg a ++ screen K d out cfg b.
Proof. intros. apply flat_map_app. Qed.

Lemma is_fixable_eq : forall x, is_fixable x = fixable x.
Proof. reflexivity. Qed.
