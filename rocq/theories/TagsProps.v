(** * C21: tag filters *)
From Coq Require Import String List NArith Bool Arith Lia Permutation Sorted.
From Verif Require Import Base PyStr Regex Ftypes.
Import ListNotations.
Set Implicit Arguments.

(** ** Specification (independent of the model's helpers) *)

(** [pieces s l]: [l] is [s] cut at its commas. *)
Inductive pieces : str -> list str -> Prop :=
| pc_last : forall s, ~ In 44%N s -> pieces s [s]
| pc_cons : forall a s l, ~ In 44%N a -> pieces s l -> pieces (a ++ 44%N :: s) (a :: l).

(** [t] is [s] without surrounding white space. *)
Definition stripped (s t : str) : Prop :=
  exists a b, s = a ++ t ++ b /\ Forall (fun c => is_space c = true) a /\
    Forall (fun c => is_space c = true) b /\
    (forall c r, t = c :: r -> is_space c = false) /\
    (forall c r, t = r ++ [c] -> is_space c = false).

(** [tok] is one of the tokens of the filter text [v]. *)
Definition token (U : unicode) (v tok : str) : Prop :=
  exists l p, pieces (lower U v) l /\ In p l /\ stripped p tok.

Definition negative (tok t : str) : Prop :=
  tok = u "!" ++ t \/ tok = u "^" ++ t \/ tok = u "-" ++ t.

(** Strictly increasing, hence sorted and without duplicates. *)
Definition increasing (l : list str) : Prop := NoDup l /\ StronglySorted (fun a b => str_leb a b = true) l.

(** ** Facts *)

Lemma split_pieces : forall s, pieces s (split 44 s).
Proof.
  intro s. remember (length s) as n eqn:En. revert s En.
  induction n as [n IH] using lt_wf_ind. intros s ->.
  assert (H : ~ In 44%N s \/ exists a b, s = a ++ 44%N :: b /\ ~ In 44%N a).
  { clear. induction s as [|c s [IH|(a & b & -> & IH)]]; [left; intros [] | | ].
    - destruct (N.eq_dec c 44).
      + subst. right. exists [], s. auto.
      + left. intros [H|H]; auto.
    - destruct (N.eq_dec c 44).
      + subst. right. exists [], (a ++ 44%N :: b). auto.
      + right. exists (c :: a), b. split; auto. intros [H|H]; auto. }
  destruct H as [H|(a & b & -> & Ha)].
  - rewrite split_no_sep by auto. constructor; auto.
  - rewrite split_app_sep by auto. constructor; auto.
    apply IH with (m := length b); auto. rewrite app_length. simpl. lia.
Qed.

Lemma pieces_unique : forall s l, pieces s l -> l = split 44 s.
Proof.
  induction 1 as [s H|a s l H H1 IH].
  - now rewrite split_no_sep.
  - rewrite split_app_sep by auto. congruence.
Qed.

Lemma lstrip_spec : forall s, exists a, s = a ++ lstrip s /\ Forall (fun c => is_space c = true) a /\
  (forall c r, lstrip s = c :: r -> is_space c = false).
Proof.
  induction s as [|c s (a & E & Ha & Hh)]; simpl.
  - exists []. repeat split; auto. discriminate.
  - destruct (is_space c) eqn:Ec.
    + exists (c :: a). rewrite E at 1. repeat split; auto.
    + exists []. repeat split; auto. intros d r H. injection H as -> _. auto.
Qed.

Lemma rstrip_spec : forall s, exists b, s = rev (lstrip (rev s)) ++ b /\
  Forall (fun c => is_space c = true) b /\
  (forall c r, rev (lstrip (rev s)) = r ++ [c] -> is_space c = false).
Proof.
  intro s. destruct (lstrip_spec (rev s)) as (a & E & Ha & Hh). exists (rev a). split; [|split].
  - rewrite <- rev_app_distr, <- E. now rewrite rev_involutive.
  - apply Forall_rev. exact Ha.
  - intros c r H. apply Hh with (r := rev r).
    apply (f_equal (@rev N)) in H. rewrite rev_involutive, rev_app_distr in H. exact H.
Qed.

Lemma strip_stripped : forall s, stripped s (strip s).
Proof.
  intro s. unfold strip.
  destruct (lstrip_spec s) as (a & E & Ha & Hh).
  destruct (rstrip_spec (lstrip s)) as (b & E1 & Hb & Hl).
  set (t := rev (lstrip (rev (lstrip s)))) in *.
  exists a, b. split; [|split; [|split; [|split]]]; auto.
  - now rewrite <- E1.
  - intros c r Ht. apply (Hh c (r ++ b)). rewrite E1, Ht. reflexivity.
Qed.

Lemma stripped_unique : forall s t, stripped s t -> t = strip s.
Proof.
  intros s t (a & b & -> & Ha & Hb & Hh & Hl). unfold strip.
  assert (Fa : forallb is_space a = true) by (apply forallb_forall; now apply Forall_forall).
  assert (Fb : forallb is_space (rev b) = true).
  { apply forallb_forall. intros x Hx. apply in_rev in Hx. rewrite Forall_forall in Hb. auto. }
  rewrite lstrip_app by auto.
  destruct t as [|c t].
  - simpl. rewrite <- (app_nil_r b). rewrite lstrip_app; auto.
    apply forallb_forall. now apply Forall_forall.
  - simpl. rewrite (Hh c t eq_refl). change (c :: t ++ b) with ((c :: t) ++ b).
    rewrite rev_app_distr, lstrip_app by auto.
    rewrite lstrip_no_space.
    + now rewrite rev_involutive.
    + intros d r Hd. apply Hl with (r := rev r).
      apply (f_equal (@rev N)) in Hd. rewrite rev_involutive in Hd. exact Hd.
Qed.

Lemma existsb_str : forall x l, existsb (str_eqb x) l = true <-> In x l.
Proof.
  intros x l. rewrite existsb_exists. split.
  - intros (y & Hy & E). apply str_eqb_eq in E. congruence.
  - intro H. exists x. split; auto. apply str_eqb_refl.
Qed.

Lemma sadd_in : forall x y s, In x (sadd str_eqb y s) <-> x = y \/ In x s.
Proof.
  intros x y s. unfold sadd, smem. destruct (existsb (str_eqb y) s) eqn:E.
  - apply existsb_str in E. split; [auto|]. intros [->|H]; auto.
  - rewrite in_app_iff. simpl. intuition.
Qed.

Lemma sadd_nodup : forall y s, NoDup s -> NoDup (sadd str_eqb y s).
Proof.
  intros y s H. unfold sadd, smem. destruct (existsb (str_eqb y) s) eqn:E; auto.
  apply Permutation_NoDup with (y :: s); [apply Permutation_cons_append|].
  constructor; auto. intro Hi. apply existsb_str in Hi. congruence.
Qed.

Lemma tokens_in : forall U v x, In x (tags_tokens U v) <-> token U v x.
Proof.
  intros U v x. unfold tags_tokens.
  assert (H : forall l s, In x (fold_left (fun s t => sadd str_eqb t s) l s) <-> In x l \/ In x s).
  { induction l as [|a l IH]; intros s; simpl; [tauto|]. rewrite IH, sadd_in. intuition. }
  rewrite H, in_map_iff. unfold token. split.
  - intros [(p & <- & Hp)|[]]. exists (split 44 (lower U v)), p.
    split; [apply split_pieces|]. split; auto. apply strip_stripped.
  - intros (l & p & Hl & Hp & Hs). left. apply pieces_unique in Hl. subst l.
    apply stripped_unique in Hs. eauto.
Qed.

Definition inc_of (toks : list str) (x : str) : Prop :=
  In x toks /\ match x with [] => False | c :: _ => is_neg c = false end.
Definition exc_of (toks : list str) (x : str) : Prop :=
  exists c, In (c :: x) toks /\ is_neg c = true.

Lemma tags_loop_spec : forall toks inc exc,
  (In [] toks -> tags_loop toks inc exc = Err IndexError) /\
  (~ In [] toks -> exists i e, tags_loop toks inc exc = Ok (i, e) /\
     (forall x, In x i <-> In x inc \/ inc_of toks x) /\
     (forall x, In x e <-> In x exc \/ exc_of toks x) /\
     (NoDup inc -> NoDup i) /\ (NoDup exc -> NoDup e)).
Proof.
  induction toks as [|tok toks IH]; intros inc exc.
  - split; [intros []|]. intros _. exists inc, exc. simpl. repeat split; auto.
    + intros [H|[[] _]]; auto.
    + intros [H|(c & [] & _)]; auto.
  - split.
    + intros [->|H]; [reflexivity|]. destruct tok as [|c tok]; [reflexivity|]. simpl.
      destruct (is_neg c); apply IH; auto.
    + intros Hn. destruct tok as [|c tok]; [exfalso; apply Hn; simpl; auto|].
      assert (Hn' : ~ In [] toks) by (intro; apply Hn; simpl; auto).
      simpl. destruct (is_neg c) eqn:Ec.
      * destruct (IH inc (sadd str_eqb tok exc)) as [_ H].
        destruct (H Hn') as (i & e & E & Hi & He & Ni & Ne). exists i, e.
        split; [exact E|]. split; [|split; [|split; auto]].
        -- intro x. rewrite Hi. unfold inc_of. split; intros [Hx|[Hx1 Hx2]]; auto.
           ++ right. split; auto. simpl. auto.
           ++ right. destruct Hx1 as [<-|Hx1]; [congruence|]. auto.
        -- intro x. rewrite He, sadd_in. unfold exc_of. split.
           ++ intros [[->|Hx]|(d & Hd & Hd')]; auto.
              ** right. exists c. simpl. auto.
              ** right. exists d. simpl. auto.
           ++ intros [Hx|(d & [Hd|Hd] & Hd')]; auto.
              ** injection Hd as -> ->. auto.
              ** right. exists d. auto.
        -- intro Hx. apply Ne. now apply sadd_nodup.
      * destruct (IH (sadd str_eqb (c :: tok) inc) exc) as [_ H].
        destruct (H Hn') as (i & e & E & Hi & He & Ni & Ne). exists i, e.
        split; [exact E|]. split; [|split; [|split; auto]].
        -- intro x. rewrite Hi, sadd_in. unfold inc_of. split.
           ++ intros [[->|Hx]|[Hx1 Hx2]]; auto.
              ** right. simpl. rewrite Ec. auto.
              ** right. split; auto. simpl. auto.
           ++ intros [Hx|[[<-|Hx1] Hx2]]; auto.
        -- intro x. rewrite He. unfold exc_of. split; intros [Hx|(d & Hd & Hd')]; auto.
           ++ right. exists d. simpl. auto.
           ++ right. destruct Hd as [Hd|Hd]; [|eauto]. injection Hd as -> ->. congruence.
        -- intro Hx. apply Ni. now apply sadd_nodup.
Qed.

Lemma is_neg_negative : forall tok t, negative tok t <-> exists c, tok = c :: t /\ is_neg c = true.
Proof.
  intros tok t. unfold negative, is_neg. split.
  - intros [->|[->| ->]]; eexists; split; reflexivity.
  - intros (c & -> & H). rewrite !orb_true_iff, !N.eqb_eq in H.
    destruct H as [[->| ->]| ->]; auto.
Qed.

Lemma increasing_unique : forall l1 l2, increasing l1 -> increasing l2 ->
  (forall x, In x l1 <-> In x l2) -> l1 = l2.
Proof.
  intros l1 l2 [N1 S1] [N2 S2] H.
  apply sorted_unique with (leb := str_leb); auto.
  - now apply NoDup_Permutation.
  - intros. now apply str_leb_antisym.
Qed.

Lemma sorted_increasing : forall l, NoDup l -> increasing (sorted str_leb l).
Proof.
  intros l H. split.
  - eapply Permutation_NoDup; [apply sorted_perm|]. exact H.
  - apply sorted_sorted; [apply str_leb_total | apply str_leb_trans].
Qed.

(** ** Theorems *)

(** The filter law, for any collection of tags. *)
Theorem C21_contains : forall t l,
  tags_contains t (TagColl l) = true <->
  (forall x, In x l -> ~ In x (t_exclude t)) /\
  (t_include t = [] \/ exists x, In x l /\ In x (t_include t)).
Proof.
  intros t l. simpl. unfold smem_str.
  destruct (existsb (fun tag => existsb (str_eqb tag) (t_exclude t)) l) eqn:E.
  - split; [discriminate|]. intros [H _]. apply existsb_exists in E.
    destruct E as (x & Hx & E). apply existsb_str in E. exfalso. eapply H; eauto.
  - assert (Hex : forall x, In x l -> ~ In x (t_exclude t)).
    { intros x Hx Hi. apply existsb_str in Hi.
      assert (existsb (fun tag => existsb (str_eqb tag) (t_exclude t)) l = true);
        [apply existsb_exists; eauto | congruence]. }
    destruct (t_include t) as [|i inc] eqn:Ei; [tauto|].
    rewrite existsb_exists. split.
    + intros (x & Hx & Hi). apply existsb_str in Hi. split; auto. right. eauto.
    + intros [_ [H|(x & Hx & Hi)]]; [discriminate|]. exists x. split; auto. now apply existsb_str.
Qed.

(** A single string counts as a collection of one; other values never match. *)
Theorem C21_contains_other : forall t s,
  tags_contains t (TagStr s) = tags_contains t (TagColl [s]) /\ tags_contains t TagOther = false.
Proof. intros. split; reflexivity. Qed.

(** What a filter text means: exactly its non-negative tokens are included, exactly the
    negated ones excluded, both lists sorted and without repetition. *)
Theorem C21_parse : forall U v t, tags_parse U v = Ok t -> v <> [] ->
  (forall x, In x (t_include t) <-> token U v x /\ forall y, ~ negative x y) /\
  (forall x, In x (t_exclude t) <-> exists tok, token U v tok /\ negative tok x) /\
  increasing (t_include t) /\ increasing (t_exclude t).
Proof.
  intros U v t H Hv. unfold tags_parse in H. destruct v as [|c v]; [congruence|].
  set (V := c :: v) in *.
  destruct (tags_loop_spec (tags_tokens U V) [] []) as [Hbad Hgood].
  destruct (in_dec str_eq_dec [] (tags_tokens U V)) as [Hi|Hi].
  - rewrite Hbad in H by auto. discriminate.
  - destruct (Hgood Hi) as (i & e & E & Hi' & He & Ni & Ne). rewrite E in H.
    simpl in H. injection H as <-. cbn [t_include t_exclude].
    assert (Hin : forall x l, In x (sorted str_leb l) <-> In x l).
    { intros x l. split; apply Permutation_in; [apply Permutation_sym|]; apply sorted_perm. }
    split; [|split; [|split; apply sorted_increasing; [apply Ni | apply Ne]; constructor]].
    + intro x. rewrite Hin, Hi'. unfold inc_of. rewrite tokens_in. split.
      * intros [[]|[Ht Hc]]. split; auto. intros y Hy. apply is_neg_negative in Hy.
        destruct Hy as (d & -> & Hd). congruence.
      * intros [Ht Hc]. right. split; auto. destruct x as [|d x].
        -- apply tokens_in in Ht. contradiction.
        -- destruct (is_neg d) eqn:Ed; auto. exfalso. apply (Hc x). apply is_neg_negative. eauto.
    + intro x. rewrite Hin, He. unfold exc_of. split.
      * intros [[]|(d & Hd & Hd')]. exists (d :: x). rewrite <- tokens_in. split; auto.
        apply is_neg_negative. eauto.
      * intros (tok & Ht & Hn). right. apply is_neg_negative in Hn. destruct Hn as (d & -> & Hd).
        exists d. rewrite tokens_in. auto.
Qed.

(** The parse fails exactly when some token is blank (with IndexError). *)
Theorem C21_parse_fails_iff : forall U v, v <> [] ->
  (tags_parse U v = Err IndexError <-> token U v []) /\
  ((exists t, tags_parse U v = Ok t) <-> ~ token U v []).
Proof.
  intros U v Hv. unfold tags_parse. destruct v as [|c v]; [congruence|].
  set (V := c :: v) in *. rewrite <- !tokens_in.
  destruct (tags_loop_spec (tags_tokens U V) [] []) as [Hbad Hgood].
  destruct (in_dec str_eq_dec [] (tags_tokens U V)) as [Hi|Hi].
  - rewrite Hbad by auto. simpl. split; split; intros; auto; try tauto.
    destruct H as (t & H). discriminate.
  - destruct (Hgood Hi) as (i & e & E & _). rewrite E. simpl.
    split; split; intros; try tauto; try discriminate. eauto.
Qed.

(** Order, repetition, case and spacing do not matter: texts with the same tokens give the
    same filter. *)
Theorem C21_parse_order : forall U v1 v2, v1 <> [] -> v2 <> [] ->
  (forall tok, token U v1 tok <-> token U v2 tok) -> tags_parse U v1 = tags_parse U v2.
Proof.
  intros U v1 v2 H1 H2 H.
  destruct (@C21_parse_fails_iff U v1 H1) as [B1 G1].
  destruct (@C21_parse_fails_iff U v2 H2) as [B2 G2].
  destruct (in_dec str_eq_dec [] (tags_tokens U v1)) as [Hi|Hi]; rewrite tokens_in in Hi.
  - rewrite (proj2 B1 Hi). symmetry. apply B2. now apply H.
  - destruct (proj2 G1 Hi) as (t1 & E1). assert (Hi2 : ~ token U v2 []) by (now rewrite <- H).
    destruct (proj2 G2 Hi2) as (t2 & E2). rewrite E1, E2. f_equal.
    destruct (@C21_parse _ _ _ E1 H1) as (I1 & X1 & S1 & T1).
    destruct (@C21_parse _ _ _ E2 H2) as (I2 & X2 & S2 & T2).
    destruct t1 as [i1 e1], t2 as [i2 e2]. cbn [t_include t_exclude] in *. f_equal.
    + apply increasing_unique; auto. intro x. rewrite I1, I2, H. tauto.
    + apply increasing_unique; auto. intro x. rewrite X1, X2.
      split; intros (tok & Ht & Hn); exists tok; split; auto; now apply H.
Qed.

(** A trailing comma makes the command line crash with IndexError. *)
Example C21_trailing_comma : forall U, tags_parse U (u "foo,") = Err IndexError.
Proof. intro U. vm_compute. reflexivity. Qed.

Example C21_ex : forall U, tags_parse U (u " Foo, !bar,foo ,^Baz") =
  Ok (Tags [u "foo"] [u "bar"; u "baz"]).
Proof. intro U. vm_compute. reflexivity. Qed.

(** Filter texts are lower-cased but rule tags are not: a rule tagged "Foo" cannot be
    selected by any parsed filter naming it. *)
Theorem C21_case_sensitive_tags : forall U t,
  tags_parse U (u "Foo") = Ok t -> tags_contains t (TagColl [u "Foo"]) = false.
Proof. intros U t H. vm_compute in H. injection H as <-. vm_compute. reflexivity. Qed.

Print Assumptions C21_contains.
Print Assumptions C21_parse.
Print Assumptions C21_parse_fails_iff.
Print Assumptions C21_parse_order.
