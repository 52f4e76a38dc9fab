(** * Rules about expressions: conditions and comparisons (C52-C54) *)
From Coq Require Import String List NArith ZArith Bool Arith Lia.
From Verif Require Import Base PyStr Py Rules RulesSpec PyToy.
Import ListNotations.

Lemma mbind_ok : forall S A B (m : M S A) (f : A -> M S B) s r s', mbind m f s = (Ok r, s') ->
  exists a s1, m s = (Ok a, s1) /\ f a s1 = (Ok r, s').
Proof. intros S A B m f s r s' H. unfold mbind in H. destruct (m s) as [[a|e] s1]; [eauto|discriminate]. Qed.
Lemma mbind_eq : forall S A B (m : M S A) (f : A -> M S B) s a s1, m s = (Ok a, s1) -> mbind m f s = f a s1.
Proof. intros S A B m f s a s1 H. unfold mbind. now rewrite H. Qed.
Lemma mbind_ext : forall S A B (m m' : M S A) (f f' : A -> M S B) s, m s = m' s -> (forall a s, f a s = f' a s) -> mbind m f s = mbind m' f' s.
Proof. intros S A B m m' f f' s H K. unfold mbind. rewrite H. destruct (m' s) as [[a|e] s1]; auto. Qed.
Lemma mbind_assoc : forall S A B C (m : M S A) (f : A -> M S B) (g : B -> M S C) s, mbind (mbind m f) g s = mbind m (fun a => mbind (f a) g) s.
Proof. intros S A B C m f g s. unfold mbind. destruct (m s) as [[a|e] s1]; auto. Qed.

(** ** C52 *)

(** A reported condition has the same outcome whatever its names stand for, whenever it has one. *)
Theorem C52_static : forall e, no_static_if e <> None -> exists b, forall P rho s r s',
  honest_bools P -> condition P rho e s = (Ok r, s') -> r = b.
Proof.
  intros e H. unfold no_static_if in H. destruct (static_bool e) as [b|] eqn:E; [|congruence]. clear H. exists b. intros P rho s r s' Hb. revert b E s r s'.
  induction e; intros b E st r s' C; cbn [static_bool] in E; try discriminate.
  - cbn [condition eval] in C. unfold keyword_value in C. destruct (str_eqb s (u "True")).
    + injection E as <-. unfold mbind, ret in C. rewrite Hb in C. congruence.
    + destruct (str_eqb s (u "False")); [|discriminate]. injection E as <-. unfold mbind, ret in C. rewrite Hb in C. congruence.
  - destruct (static_bool e) as [x|]; [|discriminate]. injection E as <-. cbn [condition] in C. apply mbind_ok in C. destruct C as (a & s1 & C1 & C2).
    apply IHe with (b := x) in C1; auto. unfold ret in C2. congruence.
  - cbn [condition] in C. destruct op; apply mbind_ok in C; destruct C as (a & s1 & C1 & C2).
    + assert (Or_ : (static_bool e2 = Some false \/ static_bool e1 = Some false) /\ b = false).
      { destruct (static_bool e2) as [[|]|], (static_bool e1) as [[|]|]; try discriminate; injection E as <-; auto. }
      destruct Or_ as [O ->]. destruct a; [|unfold ret in C2; congruence]. destruct O as [O|O]; [now apply IHe2 with (b := false) in C2|].
      now apply IHe1 with (b := false) in C1.
    + assert (Or_ : (static_bool e2 = Some true \/ static_bool e1 = Some true) /\ b = true).
      { destruct (static_bool e2) as [[|]|], (static_bool e1) as [[|]|]; try discriminate; injection E as <-; auto. }
      destruct Or_ as [O ->]. destruct a; [unfold ret in C2; congruence|]. destruct O as [O|O]; [now apply IHe2 with (b := true) in C2|].
      now apply IHe1 with (b := true) in C1.
Qed.

(** Not every such condition is reported. *)
Theorem C52_complete_refuted : ~ (forall e b, (forall P rho s r s', honest_bools P -> condition P rho e s = (Ok r, s') -> r = b) -> no_static_if e <> None).
Proof.
  intro H. apply (H (BoolOp (Name (u "True")) And (Name (u "True"))) true); [|reflexivity].
  intros P rho s r s' Hb C. cbn in C. unfold mbind, ret in C. cbn in C. rewrite !Hb in C. cbn in C. congruence.
Qed.

Example C52_example : no_static_if (Not (BoolOp (BoolOp (Call (Name (u "f")) []) And (Name (u "False"))) And (Name (u "x")))) <> None /\
  static_bool (Not (BoolOp (BoolOp (Call (Name (u "f")) []) And (Name (u "False"))) And (Name (u "x")))) = Some true.
Proof. split; [discriminate|reflexivity]. Qed.

(** ** C53 *)

(** The operands of a comparison, and where an operator stands between them. *)
Definition operands (l : expr) (rest : list (cmpop * expr)) : list expr := l :: map snd rest.
Definition between (l : expr) (rest : list (cmpop * expr)) (i : nat) (a : expr) (op : cmpop) (b : expr) : Prop :=
  nth_error (operands l rest) i = Some a /\ nth_error (map fst rest) i = Some op /\ nth_error (operands l rest) (S i) = Some b.

(** The operators of [rest'] are those of [rest], except that [f] replaces those that are next to an
    operand with [p]; the operands are the same. *)
Definition operators_changed (next_to : expr -> bool) (f : cmpop -> option cmpop) (l : expr) (rest rest' : list (cmpop * expr)) : Prop :=
  map snd rest' = map snd rest /\ List.length rest' = List.length rest /\
  forall i a op b, between l rest i a op b ->
    nth_error (map fst rest') i = Some (match f op with Some op' => if next_to a || next_to b then op' else op | None => op end).

Lemma between_cons : forall l op c rest i a o b, between l ((op, c) :: rest) i a o b <->
  match i with 0 => a = l /\ o = op /\ b = c | S j => between c rest j a o b end.
Proof.
  intros l op c rest [|j] a o b; unfold between, operands; cbn; [|reflexivity]. split; [intros (A & B & C); injection A as <-; injection B as <-; injection C as <-; auto|].
  intros (-> & -> & ->). auto.
Qed.

Definition to_equal (op : cmpop) : option cmpop := match op with Is => Some Equal | IsNot => Some NotEqual | _ => None end.
Definition to_is (op : cmpop) : option cmpop := match op with Equal => Some Is | NotEqual => Some IsNot | _ => None end.

(** "is" next to a number or a string: reported, and these operators, no others, become == and !=. *)
Theorem C53_by_equal : forall l rest,
  (by_equal (Compare l rest) <> None <-> exists i a op b, between l rest i a op b /\ (op = Is \/ op = IsNot) /\ (primitive a = true \/ primitive b = true)) /\
  (forall e, by_equal (Compare l rest) = Some e -> exists rest', e = Some (Compare l rest') /\ operators_changed primitive to_equal l rest rest').
Proof.
  intros l rest.
  assert (F : by_equal_found l rest = true <-> exists i a op b, between l rest i a op b /\ (op = Is \/ op = IsNot) /\ (primitive a = true \/ primitive b = true)).
  { revert l. induction rest as [|[op c] rest IH]; intro l; cbn [by_equal_found].
    - split; [discriminate|]. intros (i & a & o & b & (_ & B & _) & _). destruct i; discriminate.
    - rewrite orb_true_iff, IH, andb_true_iff, orb_true_iff. split.
      + intros [[Ho Hp]|(i & a & o & b & B & X)].
        * exists 0, l, op, c. rewrite between_cons. repeat split; auto. destruct op; try discriminate; auto.
        * exists (S i), a, o, b. rewrite between_cons. auto.
      + intros ([|i] & a & o & b & B & Ho & Hp); rewrite between_cons in B.
        * destruct B as (-> & -> & ->). left. split; auto. destruct Ho as [-> | ->]; auto.
        * right. eauto 10. }
  split.
  - rewrite <- F. cbn [by_equal]. destruct (by_equal_found l rest); split; intro; try discriminate; auto; congruence.
  - intros e H. cbn [by_equal] in H. destruct (by_equal_found l rest); [|discriminate]. injection H as <-. eexists. split; [reflexivity|]. clear F.
    unfold operators_changed. revert l. induction rest as [|[op c] rest IH]; intro l; cbn [by_equal_ops map].
    + split; auto. split; auto. intros i a op b (_ & B & _). destruct i; discriminate.
    + destruct (IH c) as (A & L & B). cbn [snd List.length]. split; [now rewrite A|]. split; [now rewrite L|]. intros [|i] a o b Bt; rewrite between_cons in Bt; [|now apply B].
      destruct Bt as (-> & -> & ->). cbn. destruct op; cbn; auto; destruct (primitive l || primitive c); auto.
Qed.

(** The replacement is not reported again. *)
Theorem C53_by_equal_once : forall e e', by_equal e = Some (Some e') -> by_equal e' = None.
Proof.
  intros e e' H. destruct e; try discriminate. destruct (by_equal (Compare e rest)) as [x|] eqn:E; [|discriminate]. injection H as ->.
  destruct (proj2 (C53_by_equal e rest) _ E) as (rest' & X & Sn & Ln & Ch). injection X as ->.
  destruct (by_equal (Compare e rest')) eqn:E2; auto. exfalso.
  assert (N : by_equal (Compare e rest') <> None) by congruence. apply C53_by_equal in N. destruct N as (i & a & op & b & (A & O & B) & Ho & Hp).
  unfold operands in A, B. rewrite Sn in A, B.
  assert (Oi : exists op0, nth_error (map fst rest) i = Some op0).
  { destruct (nth_error (map fst rest) i) eqn:Q; eauto. apply nth_error_None in Q. rewrite map_length in Q. assert (i < List.length (map fst rest')) by (apply nth_error_Some; congruence).
    rewrite map_length in *. lia. }
  destruct Oi as (op0 & O0). specialize (Ch i a op0 b). rewrite O in Ch. assert (X := Ch (conj A (conj O0 B))). injection X as X.
  assert (Pn : primitive a || primitive b = true) by (apply orb_true_iff; auto). rewrite Pn in X. destruct op0; cbn in X; destruct Ho; congruence.
Qed.

Theorem C53_by_is : forall qual l rest,
  (by_is qual (Compare l rest) <> None <-> exists i a op b, between l rest i a op b /\ (op = Equal \/ op = NotEqual) /\ (singleton qual a = true \/ singleton qual b = true)) /\
  (forall e, by_is qual (Compare l rest) = Some e -> exists rest', e = Some (Compare l rest') /\ operators_changed (singleton qual) to_is l rest rest').
Proof.
  intros qual l rest.
  assert (F : fst (by_is_ops qual l rest) = true <-> exists i a op b, between l rest i a op b /\ (op = Equal \/ op = NotEqual) /\ (singleton qual a = true \/ singleton qual b = true)).
  { revert l. induction rest as [|[op c] rest IH]; intro l; cbn [by_is_ops].
    - split; [discriminate|]. intros (i & a & o & b & (_ & B & _) & _). destruct i; discriminate.
    - specialize (IH c). destruct (by_is_ops qual c rest) as [needs out]. cbn [fst] in IH. destruct (equal_or_not op && (singleton qual l || singleton qual c)) eqn:E; cbn [fst].
      + split; auto. intros _. apply andb_true_iff in E. destruct E as [E1 E2]. apply orb_true_iff in E2. exists 0, l, op, c. rewrite between_cons. repeat split; auto.
        destruct op; try discriminate; auto.
      + rewrite IH. split.
        * intros (i & a & o & b & B & X). exists (S i), a, o, b. rewrite between_cons. auto.
        * intros ([|i] & a & o & b & B & Ho & Hp); rewrite between_cons in B; [|eauto 10]. destruct B as (-> & -> & ->). exfalso.
          assert (X : equal_or_not op && (singleton qual l || singleton qual c) = true) by (apply andb_true_iff; split; [destruct Ho as [-> | ->]; auto|apply orb_true_iff; auto]). congruence. }
  split.
  - rewrite <- F. cbn [by_is]. destruct (by_is_ops qual l rest) as [[|] out]; cbn; split; intro; try discriminate; auto; congruence.
  - intros e H. cbn [by_is] in H.
    assert (K : operators_changed (singleton qual) to_is l rest (snd (by_is_ops qual l rest))).
    { clear. unfold operators_changed. revert l. induction rest as [|[op c] rest IH]; intro l; cbn [by_is_ops map].
      - split; auto. split; auto. intros i a op b (_ & B & _). destruct i; discriminate.
      - destruct (IH c) as (A & L & B). destruct (by_is_ops qual c rest) as [needs out]. cbn [snd] in *.
        destruct (equal_or_not op && (singleton qual l || singleton qual c)) eqn:E; cbn [snd map List.length]; rewrite A, L; split; auto; split; auto.
        + intros [|i] a o b Bt; rewrite between_cons in Bt; [|now apply B]. destruct Bt as (-> & -> & ->). apply andb_true_iff in E. destruct E as [E1 E2]. cbn [nth_error fst]. rewrite E2.
          destruct op; try discriminate; reflexivity.
        + intros [|i] a o b Bt; rewrite between_cons in Bt; [|now apply B]. destruct Bt as (-> & -> & ->). cbn [nth_error fst]. destruct op; cbn in *; auto; now rewrite E. }
    destruct (by_is_ops qual l rest) as [[|] out]; [|discriminate]. injection H as <-. eauto.
Qed.

Theorem C53_by_is_once : forall qual e e', by_is qual e = Some (Some e') -> by_is qual e' = None.
Proof.
  intros qual e e' H. destruct e; try discriminate. destruct (by_is qual (Compare e rest)) as [x|] eqn:E; [|discriminate]. injection H as ->.
  destruct (proj2 (C53_by_is qual e rest) _ E) as (rest' & X & Sn & Ln & Ch). injection X as ->.
  destruct (by_is qual (Compare e rest')) eqn:E2; auto. exfalso.
  assert (N : by_is qual (Compare e rest') <> None) by congruence. apply C53_by_is in N. destruct N as (i & a & op & b & (A & O & B) & Ho & Hp).
  unfold operands in A, B. rewrite Sn in A, B.
  assert (Oi : exists op0, nth_error (map fst rest) i = Some op0).
  { destruct (nth_error (map fst rest) i) eqn:Q; eauto. apply nth_error_None in Q. rewrite map_length in Q. assert (i < List.length (map fst rest')) by (apply nth_error_Some; congruence).
    rewrite map_length in *. lia. }
  destruct Oi as (op0 & O0). specialize (Ch i a op0 b). rewrite O in Ch. assert (X := Ch (conj A (conj O0 B))). injection X as X.
  assert (Pn : singleton qual a || singleton qual b = true) by (apply orb_true_iff; auto). rewrite Pn in X. destruct op0; cbn in X; destruct Ho; congruence.
Qed.

(** Where == with a singleton means identity, the comparison with "is" does the same. *)
Theorem C53_by_is_meaning : forall qual P rho e e',
  (forall x, qual x = true -> exists v, names_singleton P x v /\ by_identity P v) ->
  by_is qual e = Some (Some e') -> same_meaning P rho e e'.
Proof.
  intros qual P rho e e' Q H. destruct e; try discriminate. cbn [by_is] in H. destruct (by_is_ops qual e rest) as [[|] out] eqn:E; [|discriminate]. injection H as <-.
  assert (Sv : forall x s v s', singleton qual x = true -> eval P rho x s = (Ok v, s') -> by_identity P v).
  { intros x s v s' Sx Ex. destruct x; try discriminate. cbn [singleton] in Sx. destruct (Q _ Sx) as (w & [(Z & ->)|[(Z & ->)|(Z & ->)]] & Id); injection Z as ->; cbn in Ex; unfold ret in Ex; injection Ex as <- _; exact Id. }
  assert (K : forall l rest v s, (singleton qual l = true -> by_identity P v) ->
            chain P (eval P rho) v (snd (by_is_ops qual l rest)) s = chain P (eval P rho) v rest s).
  { clear E out. intros l rest0. revert l. induction rest0 as [|[op c] rest0 IH]; intros l v s Sl; [reflexivity|]. cbn [by_is_ops].
    specialize (IH c). destruct (by_is_ops qual c rest0) as [needs out] eqn:Eo. cbn [snd] in IH.
    assert (Cm : forall w s, (singleton qual c = true -> by_identity P w) -> equal_or_not op && (singleton qual l || singleton qual c) = true ->
              compare P (match op with NotEqual => IsNot | _ => Is end) v w s = compare P op v w s).
    { intros w s0 Sw B. apply andb_true_iff in B. destruct B as [B1 B2]. apply orb_true_iff in B2.
      assert (Z : by_identity P v \/ by_identity P w) by tauto. assert (I12 : p_compare P Equal v w s0 = (Ok (p_bool P (p_same P v w)), s0) /\ p_compare P NotEqual v w s0 = (Ok (p_bool P (negb (p_same P v w))), s0)) by (destruct Z as [Z|Z]; apply Z; auto). destruct I12 as [I1 I2].
      destruct op; try discriminate; cbn; unfold ret; congruence. }
    assert (Ln : (match out with [] => true | _ => false end) = (match rest0 with [] => true | _ => false end)).
    { destruct rest0 as [|[o2 c2] r2]; cbn [by_is_ops] in Eo; [injection Eo as <- <-; auto|]. destruct (by_is_ops qual c2 r2). destruct (_ && _); injection Eo as <- <-; auto. }
    assert (Main : forall op', (forall w s, (singleton qual c = true -> by_identity P w) -> compare P op' v w s = compare P op v w s) ->
              chain P (eval P rho) v ((op', c) :: out) s = chain P (eval P rho) v ((op, c) :: rest0) s).
    { intros op' Hc. cbn [chain]. unfold mbind. destruct (eval P rho c s) as [[w|x] s1] eqn:Ew; auto.
      assert (Sw : singleton qual c = true -> by_identity P w) by (intro; eapply Sv; eauto). rewrite (Hc w s1 Sw).
      destruct (compare P op v w s1) as [[b|x] s2]; auto. destruct out, rest0; try discriminate; auto.
      destruct (p_truth P b s2) as [[[|]|x] s3]; auto. }
    destruct (equal_or_not op && (singleton qual l || singleton qual c)) eqn:B; cbn [snd]; apply Main; auto. }
  intro s. cbn [eval]. unfold mbind. destruct (eval P rho e s) as [[v|x] s1] eqn:Ev; auto. symmetry. specialize (K e rest v s1). rewrite E in K. apply K. intro. eapply Sv; eauto.
Qed.

(** With True it does not: 1 == True, and 1 is not True. *)
Theorem C53_true_refuted : ~ (forall P rho e e', honest_bools P -> by_is (is_name "True") e = Some (Some e') -> same_meaning P rho e e').
Proof.
  intro H. set (P := toy (fun _ => None)). specialize (H P [] (Compare (Number (u "1")) [(Equal, Name (u "True"))]) (Compare (Number (u "1")) [(Is, Name (u "True"))]) (fun b s => eq_refl) ltac:(vm_compute; reflexivity) []). vm_compute in H. discriminate H.
Qed.
Example C53_none_example : let P := toy (fun _ => None) in forall x, is_name "None" x = true -> exists v, names_singleton P x v /\ by_identity P v.
Proof.
  intros P x H. destruct x; try discriminate H. cbn in H. apply str_eqb_eq in H. subst s. exists TNone. split; [left; auto|].
  intros a b s [->| ->]; [destruct b|destruct a]; split; reflexivity.
Qed.

(** The two comparison rules can undo each other for ever. *)
Theorem C53_cycle_refuted : ~ (forall qual e e', by_is qual e = Some (Some e') -> by_equal e' <> Some (Some e)).
Proof.
  intro H. apply (H (fun x => is_name "True" x) (Compare (Number (u "1")) [(Equal, Name (u "True"))]) (Compare (Number (u "1")) [(Is, Name (u "True"))])); vm_compute; reflexivity.
Qed.

Example C53_example_equal : by_equal (Compare (Name (u "a")) [(Is, Number (u "1")); (IsNot, Name (u "b")); (Is, Name (u "c"))]) =
  Some (Some (Compare (Name (u "a")) [(Equal, Number (u "1")); (NotEqual, Name (u "b")); (Is, Name (u "c"))])).
Proof. reflexivity. Qed.
Example C53_example_is : by_is (is_name "None") (Compare (Name (u "a")) [(NotEqual, Name (u "None")); (Equal, Name (u "b")); (Equal, Name (u "c"))]) =
  Some (Some (Compare (Name (u "a")) [(IsNot, Name (u "None")); (Is, Name (u "b")); (Equal, Name (u "c"))])).
Proof. vm_compute. reflexivity. Qed.

(** ** C54 *)

(** Evaluating [e] changes nothing and gives [v]. *)
Definition gives (P : py) (rho : scope P) (s : state P) (e : expr) (v : value P) : Prop := eval P rho e s = (Ok v, s).
Definition holds (P : py) (rho : scope P) (s : state P) (e : expr) (b : bool) : Prop := condition P rho e s = (Ok b, s).

(** An operand that has no effect: an isinstance call of two plain arguments without effect, or any
    expression whose truth value can be asked for without effect. *)
Definition steady (P : py) (rho : scope P) (s : state P) (is_isinstance : expr -> bool) (e : expr) : Prop :=
  (exists g t c vt vc, e = Call g [plain_arg t; plain_arg c] /\ is_isinstance g = true /\ gives P rho s t vt /\ gives P rho s c vc) \/
  ((forall g a b, e = Call g [a; b] -> is_isinstance g = true -> exists cs, a_value b = Tuple cs) /\ exists b, holds P rho s e b).

Lemma check_of_none : forall is_isinstance e,
  (forall g a b, e = Call g [a; b] -> is_isinstance g = true -> exists cs, a_value b = Tuple cs) -> check_of is_isinstance e = None.
Proof.
  intros isi e H. unfold check_of. destruct e; auto. destruct args as [|[[s1 k1] t] [|[[s2 k2] c] [|]]]; auto.
  destruct (isi e) eqn:E; [|destruct c; auto]. destruct (H _ _ _ eq_refl E) as (cs & X). cbn in X. now subst c.
Qed.

Section Collapse.
  Context (P : py) (rho : scope P) (s : state P) (f : value P) (inst : value P -> value P -> bool) (tup : list (value P) -> value P).
  Context (deq : expr -> expr -> bool) (is_isinstance : expr -> bool).
  Context (Hb : honest_bools P) (Hi : isinstance_laws P f inst tup) (Hn : builtin P rho "isinstance" f).
  Context (Hd : forall a b, deq a b = true -> a = b) (Hq : forall g, is_isinstance g = true -> forall s, eval P rho g s = (Ok f, s)).

  Lemma holds_or : forall l r a b, holds P rho s l a -> holds P rho s r b -> holds P rho s (BoolOp l Or r) (a || b).
  Proof. intros l r a b A B. unfold holds in *. cbn [condition]. unfold mbind. rewrite A. destruct a; auto. Qed.

  Lemma unwrap_holds : forall e bs, Forall2 (holds P rho s) (unwrap e) bs -> holds P rho s e (existsb (fun b => b) bs).
  Proof.
    induction e; intros bs F; cbn [unwrap] in F; try (inversion F as [|? b ? ? H F2]; subst; inversion F2; subst; cbn; rewrite orb_false_r; exact H).
    destruct op; [inversion F as [|? b ? ? H F2]; subst; inversion F2; subst; cbn; rewrite orb_false_r; exact H|].
    apply Forall2_app_inv_l in F. destruct F as (b1 & b2 & F1 & F2 & ->). inversion F2 as [|? b ? ? H F3]; subst. inversion F3; subst.
    rewrite existsb_app. cbn. rewrite orb_false_r. apply holds_or; auto.
  Qed.

  Lemma fold_holds : forall es bs e b, holds P rho s e b -> Forall2 (holds P rho s) es bs ->
    holds P rho s (fold_left (fun l r => BoolOp l Or r) es e) (b || existsb (fun b => b) bs).
  Proof.
    intros es bs e b H F. revert e b H. induction F as [|x y es bs A F IH]; intros e b H; cbn [fold_left existsb]; [now rewrite orb_false_r|].
    rewrite orb_assoc. apply IH. now apply holds_or.
  Qed.

  Lemma elements_plain : forall cs vcs, Forall2 (gives P rho s) cs vcs -> elements P (eval P rho) (map (fun c => (false, c)) cs) s = (Ok vcs, s).
  Proof.
    intros cs vcs F. induction F as [|c v cs vcs H F IH]; [reflexivity|]. cbn [map elements]. unfold mbind, ret. rewrite H. rewrite IH. reflexivity.
  Qed.

  Lemma call_check : forall g t c vt vc, (forall s, eval P rho g s = (Ok f, s)) -> gives P rho s t vt -> gives P rho s c vc ->
    holds P rho s (Call g [plain_arg t; plain_arg c]) (inst vt vc).
  Proof.
    intros g t c vt vc G A B. unfold holds. cbn [condition eval arguments plain_arg]. unfold gives, mbind, ret in *. rewrite G, A, B. cbn.
    rewrite (call_isinstance _ _ _ _ Hi). apply Hb.
  Qed.

  (** what a collected operand is worth *)
  Inductive worth : operand -> bool -> Prop :=
    | W_operand : forall e b, holds P rho s e b -> worth (Operand e) b
    | W_target : forall t cs vt vcs, cs <> [] -> gives P rho s t vt -> Forall2 (gives P rho s) cs vcs -> worth (Target t cs) (existsb (inst vt) vcs).

  Lemma worth_holds : forall o b, worth o b -> holds P rho s (operand_expr o) b.
  Proof.
    intros o b W. destruct W as [e b H|t cs vt vcs N A F]; [exact H|]. destruct F as [|c v cs vcs C F]; [congruence|]. destruct F as [|c2 v2 cs vcs C2 F].
    - cbn [operand_expr existsb]. rewrite orb_false_r. now apply call_check.
    - assert (E : holds P rho s (Call (Name (u "isinstance")) [plain_arg t; plain_arg (Tuple (map (fun c => (false, c)) (c :: c2 :: cs)))]) (inst vt (tup (v :: v2 :: vcs)))).
      { apply call_check; auto. unfold gives. cbn [eval]. unfold mbind. rewrite (elements_plain (c :: c2 :: cs) (v :: v2 :: vcs)) by (repeat constructor; auto). apply (make_tuple _ _ _ _ Hi). }
      rewrite (inst_tuple _ _ _ _ Hi) in E. exact E.
  Qed.

  Lemma add_worth : forall t c vt vc ops bs, gives P rho s t vt -> gives P rho s c vc -> Forall2 worth ops bs ->
    exists bs', Forall2 worth (add_check deq t c ops) bs' /\ existsb (fun b => b) bs' = existsb (fun b => b) bs || inst vt vc.
  Proof.
    intros t c vt vc ops bs A B F. induction F as [|o b ops bs W F IH]; cbn [add_check].
    - exists [existsb (inst vt) [vc]]. split; [repeat constructor; auto; discriminate|]. cbn. now rewrite !orb_false_r.
    - destruct IH as (bs' & F' & E'). destruct W as [e b H|t' cs vt' vcs N A' Fc].
      + exists (b :: bs'). split; [constructor; auto; now constructor|]. cbn. rewrite E'. apply orb_assoc.
      + destruct (deq t t') eqn:D.
        * apply Hd in D. subst t'. assert (vt' = vt) by (unfold gives in *; congruence). subst vt'.
          exists (existsb (inst vt) (vcs ++ [vc]) :: bs). split.
          { constructor; auto. constructor; auto; [destruct cs; discriminate|]. apply Forall2_app; auto. }
          cbn. rewrite existsb_app. cbn. rewrite orb_false_r. rewrite <- !orb_assoc. f_equal. apply orb_comm.
        * exists (existsb (inst vt') vcs :: bs'). split; [constructor; auto; now constructor|]. cbn. rewrite E'. apply orb_assoc.
  Qed.

  Lemma collect_worth : forall stack ops bs, (forall e, List.In e stack -> steady P rho s is_isinstance e) -> Forall2 worth ops bs ->
    exists sb bs', Forall2 (holds P rho s) stack sb /\
      Forall2 worth (fold_left (fun ops e => match check_of is_isinstance e with Some (t, c) => add_check deq t c ops | None => ops ++ [Operand e] end) stack ops) bs' /\
      existsb (fun b => b) bs' = existsb (fun b => b) bs || existsb (fun b => b) sb.
  Proof.
    induction stack as [|e stack IH]; intros ops bs St F; cbn [fold_left].
    - exists [], bs. split; [constructor|]. split; auto. cbn. now rewrite orb_false_r.
    - assert (St' : forall e, List.In e stack -> steady P rho s is_isinstance e) by (intros; apply St; simpl; auto).
      destruct (St e (or_introl eq_refl)) as [(g & t & c & vt & vc & -> & G & A & B)|(C & b & H)].
      + destruct (check_of is_isinstance (Call g [plain_arg t; plain_arg c])) as [[t' c']|] eqn:C.
        * assert (t' = t /\ c' = c) as [-> ->]. { cbn in C. rewrite G in C. destruct c; try discriminate; injection C as <- <-; auto. }
          destruct (add_worth t c vt vc _ _ A B F) as (b1 & F1 & E1). destruct (IH _ _ St' F1) as (sb & bs' & S1 & S2 & S3). exists (inst vt vc :: sb), bs'.
          split; [constructor; auto; apply call_check; auto|]. split; auto. rewrite S3, E1. cbn. now rewrite orb_assoc.
        * assert (H : holds P rho s (Call g [plain_arg t; plain_arg c]) (inst vt vc)) by (apply call_check; auto).
          destruct (IH (ops ++ [Operand (Call g [plain_arg t; plain_arg c])]) (bs ++ [inst vt vc]) St') as (sb & bs' & S1 & S2 & S3); [apply Forall2_app; auto; repeat constructor; auto|].
          exists (inst vt vc :: sb), bs'. split; [constructor; auto|]. split; auto. rewrite S3, existsb_app. cbn. now rewrite orb_false_r, orb_assoc.
      + rewrite (check_of_none _ _ C). destruct (IH (ops ++ [Operand e]) (bs ++ [b]) St') as (sb & bs' & S1 & S2 & S3); [apply Forall2_app; auto; repeat constructor; auto|].
        exists (b :: sb), bs'. split; [constructor; auto|]. split; auto. rewrite S3, existsb_app. cbn. now rewrite orb_false_r, orb_assoc.
  Qed.
End Collapse.

(** The collapsed condition is true exactly if the original one is, provided no operand has effects
    or fails, and the calls it takes for isinstance calls are. *)
Theorem C54_truth : forall P rho s f inst tup deq is_isinstance e e',
  honest_bools P -> isinstance_laws P f inst tup -> builtin P rho "isinstance" f ->
  (forall a b, deq a b = true -> a = b) -> (forall g, is_isinstance g = true -> forall s, eval P rho g s = (Ok f, s)) ->
  (forall x, List.In x (unwrap e) -> steady P rho s is_isinstance x) ->
  collapse deq is_isinstance e = Some (Some e') ->
  exists b, condition P rho e s = (Ok b, s) /\ condition P rho e' s = (Ok b, s).
Proof.
  intros P rho s f inst tup deq isi e e' Hb Hi Hn Hd Hq St H. destruct e; try discriminate. unfold collapse in H. set (e := BoolOp e1 op e2) in *.
  destruct (Nat.eqb _ _); [discriminate|].
  destruct (collect_worth P rho s f inst tup deq isi Hb Hi Hd Hq (unwrap e) [] [] St (Forall2_nil _)) as (sb & bs & S1 & S2 & S3).
  exists (existsb (fun b => b) sb). split; [exact (unwrap_holds P rho s e sb S1)|]. cbn in S3. rewrite <- S3. fold (collect_targets deq isi (unwrap e)) in S2.
  assert (F : Forall2 (holds P rho s) (map operand_expr (collect_targets deq isi (unwrap e))) bs).
  { clear - S2 Hb Hi Hn Hq. induction S2; cbn; constructor; auto. eapply worth_holds; eauto. }
  destruct (map operand_expr (collect_targets deq isi (unwrap e))) as [|x xs]; [discriminate|]. cbn in H. injection H as <-. inversion F as [|? b ? bs' X F']; subst. cbn [existsb].
  exact (fold_holds P rho s xs bs' x b X F').
Qed.

(** ** A collapsed condition is not reported again. *)

Definition later_differs (deq : expr -> expr -> bool) (ops : list operand) : Prop :=
  ForallOrdPairs (fun a b => match a, b with Target t _, Target t' _ => deq t' t = false | _, _ => True end) ops.
Definition no_check (isi : expr -> bool) (o : operand) : Prop :=
  match o with Operand e => check_of isi e = None | Target _ cs => cs <> [] /\ forall c, List.In c cs -> match c with Tuple _ => False | _ => True end end.

Lemma check_of_not_tuple : forall isi e t c, check_of isi e = Some (t, c) -> match c with Tuple _ => False | _ => True end.
Proof.
  intros isi e t c H. destruct e; try discriminate. cbn in H. destruct args as [|[[? ?] a] [|[[? ?] b] [|]]]; try discriminate.
  destruct b; try discriminate; destruct (isi e); try discriminate; injection H as <- <-; exact I.
Qed.

Lemma pairs_cons : forall A (R : A -> A -> Prop) a l, ForallOrdPairs R (a :: l) <-> Forall (R a) l /\ ForallOrdPairs R l.
Proof. intros. split; [now inversion 1|]. intros [H K]. now constructor. Qed.

Lemma pairs_app1 : forall A (R : A -> A -> Prop) l x, ForallOrdPairs R (l ++ [x]) <-> ForallOrdPairs R l /\ Forall (fun a => R a x) l.
Proof.
  induction l as [|a l IH]; intro x; cbn.
  - split; intro; [split; constructor|repeat constructor].
  - rewrite !pairs_cons, IH, Forall_app, Forall_cons_iff, Forall_cons_iff. rewrite Forall_nil_iff. tauto.
Qed.

Section CollapseOnce.
  Context (deq : expr -> expr -> bool) (isi : expr -> bool).

  (** as add_check: either one target gets longer, or a new one at the end differs from all *)
  Lemma add_check_cases : forall t c ops,
    (exists ops1 t' cs ops2, ops = ops1 ++ Target t' cs :: ops2 /\ add_check deq t c ops = ops1 ++ Target t' (cs ++ [c]) :: ops2) \/
    (add_check deq t c ops = ops ++ [Target t [c]] /\ Forall (fun o => match o with Target t' _ => deq t t' = false | _ => True end) ops).
  Proof.
    induction ops as [|o ops IH]; [right; cbn; auto|]. cbn [add_check].
    destruct o as [t' cs|e].
    - destruct (deq t t') eqn:D; [left; exists [], t', cs, ops; auto|].
      destruct IH as [(ops1 & t1 & cs1 & ops2 & -> & E)|[E F]]; [left|right]; rewrite E; [exists (Target t' cs :: ops1), t1, cs1, ops2; auto|split; auto].
    - destruct IH as [(ops1 & t1 & cs1 & ops2 & -> & E)|[E F]]; [left|right]; rewrite E; [exists (Operand e :: ops1), t1, cs1, ops2; auto|split; auto].
  Qed.

  Definition grown (o o' : operand) : Prop := match o, o' with Target t _, Target t' _ => t = t' | Operand e, Operand e' => e = e' | _, _ => False end.
  Lemma later_same_targets : forall ops ops', Forall2 grown ops ops' -> later_differs deq ops -> later_differs deq ops'.
  Proof.
    intros ops ops' F. unfold later_differs. induction F as [|a b l l' H F IH]; intro L; [constructor|]. rewrite pairs_cons in L. destruct L as [L1 L2]. rewrite pairs_cons. split; auto.
    clear IH L2. induction F as [|x y l l' H2 F IH]; [constructor|]. inversion L1; subst. constructor; auto.
    destruct a, b; try contradiction; cbn in H; subst; destruct x, y; try contradiction; cbn in H2; subst; auto.
  Qed.
  Lemma grown_refl : forall l, Forall2 grown l l.
  Proof. induction l as [|[]]; constructor; cbn; auto. Qed.

  Lemma collect_facts : forall stack ops, later_differs deq ops -> Forall (no_check isi) ops ->
    let ops' := fold_left (fun ops e => match check_of isi e with Some (t, c) => add_check deq t c ops | None => ops ++ [Operand e] end) stack ops in
    later_differs deq ops' /\ Forall (no_check isi) ops'.
  Proof.
    induction stack as [|e stack IH]; intros ops L N; [auto|]. cbn [fold_left]. destruct (check_of isi e) as [[t c]|] eqn:C.
    - pose proof (check_of_not_tuple _ _ _ _ C) as NT. destruct (add_check_cases t c ops) as [(ops1 & t' & cs & ops2 & -> & E)|[E F]]; rewrite E; apply IH.
      + apply later_same_targets with (ops1 ++ Target t' cs :: ops2); auto. apply Forall2_app; [apply grown_refl|]. constructor; [reflexivity|apply grown_refl].
      + rewrite !Forall_app, !Forall_cons_iff in *. destruct N as (N1 & [N2 N3] & N4). repeat split; auto; [destruct cs; discriminate|]. intros x X. apply in_app_iff in X. destruct X as [X|[X|[]]]; [now apply N3|]. subst x. exact NT.
      + unfold later_differs. apply pairs_app1. split; [exact L|]. eapply Forall_impl; [|exact F]. intros [t' cs|x]; intro Y; auto.
      + apply Forall_app. split; auto. constructor; auto. split; [discriminate|]. intros x [X|[]]. subst x. exact NT.
    - apply IH; [apply pairs_app1; split; auto; apply Forall_forall; intros [] _; exact I|]. apply Forall_app. split; auto.
  Qed.

  Lemma collect_again : forall es ops, later_differs deq (ops ++ es) -> Forall (no_check isi) es ->
    List.length (fold_left (fun ops e => match check_of isi e with Some (t, c) => add_check deq t c ops | None => ops ++ [Operand e] end) (map operand_expr es) ops) = List.length ops + List.length es.
  Proof.
    induction es as [|o es IH]; intros ops L N; cbn [map fold_left]; [cbn; lia|]. inversion N as [|? ? N1 N2]; subst.
    assert (K : exists x, (match check_of isi (operand_expr o) with Some (t, c) => add_check deq t c ops | None => ops ++ [Operand (operand_expr o)] end) = ops ++ [x] /\ later_differs deq (ops ++ x :: es)).
    { assert (Split : forall l1 x l2, later_differs deq (l1 ++ x :: l2) <-> later_differs deq ((l1 ++ [x]) ++ l2)) by (intros; now rewrite <- app_assoc).
      assert (OpK : forall e, later_differs deq (ops ++ o :: es) -> later_differs deq (ops ++ Operand e :: es)).
      { clear. intro e. unfold later_differs. induction ops as [|a l IHl]; cbn [app]; rewrite !pairs_cons.
        - intros [_ H]. split; auto. apply Forall_forall. intros x _. destruct x; exact I.
        - intros [H1 H2]. split; auto. apply Forall_app in H1. destruct H1 as [H1 H3]. inversion H3; subst. apply Forall_app. split; auto. constructor; auto. destruct a; exact I. }
      destruct o as [t cs|e].
      - destruct N1 as [Ne Nt]. destruct cs as [|c [|c2 cs]]; [congruence| |].
        + cbn [operand_expr]. destruct (check_of isi (Call (Name (u "isinstance")) [plain_arg t; plain_arg c])) as [[t' c']|] eqn:C.
          * assert (t' = t /\ c' = c) as [-> ->]. { unfold check_of, plain_arg in C. destruct (isi (Name (u "isinstance"))); destruct c; try discriminate; injection C as <- <-; auto. }
            exists (Target t [c]). split; auto. apply Split in L. unfold later_differs in L. 
            assert (L1 : Forall (fun o => match o with Target t' _ => deq t t' = false | _ => True end) ops).
            { clear - L. revert L. induction ops as [|a l IHl]; [constructor|]. cbn [app]. rewrite pairs_cons. intros [H1 H2]. constructor; auto.
              rewrite Forall_app in H1. destruct H1 as [H1 _]. apply Forall_app in H1. destruct H1 as [_ H1]. inversion H1; subst. destruct a; auto. }
            clear - L1. induction L1 as [|o ops H F IHF]; [reflexivity|]. cbn [add_check app]. destruct o; [rewrite H|]; now rewrite IHF.
          * exists (Operand (Call (Name (u "isinstance")) [plain_arg t; plain_arg c])). split; auto.
        + exists (Operand (operand_expr (Target t (c :: c2 :: cs)))). split; auto. 
      - cbn [operand_expr]. cbn in N1. rewrite N1. exists (Operand e). auto. }
    destruct K as (x & -> & K). rewrite IH; auto; [rewrite app_length; cbn; lia|]. now rewrite <- app_assoc.
  Qed.
End CollapseOnce.

Definition not_or (e : expr) : Prop := match e with BoolOp _ Or _ => False | _ => True end.
Lemma unwrap_first : forall e, exists x xs, unwrap e = x :: xs /\ not_or x.
Proof.
  induction e; try (eexists; eexists; split; [reflexivity|exact I]). destruct op; [eexists; eexists; split; [reflexivity|exact I]|].
  destruct IHe1 as (x & xs & E & N). cbn [unwrap]. rewrite E. exists x, (xs ++ [e2]). auto.
Qed.
Lemma unwrap_fold : forall es e, unwrap (fold_left (fun l r => BoolOp l Or r) es e) = unwrap e ++ es.
Proof. induction es as [|x es IH]; intro e; cbn [fold_left]; [now rewrite app_nil_r|]. rewrite IH. cbn [unwrap]. now rewrite <- app_assoc. Qed.

Theorem C54_once : forall deq is_isinstance e e', collapse deq is_isinstance e = Some (Some e') -> collapse deq is_isinstance e' = None.
Proof.
  intros deq isi e e' H. destruct e; try discriminate. unfold collapse in H. set (e := BoolOp e1 op e2) in *. destruct (Nat.eqb _ _); [discriminate|].
  destruct (unwrap_first e) as (x & xs & U & Nx).
  destruct (collect_facts deq isi (unwrap e) [] ltac:(constructor) ltac:(constructor)) as [L N]. fold (collect_targets deq isi (unwrap e)) in L, N.
  assert (First : exists o os, collect_targets deq isi (unwrap e) = o :: os /\ not_or (operand_expr o)).
  { rewrite U. unfold collect_targets. cbn [fold_left].
    assert (G : forall l o os, not_or (operand_expr o) -> exists o' os', fold_left (fun ops e => match check_of isi e with Some (t, c) => add_check deq t c ops | None => ops ++ [Operand e] end) l (o :: os) = o' :: os' /\ not_or (operand_expr o')).
    { induction l as [|y l IHl]; intros o os No; [cbn; eauto|]. cbn [fold_left]. destruct (check_of isi y) as [[t c]|]; [|apply IHl; auto].
      cbn [add_check]. destruct o as [t' cs|z]; [|apply IHl; auto]. destruct (deq t t'); apply IHl; auto. destruct cs as [|? [|]]; exact I. }
    destruct (check_of isi x) as [[t c]|]; apply G; [exact I|exact Nx]. }
  destruct First as (o & os & E & No). pose proof (collect_again deq isi (o :: os) []) as CA. rewrite E in *. cbn [map or_all] in H. injection H as <-.
  destruct os as [|o2 os].
  - cbn. destruct (operand_expr o) as [| | | | | | | | |l b r| | | | | | | | | | | |]; auto. destruct b; [|contradiction]. reflexivity.
  - set (r := fold_left (fun l r => BoolOp l Or r) (map operand_expr (o2 :: os)) (operand_expr o)).
    assert (Ur : unwrap r = map operand_expr (o :: o2 :: os)).
    { unfold r. rewrite unwrap_fold. destruct (operand_expr o) as [| | | | | | | | |l b rr| | | | | | | | | | | |] eqn:Eo; try (cbn; rewrite Eo; reflexivity). destruct b; [|contradiction]. cbn. now rewrite Eo. }
    assert (B : exists a b, r = BoolOp a Or b).
    { unfold r. cbn [map fold_left]. generalize (BoolOp (operand_expr o) Or (operand_expr o2)) (ex_intro (fun a => exists b, BoolOp (operand_expr o) Or (operand_expr o2) = BoolOp a Or b) _ (ex_intro _ _ eq_refl)).
      generalize (map operand_expr os). induction l as [|y l IHl]; intros z Z; [exact Z|]. apply IHl. eauto. }
    destruct B as (a & b & B). unfold collapse. rewrite B. rewrite <- B, Ur. unfold collect_targets. rewrite (CA L N). rewrite map_length. cbn [List.length plus]. now rewrite Nat.eqb_refl.
Qed.

(** A concrete case, on a concrete machine: two variables, four checks, and an operand between them *)
Definition expr_name_eqb (a b : expr) : bool := match a, b with Name x, Name y => str_eqb x y | _, _ => false end.
Definition chk (t c : string) : expr := Call (Name (u "isinstance")) [plain_arg (Name (u t)); plain_arg (Name (u c))].
Definition ors (l : list expr) : expr := match l with [] => Name [] | e :: es => fold_left (fun l r => BoolOp l Or r) es e end.
Definition some_globals (n : str) : option tv :=
  if str_eqb n (u "x") then Some (TInt 2) else if str_eqb n (u "a") then Some (TCls 1) else if str_eqb n (u "b") then Some (TCls 2) else if str_eqb n (u "y") then Some (TInt 7) else None.
Example C54_example : let e := ors [chk "x" "a"; Name (u "y"); chk "y" "b"; chk "x" "b"] in
  collapse expr_name_eqb (is_name "isinstance") e =
    Some (Some (ors [Call (Name (u "isinstance")) [plain_arg (Name (u "x")); plain_arg (Tuple [(false, Name (u "a")); (false, Name (u "b"))])]; Name (u "y"); chk "y" "b"])) /\
  forall x, List.In x (unwrap e) -> steady (toy some_globals) [] [] (is_name "isinstance") x.
Proof.
  split; [vm_compute; reflexivity|]. intros x [<-|[<-|[<-|[<-|[]]]]].
  - left. exists (Name (u "isinstance")), (Name (u "x")), (Name (u "a")), (TInt 2), (TCls 1). repeat split.
  - right. split; [intros g a b X; discriminate|]. exists true. reflexivity.
  - left. exists (Name (u "isinstance")), (Name (u "y")), (Name (u "b")), (TInt 7), (TCls 2). repeat split.
  - left. exists (Name (u "isinstance")), (Name (u "x")), (Name (u "b")), (TInt 2), (TCls 2). repeat split.
Qed.
Example C54_example_laws : honest_bools (toy some_globals) /\ isinstance_laws (toy some_globals) (TFun (u "isinstance")) tinst TTup /\
  builtin (toy some_globals) [] "isinstance" (TFun (u "isinstance")).
Proof. split; [apply toy_bools|]. split; [apply toy_isinstance|]. intro s. reflexivity. Qed.

(** The value is not the same: with an operand between two checks of the same target, the result may be
    True instead of this operand. *)
Theorem C54_value_refuted : ~ (forall P rho s f inst tup e e',
  honest_bools P -> isinstance_laws P f inst tup -> builtin P rho "isinstance" f ->
  (forall x, List.In x (unwrap e) -> steady P rho s (is_name "isinstance") x) ->
  collapse expr_name_eqb (is_name "isinstance") e = Some (Some e') -> eval P rho e s = eval P rho e' s).
Proof.
  intro H. destruct C54_example_laws as (A & B & C). destruct C54_example as [E St].
  specialize (H (toy some_globals) [] [] _ _ _ (ors [chk "x" "a"; Name (u "y"); chk "y" "b"; chk "x" "b"]) _ A B C St E). vm_compute in H. discriminate.
Qed.
(** ... and an exception of an operand may be left out. *)
Theorem C54_failure_refuted : ~ (forall P rho f inst tup e e',
  honest_bools P -> isinstance_laws P f inst tup -> builtin P rho "isinstance" f ->
  collapse expr_name_eqb (is_name "isinstance") e = Some (Some e') -> forall s, condition P rho e s = condition P rho e' s).
Proof.
  intro H. destruct C54_example_laws as (A & B & C).
  specialize (H (toy some_globals) [] _ _ _ (ors [chk "x" "a"; Call (Name (u "boom")) [plain_arg (Name (u "x"))]; chk "x" "b"]) _ A B C eq_refl []). vm_compute in H. discriminate.
Qed.
