(** * C75: the expression rules report exactly what they document, with exactly the documented replacement *)
From Coq Require Import String List NArith ZArith Bool Arith Lia.
From Verif Require Import Base PyStr Regex Py Rules RulesSpec PyToy RulesProps RulesProps2 RulesProps3 QuoteProps ReportsSpec.
Import ListNotations.

Lemma is_name_iff : forall s e, is_name s e = true <-> e = name s.
Proof. intros s e. destruct e; cbn; split; try discriminate; intro H; [apply str_eqb_eq in H; now subst|injection H as ->; apply str_eqb_refl]. Qed.
Lemma on_self_iff : forall s e, on_self s e = true <-> e = self_dot s.
Proof.
  intros s e. destruct e; cbn; split; try discriminate; intro H.
  - apply andb_true_iff in H. destruct H as [H1 H2]. apply is_name_iff in H1. apply str_eqb_eq in H2. now subst.
  - injection H as -> ->. apply andb_true_iff. split; [now apply is_name_iff|apply str_eqb_refl].
Qed.

(** ** NoStaticIfCondition *)
Lemma static_settled : forall e b, static_bool e = Some b <-> settled e b.
Proof.
  intros e b. split.
  - revert b. induction e; intros b H; cbn [static_bool] in H; try discriminate.
    + destruct (str_eqb s (u "True")) eqn:E1; [injection H as <-; apply str_eqb_eq in E1; subst; constructor|].
      destruct (str_eqb s (u "False")) eqn:E2; [injection H as <-; apply str_eqb_eq in E2; subst; constructor|discriminate].
    + destruct (static_bool e) as [x|]; [|discriminate]. injection H as <-. constructor. auto.
    + destruct op; destruct (static_bool e2) as [[|]|], (static_bool e1) as [[|]|]; try discriminate; injection H as <-;
        solve [apply Settled_or_right; auto | apply Settled_or_left; auto | apply Settled_and_right; auto | apply Settled_and_left; auto].
  - intro H. induction H; cbn [static_bool]; rewrite ?IHsettled; try reflexivity; repeat match goal with |- context [static_bool ?x] => destruct (static_bool x) as [[|]|] end; reflexivity.
Qed.
Theorem C75_static_if : forall e,
  (no_static_if e = Some None <-> exists b, settled e b) /\ (no_static_if e = None <-> ~ exists b, settled e b).
Proof.
  intro e. assert (K : (exists b, settled e b) <-> static_bool e <> None).
  { split; [intros [b H]; apply static_settled in H; congruence|]. intro H. destruct (static_bool e) as [b|] eqn:E; [|congruence]. exists b. now apply static_settled. }
  rewrite !K. unfold no_static_if, no_fix. destruct (static_bool e); split; split; intro H; try discriminate; auto; try congruence; exfalso; apply H; congruence.
Qed.

(** ** The comparison rules *)
Lemma adjacent_between : forall l rest a op b, adjacent l rest a op b <-> exists i, between l rest i a op b.
Proof.
  intros l rest a op b. split.
  - intro H. induction H as [l op c rest|l op c rest a o b H [i IH]]; [exists 0; now apply between_cons|exists (S i); now apply between_cons].
  - intros [i H]. revert l rest H. induction i as [|i IH]; intros l [|[o c] rest] H.
    + destruct H as (_ & H & _). discriminate.
    + apply between_cons in H. destruct H as (-> & -> & ->). constructor.
    + destruct H as (_ & H & _). discriminate.
    + apply between_cons in H. constructor. auto.
Qed.
Lemma primitive_iff : forall e, primitive e = true <-> number_or_text e.
Proof. intro e. split; [destruct e; try discriminate; intros _; constructor|intros []; reflexivity]. Qed.
Theorem C75_by_equal : forall e, by_equal e <> None <->
  exists l rest a op b, e = Compare l rest /\ adjacent l rest a op b /\ (op = Is \/ op = IsNot) /\ (number_or_text a \/ number_or_text b).
Proof.
  intro e. split.
  - intro H. destruct e; try (exfalso; now apply H). apply (proj1 (C53_by_equal e rest)) in H. destruct H as (i & a & op & b & B & O & P). exists e, rest, a, op, b.
    rewrite <- !primitive_iff. split; auto. split; auto. apply adjacent_between. eauto.
  - intros (l & rest & a & op & b & -> & A & O & P). rewrite <- !primitive_iff in P. apply (proj1 (C53_by_equal l rest)). apply adjacent_between in A. destruct A as [i A]. exists i, a, op, b. auto.
Qed.
Theorem C75_by_is : forall qual e, by_is qual e <> None <->
  exists l rest a op b, e = Compare l rest /\ adjacent l rest a op b /\ (op = Equal \/ op = NotEqual) /\
    exists n, (a = Name n \/ b = Name n) /\ qual (Name n) = true.
Proof.
  intros qual e. assert (S : forall x, singleton qual x = true <-> exists n, x = Name n /\ qual (Name n) = true).
  { intro x. destruct x; cbn; split; try discriminate; try (intros (n9 & E & _); discriminate); try (intros (n9 & E & Q); injection E as ->; exact Q); intro Q; eexists; split; [reflexivity|exact Q]. }
  split.
  - intro H. destruct e; try (exfalso; now apply H). apply (proj1 (C53_by_is qual e rest)) in H. destruct H as (i & a & op & b & B & O & P). exists e, rest, a, op, b.
    split; auto. split; [apply adjacent_between; eauto|]. split; auto. destruct P as [P|P]; apply S in P; destruct P as (n & -> & Q); exists n; auto.
  - intros (l & rest & a & op & b & -> & A & O & n & P & Q). apply (proj1 (C53_by_is qual l rest)). apply adjacent_between in A. destruct A as [i A]. exists i, a, op, b.
    split; auto. split; auto. rewrite !S. destruct P as [-> | ->]; eauto.
Qed.

(** ** CollapseIsinstanceChecks *)
Section Chains.
  Context (deq : expr -> expr -> bool) (is_isinstance : expr -> bool).
  Let isi f := is_isinstance f = true.
  Lemma check_of_iff : forall e t, (exists c, check_of is_isinstance e = Some (t, c)) <-> type_check isi e t.
  Proof.
    intros e t. split.
    - intros [c H]. destruct e as [| | | | | | |f args| | | | | | | | | | | | | |]; try discriminate. destruct args as [|[[s1 k1] x] [|[[s2 k2] y] [|]]]; try discriminate. cbn [check_of] in H.
      assert (K : (forall es, y <> Tuple es) /\ (if is_isinstance f then Some (x, y) else None) = Some (t, c)) by (destruct y; try discriminate; split; auto; discriminate).
      destruct K as [K1 K2]. destruct (is_isinstance f) eqn:I; [|discriminate]. injection K2 as -> ->. econstructor; unfold any_arg; cbn; eauto.
    - intros [f [[s1 k1] x] [[s2 k2] y] t0 c I <- <- N]. exists y. cbn [check_of snd]. unfold isi in I. rewrite I. destruct y; auto. exfalso. eapply N. reflexivity.
  Qed.
  Lemma unwrap_chain : forall e, chain e (unwrap e).
  Proof. induction e; try (apply Chain_end; discriminate). destruct op; [apply Chain_end; discriminate|]. cbn [unwrap]. now constructor. Qed.
  Lemma chain_unwrap : forall e es, chain e es -> es = unwrap e.
  Proof.
    intros e es H. induction H as [l r es H IH|e N]; [cbn [unwrap]; now rewrite IH|].
    destruct e; auto. destruct op; auto. exfalso. eapply N. reflexivity.
  Qed.
  (* what [collect_targets] makes of a list of operands *)
  Definition step (ops : list operand) (e : expr) : list operand :=
    match check_of is_isinstance e with Some (t, c) => add_check deq t c ops | None => ops ++ [Operand e] end.
  Lemma add_check_length : forall t c ops, List.length (add_check deq t c ops) =
    if existsb (fun o => match o with Target t' _ => deq t t' | Operand _ => false end) ops then List.length ops else S (List.length ops).
  Proof.
    intros t c ops. induction ops as [|[t' cs|e] ops IH]; cbn [add_check existsb List.length]; [reflexivity| |].
    - destruct (deq t t'); cbn [List.length orb]; [reflexivity|]. rewrite IH. destruct (existsb _ ops); reflexivity.
    - rewrite IH. cbn [orb]. destruct (existsb _ ops); reflexivity.
  Qed.
  Definition tars (ops : list operand) : list expr := flat_map (fun o => match o with Target t _ => [t] | Operand _ => [] end) ops.
  Definition known (t : expr) (ops : list operand) : bool := existsb (deq t) (tars ops).
  Lemma known_eq : forall t ops, existsb (fun o => match o with Target t' _ => deq t t' | Operand _ => false end) ops = known t ops.
  Proof. intros t ops. unfold known, tars. induction ops as [|[t' cs|e] ops IH]; cbn; auto. now rewrite IH. Qed.
  Lemma add_check_tars : forall t c ops, known t ops = false -> tars (add_check deq t c ops) = tars ops ++ [t].
  Proof.
    intros t c ops. rewrite <- known_eq. induction ops as [|[t' cs|e] ops IH]; cbn [add_check existsb]; intro H; [reflexivity| |].
    - apply orb_false_iff in H. destruct H as [H1 H2]. rewrite H1. cbn [tars flat_map app]. f_equal. now apply IH.
    - cbn [orb] in H. change (tars (add_check deq t c ops) = tars ops ++ [t]). now apply IH.
  Qed.
  Lemma step_le : forall es ops, List.length (fold_left step es ops) <= List.length ops + List.length es.
  Proof.
    induction es as [|e es IH]; intro ops; cbn [fold_left List.length]; [lia|]. etransitivity; [apply IH|]. unfold step at 1. destruct (check_of is_isinstance e) as [[t c]|]; [rewrite add_check_length; destruct (existsb _ ops); lia|].
    rewrite app_length. cbn. lia.
  Qed.
  Lemma shorter : forall es ops,
    List.length (fold_left step es ops) <> List.length ops + List.length es <->
    exists a y b t, es = a ++ y :: b /\ type_check isi y t /\ ((exists t', List.In t' (tars ops) /\ deq t t' = true) \/ exists x t', List.In x a /\ type_check isi x t' /\ deq t t' = true).
  Proof.
    assert (None_no : forall e t, check_of is_isinstance e = None -> ~ type_check isi e t) by (intros e t E T; apply check_of_iff in T; destruct T as [c T]; congruence).
    assert (Some_one : forall e t0 c t, check_of is_isinstance e = Some (t0, c) -> type_check isi e t -> t = t0) by (intros e t0 c t E T; apply check_of_iff in T; destruct T as [c' T]; congruence).
    induction es as [|e es IH]; intro ops; cbn [fold_left List.length].
    - split; [intro H; exfalso; apply H; lia|]. intros (a & y & b & t & E & _). destruct a; discriminate.
    - unfold step at 2. destruct (check_of is_isinstance e) as [[t c]|] eqn:C.
      + destruct (known t ops) eqn:K.
        * split; [intros _|intros _].
          -- exists [], e, es, t. split; [reflexivity|]. split; [apply check_of_iff; eauto|]. left. unfold known in K. apply existsb_exists in K. exact K.
          -- pose proof (step_le es (add_check deq t c ops)) as L. rewrite add_check_length, known_eq, K in L. lia.
        * specialize (IH (add_check deq t c ops)). rewrite add_check_length, known_eq, K, add_check_tars in IH by exact K.
          replace (S (List.length ops) + List.length es) with (List.length ops + S (List.length es)) in IH by lia. rewrite IH. clear IH. split.
          -- intros (a & y & b & t1 & -> & T & [(t' & I & D)|(x & t' & I & T' & D)]).
             ++ apply in_app_iff in I. exists (e :: a), y, b, t1. split; [reflexivity|]. split; auto. destruct I as [I|[<-|[]]]; [left; eauto|]. right. exists e, t. split; [left; reflexivity|]. split; auto. apply check_of_iff. eauto.
             ++ exists (e :: a), y, b, t1. split; [reflexivity|]. split; auto. right. exists x, t'. split; [right; exact I|]. auto.
          -- intros (a & y & b & t1 & E & T & O). destruct a as [|z a]; injection E as -> ->.
             ++ exfalso. rewrite (Some_one _ _ _ _ C T) in O. destruct O as [(t' & I & D)|(x & t' & [] & _)]. unfold known in K. apply not_true_iff_false in K. apply K. apply existsb_exists. eauto.
             ++ exists a, y, b, t1. split; [reflexivity|]. split; auto. destruct O as [(t' & I & D)|(x & t' & [<-|I] & T' & D)].
                ** left. exists t'. split; auto. apply in_app_iff. auto.
                ** left. exists t'. split; auto. apply in_app_iff. right. left. symmetry. eapply Some_one; eauto.
                ** right. eauto.
      + specialize (IH (ops ++ [Operand e])). rewrite app_length in IH. cbn [List.length] in IH. replace (List.length ops + 1 + List.length es) with (List.length ops + S (List.length es)) in IH by lia.
        assert (Te : tars (ops ++ [Operand e]) = tars ops) by (unfold tars; rewrite flat_map_app; cbn; apply app_nil_r). rewrite Te in IH. rewrite IH. clear IH. split.
        * intros (a & y & b & t1 & -> & T & O). exists (e :: a), y, b, t1. split; [reflexivity|]. split; auto. destruct O as [O|(x & t' & I & R)]; [auto|]. right. exists x, t'. split; [right; exact I|exact R].
        * intros (a & y & b & t1 & E & T & O). destruct a as [|z a]; injection E as -> ->; [exfalso; eapply None_no; eauto|]. exists a, y, b, t1. split; [reflexivity|]. split; auto.
          destruct O as [O|(x & t' & [<-|I] & T' & D)]; [auto|exfalso; eapply None_no; eauto|right; eauto].
  Qed.
  (** An or-chain is reported if two of its operands are isinstance checks of one target, each with a type that is
      not a tuple display. *)
  Lemma chains_reported : forall e, collapse deq is_isinstance e <> None <->
    exists before x middle y after t t', chain e (before ++ x :: middle ++ y :: after) /\
      type_check (fun f => is_isinstance f = true) x t' /\ type_check (fun f => is_isinstance f = true) y t /\ deq t t' = true.
  Proof.
    intro e.
    assert (K : collapse deq is_isinstance e <> None <-> List.length (collect_targets deq is_isinstance (unwrap e)) <> List.length (unwrap e)).
    { destruct e; try (cbn; split; intro H; exfalso; apply H; reflexivity). cbn [collapse].
      - set (w := unwrap (Call e args)). assert (W : w = [Call e args]) by reflexivity. rewrite W. unfold collect_targets. cbn [fold_left].
        destruct (check_of is_isinstance (Call e args)) as [[t c]|]; cbn; split; intro H; exfalso; apply H; reflexivity.
      - unfold collapse. destruct (Nat.eqb_spec (List.length (collect_targets deq is_isinstance (unwrap (BoolOp e1 op e2)))) (List.length (unwrap (BoolOp e1 op e2)))) as [E|N].
        + split; [intro H; exfalso; now apply H|]. intro H. contradiction.
        + split; [auto|]. intros _.
          assert (Ne : collect_targets deq is_isinstance (unwrap (BoolOp e1 op e2)) <> []).
          { assert (G : forall es ops, ops <> [] -> fold_left step es ops <> []).
            { induction es as [|z es IH]; intros ops H; [exact H|]. cbn [fold_left]. apply IH. unfold step. destruct (check_of is_isinstance z) as [[t c]|].
              - destruct ops as [|[t' cs|o] ops]; [congruence| |]; cbn [add_check]; [destruct (deq t t'); discriminate|discriminate].
              - destruct ops; discriminate. }
            change (fold_left step (unwrap (BoolOp e1 op e2)) [] <> []). destruct (unwrap (BoolOp e1 op e2)) as [|z zs] eqn:U; [exfalso; destruct op; cbn in U; [discriminate|destruct (unwrap e1); discriminate]|].
            cbn [fold_left]. apply G. unfold step. destruct (check_of is_isinstance z) as [[t c]|]; discriminate. }
          destruct (collect_targets deq is_isinstance (unwrap (BoolOp e1 op e2))) as [|o os]; [congruence|]. cbn. discriminate. }
    rewrite K. change (collect_targets deq is_isinstance (unwrap e)) with (fold_left step (unwrap e) []). pose proof (shorter (unwrap e) []) as S. cbn [List.length Nat.add] in S. rewrite S. split.
    - intros (a & y & b & t & E & T & [(t' & [] & _)|(x & t' & I & T' & D)]). apply in_split in I. destruct I as (a1 & a2 & ->). exists a1, x, a2, y, b, t, t'.
      split; [|auto]. pose proof (unwrap_chain e) as U. rewrite E, <- app_assoc in U. exact U.
    - intros (a1 & x & a2 & y & b & t & t' & C & T' & T & D). apply chain_unwrap in C. exists (a1 ++ x :: a2), y, b, t. split; [rewrite <- app_assoc; symmetry; exact C|]. split; auto. right. exists x, t'.
      split; [apply in_app_iff; right; left; reflexivity|auto].
  Qed.
  Lemma check_for_iff : forall e t c, check_of is_isinstance e = Some (t, c) <-> check_for isi e t c.
  Proof.
    intros e t c. split.
    - intro H. destruct e as [| | | | | | |f args| | | | | | | | | | | | | |]; try discriminate. destruct args as [|[[s1 k1] x] [|[[s2 k2] y] [|]]]; try discriminate. cbn [check_of] in H.
      assert (K : (forall es, y <> Tuple es) /\ (if is_isinstance f then Some (x, y) else None) = Some (t, c)) by (destruct y; try discriminate; split; auto; discriminate).
      destruct K as [K1 K2]. destruct (is_isinstance f) eqn:I; [|discriminate]. injection K2 as -> ->. econstructor; unfold any_arg; cbn; eauto.
    - intros [f [[s1 k1] x] [[s2 k2] y] t0 c0 I A1 A2 N]. unfold any_arg in A1, A2. cbn [snd] in A1, A2. subst t0 c0. cbn [check_of snd]. unfold isi in I. rewrite I. destruct y; auto. exfalso. eapply N. reflexivity.
  Qed.
  Let same a b := deq a b = true.
  Lemma peel_operand : forall e xs ops, fold_left step xs (Operand e :: ops) = Operand e :: fold_left step xs ops.
  Proof. intro e. induction xs as [|x xs IH]; intro ops; [reflexivity|]. cbn [fold_left]. rewrite <- IH. f_equal. unfold step. destruct (check_of is_isinstance x) as [[t c]|]; reflexivity. Qed.
  Lemma peel_target : forall t xs cs0 ops, exists cs rest, picks isi same t xs cs rest /\ (List.length rest <= List.length xs)%nat /\
    fold_left step xs (Target t cs0 :: ops) = Target t (cs0 ++ cs) :: fold_left step rest ops.
  Proof.
    intro t. induction xs as [|x xs IH]; intros cs0 ops.
    - exists [], []. split; [constructor|]. split; [cbn; lia|]. now rewrite app_nil_r.
    - cbn [fold_left]. unfold step at 2. destruct (check_of is_isinstance x) as [[t' c]|] eqn:C; cbn [add_check app].
      + destruct (deq t' t) eqn:D.
        * destruct (IH (cs0 ++ [c]) ops) as (cs & rest & P & L & E). exists (c :: cs), rest. split; [econstructor; eauto; now apply check_for_iff|]. split; [cbn; lia|].
          rewrite E, <- app_assoc. reflexivity.
        * destruct (IH cs0 (add_check deq t' c ops)) as (cs & rest & P & L & E). exists cs, (x :: rest). split.
          { apply Picks_no; auto. intros t2 c2 K S. apply check_for_iff in K. rewrite C in K. injection K as <- <-. unfold same in S. congruence. }
          split; [cbn; lia|]. rewrite E. cbn [fold_left]. unfold step at 3. now rewrite C.
      + destruct (IH cs0 (ops ++ [Operand x])) as (cs & rest & P & L & E). exists cs, (x :: rest). split.
        { apply Picks_no; auto. intros t2 c2 K. apply check_for_iff in K. congruence. }
        split; [cbn; lia|]. rewrite E. cbn [fold_left]. unfold step at 3. now rewrite C.
  Qed.
  Lemma targets_merged : forall n xs, (List.length xs <= n)%nat -> merged isi same xs (map operand_expr (fold_left step xs [])).
  Proof.
    induction n as [|n IH]; intros [|x xs] L; try (cbn in L; lia); try constructor.
    cbn [fold_left]. unfold step at 2. cbn [List.length] in L. destruct (check_of is_isinstance x) as [[t c]|] eqn:C; cbn [add_check app].
    - destruct (peel_target t xs [c] []) as (cs & rest & P & L2 & E). rewrite E. cbn [map app].
      replace (operand_expr (Target t (c :: cs))) with (one_check t c cs) by (destruct cs; reflexivity).
      econstructor; eauto; [now apply check_for_iff|]. apply IH. lia.
    - rewrite peel_operand. cbn [map operand_expr]. apply Merged_other; [|apply IH; lia]. intros t c K. apply check_for_iff in K. congruence.
  Qed.
  Lemma chain_of_fold : forall es e, (forall l r, e <> BoolOp l Or r) -> chain (fold_left (fun l r => BoolOp l Or r) es e) (e :: es).
  Proof.
    intros es e N. induction es as [|r es IH] using rev_ind; [now apply Chain_end|]. rewrite fold_left_app. cbn [fold_left].
    change (e :: es ++ [r]) with ((e :: es) ++ [r]). now constructor.
  Qed.
  Lemma chains_merged : forall e r, collapse deq is_isinstance e = Some r ->
    exists e' ops ops', r = Some e' /\ chain e ops /\ merged isi same ops ops' /\ chain e' ops'.
  Proof.
    intros e r H. destruct e; try discriminate. unfold collapse in H. destruct (_ =? _)%nat; [discriminate|].
    pose proof (targets_merged _ (unwrap (BoolOp e1 op e2)) (le_n _)) as M. change (fold_left step (unwrap (BoolOp e1 op e2)) []) with (collect_targets deq is_isinstance (unwrap (BoolOp e1 op e2))) in M.
    destruct (map operand_expr _) as [|y ys] eqn:Ms; [discriminate|]. cbn [or_all] in H. injection H as <-. eexists _, _, _. split; [reflexivity|]. split; [apply unwrap_chain|].
    split; [exact M|]. apply chain_of_fold.
    assert (N : forall e x xs, unwrap e = x :: xs -> forall l r, x <> BoolOp l Or r).
    { clear. intro e. induction e; intros x xs H l r; try (injection H as <- <-; discriminate). destruct op; [injection H as <- <-; discriminate|]. cbn [unwrap] in H.
      destruct (unwrap e1) as [|z zs] eqn:U; [pose proof (unwrap_chain e1) as K; rewrite U in K; inversion K; destruct es; discriminate|]. injection H as <- _. eapply IHe1. reflexivity. }
    inversion M as [|x xs ys' Nc M' E1 E2|x t c xs cs rest ys' K P M' E1 E2]; subst; [|discriminate]. intros l r. apply (N (BoolOp e1 op e2) _ xs). symmetry. exact E1.
  Qed.
End Chains.
(** An or-chain is reported if and only if two of its operands are isinstance checks of one target, each with a type that is
    not a tuple display. *)
Theorem C75_isinstance : forall deq is_isinstance e, collapse deq is_isinstance e <> None <->
  exists before x middle y after t t', chain e (before ++ x :: middle ++ y :: after) /\
    type_check (fun f => is_isinstance f = true) x t' /\ type_check (fun f => is_isinstance f = true) y t /\ deq t t' = true.
Proof. intros. apply chains_reported. Qed.
(** In the replacement, the first check of each target is replaced by a check of all types that the chain checks it for, in order. *)
Theorem C75_isinstance_fix : forall deq is_isinstance e r, collapse deq is_isinstance e = Some r ->
  exists e' ops ops', r = Some e' /\ chain e ops /\ merged (fun f => is_isinstance f = true) (fun a b => deq a b = true) ops ops' /\ chain e' ops'.
Proof. intros deq is_isinstance e r H. exact (chains_merged _ _ _ _ H). Qed.


(** ** The assertion rules *)
Ltac named := repeat match goal with
  | H : is_name _ _ = true |- _ => apply is_name_iff in H
  | H : on_self _ _ = true |- _ => apply on_self_iff in H
  | H : is_name _ _ && _ = true |- _ => apply andb_true_iff in H; destruct H
  end.
Theorem C75_assert_in : forall e e', assert_in e = Some (Some e') <-> use_assert_in e e'.
Proof.
  intros e e'. split.
  - intro H. destruct e as [| | | | | | |f args| | | | | | | | | | | | | |]; try discriminate. destruct args as [|[[st kw] x] [|]]; try discriminate. cbn [assert_in] in H.
    destruct (on_self "assertTrue" f) eqn:T; named.
    + subst f. destruct x as [| | | | | | | |y| | |l rest| | | | | | | | | |]; try discriminate.
      * destruct y as [| | | | | | | | | | |l rest| | | | | | | | | |]; try discriminate. destruct rest as [|[[] b] [|]]; try discriminate. injection H as <-. now apply In_true_not.
      * destruct rest as [|[[] b] [|]]; try discriminate; injection H as <-; [now apply In_true|now apply In_true_not_in].
    + destruct (on_self "assertFalse" f) eqn:F; named; [|discriminate]. subst f. destruct x as [| | | | | | | | | | |l rest| | | | | | | | | |]; try discriminate.
      destruct rest as [|[[] b] [|]]; try discriminate. injection H as <-. now apply In_false.
  - intro H. destruct H as [[[st kw] z] x y E|[[st kw] z] x y E|[[st kw] z] x y E|[[st kw] z] x y E]; unfold any_arg in E; cbn in E; subst z; reflexivity.
Qed.
Theorem C75_assert_in_fix : forall e, assert_in e <> Some None.
Proof.
  intros e H. destruct e as [| | | | | | |f args| | | | | | | | | | | | | |]; try discriminate. destruct args as [|[[st kw] x] [|]]; try discriminate. cbn [assert_in] in H.
  repeat match type of H with context [match ?m with Some _ => _ | None => _ end] => destruct m as [[]|]; try discriminate end.
Qed.

Lemma none_check_iff : forall e x n, none_check e = Some (x, n) <-> says_none e x (negb n).
Proof.
  intros e x n. split.
  - intro H. destruct e as [| | | | | | | | | | |l rest| | | | | | | | | |]; try discriminate. destruct rest as [|[[] b] [|]]; try discriminate; cbn [none_check] in H;
      destruct (is_name "None" b) eqn:E; try discriminate; named; subst b; injection H as <- <-; constructor.
  - intro H. inversion H; subst; cbn; f_equal; f_equal; destruct n; try discriminate; reflexivity.
Qed.
Definition none_argument (x : expr) : option (expr * bool * bool) :=
  match x with
  | Not x' => match none_check x' with Some (a, n) => Some (a, n, true) | None => None end
  | _ => match none_check x with Some (a, n) => Some (a, n, false) | None => None end
  end.
Lemma none_argument_iff : forall e x b, (exists n h, none_argument e = Some (x, n, h) /\ b = negb (xorb n h)) <-> asks_none e x b.
Proof.
  intros e x b. split.
  - intros (n & h & H & ->). assert (K : (exists e', e = Not e' /\ none_check e' = Some (x, n) /\ h = true) \/ (none_check e = Some (x, n) /\ h = false)).
    { unfold none_argument in H. destruct e; try solve [right; destruct (none_check _) as [[a m]|]; [injection H as <- <- <-; split; reflexivity|discriminate]].
      left. exists e. destruct (none_check e) as [[a m]|]; [injection H as <- <- <-; auto|discriminate]. }
    destruct K as [(e0 & -> & C & ->)|(C & ->)]; apply none_check_iff in C.
    + replace (negb (xorb n true)) with (negb (negb n)) by (destruct n; reflexivity). now constructor.
    + replace (negb (xorb n false)) with (negb n) by (destruct n; reflexivity). now constructor.
  - intros [e0 x0 b0 S|e0 x0 b0 S].
    + assert (C : none_check e0 = Some (x0, negb b0)) by (apply none_check_iff; now rewrite negb_involutive). exists (negb b0), false. split; [|destruct b0; reflexivity].
      unfold none_argument. destruct S; rewrite C; reflexivity.
    + assert (C : none_check e0 = Some (x0, negb b0)) by (apply none_check_iff; now rewrite negb_involutive). exists (negb b0), true. split; [|destruct b0; reflexivity].
      unfold none_argument. now rewrite C.
Qed.
Lemma assert_none_call : forall f st kw x, assert_none (Call f [(st, kw, x)]) =
  match (if on_self "assertTrue" f then Some false else if on_self "assertFalse" f then Some true else None), none_argument x with
  | Some is_false, Some (a, is_not, has_not) =>
      let negations := (if is_false : bool then 1 else 0) + (if has_not : bool then 1 else 0) + (if is_not : bool then 1 else 0) in
      let attr := if (negations mod 2 =? 0)%nat then "assertIsNone"%string else "assertIsNotNone"%string in
      fix_with (self_call attr [plain_arg a])
  | _, _ => None
  end.
Proof. reflexivity. Qed.
Theorem C75_assert_none : forall e e', assert_none e = Some (Some e') <-> use_assert_none e e'.
Proof.
  intros e e'. split.
  - intro H. destruct e as [| | | | | | |f args| | | | | | | | | | | | | |]; try discriminate. destruct args as [|[[st kw] x] [|]]; try discriminate. rewrite assert_none_call in H.
    destruct (on_self "assertTrue" f) eqn:T; named.
    + destruct (none_argument x) as [[[a n] h]|] eqn:A; [|discriminate]. subst f. injection H as <-.
      assert (K : asks_none x a (negb (xorb n h))) by (apply none_argument_iff; eauto). pose proof (None_true (st, kw, x) x a _ eq_refl K) as G. destruct n, h; exact G.
    + destruct (on_self "assertFalse" f) eqn:F; named; [|discriminate]. destruct (none_argument x) as [[[a n] h]|] eqn:A; [|discriminate]. subst f. injection H as <-.
      assert (K : asks_none x a (negb (xorb n h))) by (apply none_argument_iff; eauto). pose proof (None_false (st, kw, x) x a _ eq_refl K) as G. destruct n, h; exact G.
  - intros [[[st kw] z] x a b E A|[[st kw] z] x a b E A]; unfold any_arg in E; cbn in E; subst z; apply none_argument_iff in A; destruct A as (n & h & A & ->); rewrite assert_none_call;
      rewrite A; cbn [on_self self_dot name is_name]; destruct n, h; reflexivity.
Qed.
Theorem C75_assert_none_fix : forall e, assert_none e <> Some None.
Proof.
  intros e H. destruct e as [| | | | | | |f args| | | | | | | | | | | | | |]; try discriminate. destruct args as [|[[st kw] x] [|]]; try discriminate. rewrite assert_none_call in H.
  destruct (none_argument x) as [[[a n] h]|]; destruct (on_self "assertTrue" f), (on_self "assertFalse" f); discriminate.
Qed.

Lemma literal_second_iff : forall e, literal_second e = true <-> e = name "True" \/ e = name "False" \/ e = name "None" \/ display_or_number e.
Proof.
  intro e. split.
  - intro H. destruct e; try discriminate; try (right; right; right; constructor). unfold literal_second in H.
    apply orb_true_iff in H. destruct H as [H|H]; [apply orb_true_iff in H; destruct H as [H|H]|]; apply is_name_iff in H; auto.
  - intros [-> |[-> |[-> |D]]]; try reflexivity. destruct D; reflexivity.
Qed.
Theorem C75_assert_comparison : forall e e', assert_true_comparison e = Some (Some e') <-> use_assert_equal e e'.
Proof.
  intros e e'. split.
  - intro H. destruct e as [| | | | | | |f args| | | | | | | | | | | | | |]; try discriminate. destruct args as [|a [|[[st kw] x] [|]]]; try discriminate. cbn [assert_true_comparison] in H.
    destruct (on_self "assertTrue" f) eqn:T; [|discriminate]. named. subst f. cbn [andb] in H. destruct (literal_second x) eqn:L; [|discriminate]. injection H as <-. apply literal_second_iff in L.
    destruct L as [-> |[-> |[-> |D]]]; [now apply Equal_true|now apply Equal_false|now apply Equal_none|]. destruct D; apply (@Equal_other a _ _ eq_refl); constructor.
  - intros [a [[st kw] x] E|a [[st kw] x] E|a [[st kw] x] E|a [[st kw] x] c E D]; unfold any_arg in E; cbn in E; subst x; try reflexivity. destruct D; reflexivity.
Qed.
Theorem C75_assert_comparison_fix : forall e, assert_true_comparison e <> Some None.
Proof.
  intros e H. destruct e as [| | | | | | |f args| | | | | | | | | | | | | |]; try discriminate. destruct args as [|a [|[[st kw] x] [|]]]; try discriminate. cbn [assert_true_comparison] in H.
  destruct (on_self "assertTrue" f && literal_second x); discriminate.
Qed.

(** The deprecated aliases, as the documentation of unittest lists them ([unittest_alias]) *)
Theorem C75_deprecated : forall e e', deprecated_assert e = Some (Some e') <->
  exists old new args, unittest_alias old new /\ e = Call (self_dot old) args /\ e' = Call (self_dot new) args.
Proof.
  intros e e'. split.
  - intro H. destruct e as [| | | | | | |f args| | | | | | | | | | | | | |]; try discriminate. unfold deprecated_assert in H. destruct (find _ deprecated_asserts) as [[old new]|] eqn:F; [|discriminate]. injection H as <-.
    apply find_some in F. destruct F as [I S]. cbn [fst] in S. named. subst f. exists old, new, args. split; [|auto]. unfold deprecated_asserts in I.
    repeat (destruct I as [I|I]; [injection I as <- <-; cbv [unittest_alias]; cbn; tauto|]). destruct I.
  - intros (old & new & args & A & -> & ->). unfold self_dot, name. now apply C55_deprecated_complete.
Qed.

(** ** Literals *)
Lemma pair_of_iff : forall e k v, pair_of e = Some (k, v) <-> pair_display e k v.
Proof.
  intros e k v. split.
  - intro H. destruct e; try discriminate; destruct es as [|[s1 x] [|[s2 y] [|]]]; try discriminate; injection H as <- <-; constructor; reflexivity.
  - intros [[s1 x] [s2 y] k' v' <- <-|[s1 x] [s2 y] k' v' <- <-]; reflexivity.
Qed.
Lemma pairs_of_iff : forall es kvs, pairs_of es = Some kvs <-> Forall2 (fun e kv => fst e = false /\ pair_display (snd e) (fst kv) (snd kv)) es kvs.
Proof.
  induction es as [|[st e] es IH]; intro kvs; cbn [pairs_of].
  - split; intro H; [injection H as <-; constructor|now inversion H].
  - split.
    + intro H. destruct (pair_of e) as [[k v]|] eqn:P; [|discriminate]. destruct (pairs_of es) as [ps|]; [|discriminate]. destruct st; [discriminate|]. injection H as <-. constructor; [|now apply IH].
      split; [reflexivity|]. now apply pair_of_iff.
    + intro H. inversion H as [|a [k v] l l' [A B] F]; subst. cbn in A, B. subst st. apply pair_of_iff in B. rewrite B. apply IH in F. now rewrite F.
Qed.
Theorem C75_literal : forall e e', to_literal e = Some (Some e') <-> use_literal e e'.
Proof.
  intros e e'.
  assert (D : forall a es, display (snd (a : arg)) = Some es <-> displayed [a] es).
  { intros a es. split; [|intros H; inversion H as [|a' es' A|a' es' A]; subst; unfold any_arg in A; rewrite A; reflexivity].
    intro H. destruct (snd a) eqn:E; try discriminate; injection H as <-; [now apply Displayed_tuple|now apply Displayed_list]. }
  split.
  - intro H. destruct e as [| | | | | | |f args| | | | | | | | | | | | | |]; try discriminate. destruct f as [f| | | | | | | | | | | | | | | | | | | | |]; try discriminate. cbn [to_literal] in H.
    assert (K : exists es, (displayed args es /\ (args = [] -> f <> u "set")) /\
      (if str_eqb f (u "tuple") then fix_with (Tuple es) else if str_eqb f (u "list") then fix_with (List es)
       else if str_eqb f (u "set") then match es with [] => fix_with (Call (Name (u "set")) []) | _ => fix_with (Set_ es) end
       else if str_eqb f (u "dict") then match pairs_of es with Some ps => fix_with (Dict ps) | None => None end else None) = Some (Some e')).
    { destruct args as [|[[st kw] a] [|]]; try discriminate.
      - destruct (str_eqb f (u "set")) eqn:S; [discriminate|]. exists []. split; [|exact H]. split; [constructor|]. intros _. now apply str_eqb_neq.
      - destruct (display a) as [es|] eqn:E; [|discriminate]. exists es. split; [|exact H]. split; [now apply (D (st, kw, a))|]. discriminate. }
    clear H. destruct K as (es & [Di Ns] & H).
    destruct (str_eqb f (u "tuple")) eqn:E1; [apply str_eqb_eq in E1; subst f; injection H as <-; now constructor|].
    destruct (str_eqb f (u "list")) eqn:E2; [apply str_eqb_eq in E2; subst f; injection H as <-; now constructor|].
    destruct (str_eqb f (u "set")) eqn:E3; [apply str_eqb_eq in E3; subst f|].
    + destruct args as [|a [|b args]]; [exfalso; apply Ns; reflexivity| |inversion Di]. destruct es; injection H as <-; [now constructor|constructor; [exact Di|discriminate]].
    + destruct (str_eqb f (u "dict")) eqn:E4; [|discriminate]. apply str_eqb_eq in E4. subst f. destruct (pairs_of es) as [kvs|] eqn:P; [|discriminate]. injection H as <-. econstructor; [exact Di|]. now apply pairs_of_iff.
  - assert (Go : forall f args es, displayed args es -> (args = [] -> f <> u "set") -> to_literal (Call (Name f) args) =
      (if str_eqb f (u "tuple") then fix_with (Tuple es) else if str_eqb f (u "list") then fix_with (List es)
       else if str_eqb f (u "set") then match es with [] => fix_with (Call (Name (u "set")) []) | _ => fix_with (Set_ es) end
       else if str_eqb f (u "dict") then match pairs_of es with Some ps => fix_with (Dict ps) | None => None end else None)).
    { intros f args es Di N. destruct args as [|[[st kw] a] [|]].
      - inversion Di; subst. cbn [to_literal]. assert (Q : str_eqb f (u "set") = false) by (apply str_eqb_neq; auto). rewrite Q. reflexivity.
      - apply D in Di. cbn [snd] in Di. cbn [to_literal]. rewrite Di. reflexivity.
      - inversion Di. }
    intros [args es Di|args es Di|args es Di N|a Di|args es kvs Di F]; unfold name.
    + rewrite (Go _ _ _ Di); [reflexivity|intros _; discriminate].
    + rewrite (Go _ _ _ Di); [reflexivity|intros _; discriminate].
    + rewrite (Go _ _ _ Di); [destruct es; [congruence|reflexivity]|intros ->; inversion Di; congruence].
    + rewrite (Go _ _ _ Di); [reflexivity|discriminate].
    + rewrite (Go _ _ _ Di); [|intros _; discriminate]. apply pairs_of_iff in F. rewrite F. reflexivity.
Qed.
Theorem C75_literal_fix : forall e, to_literal e <> Some None.
Proof.
  intros e H. destruct e as [| | | | | | |f args| | | | | | | | | | | | | |]; try discriminate. destruct f as [f| | | | | | | | | | | | | | | | | | | | |]; try discriminate. unfold to_literal in H.
  match type of H with match ?m with _ => _ end = _ => destruct m as [es|]; [|discriminate] end.
  repeat match type of H with (if ?b then _ else _) = _ => destruct b; try discriminate end; try (destruct es; discriminate). destruct (pairs_of es); discriminate.
Qed.

(** ** Comprehensions *)
Lemma comp_call : forall f a x elt cs, any_arg a x -> comprehension_of x elt cs -> to_comprehension (Call (Name f) [a]) =
  if str_eqb f (u "list") then Ok (fix_with (ListComp elt cs)) else if str_eqb f (u "set") then Ok (fix_with (SetComp elt cs))
  else if str_eqb f (u "dict") then match elt with
        | Tuple es | List es => match es with (_, k) :: (_, v) :: _ => Ok (fix_with (DictComp k v cs)) | _ => Err IndexError end
        | _ => Ok None end else Ok None.
Proof. intros f [[st kw] y] x elt cs E C; unfold any_arg in E; cbn in E; subst y; destruct C; reflexivity. Qed.
Lemma comp_other : forall e, to_comprehension e <> Ok None -> exists f a x elt cs, e = Call (Name f) [a] /\ any_arg a x /\ comprehension_of x elt cs.
Proof.
  intros e H. destruct e as [| | | | | | |f args| | | | | | | | | | | | | |]; try (exfalso; apply H; reflexivity). destruct f as [f| | | | | | | | | | | | | | | | | | | | |]; try (exfalso; apply H; reflexivity).
  destruct args as [|[[st kw] x] [|]]; try (exfalso; apply H; destruct x; reflexivity); try (exfalso; apply H; reflexivity).
  destruct x; try (exfalso; apply H; reflexivity); eexists f, _, _, _, _; (split; [reflexivity|]); (split; [reflexivity|]); constructor.
Qed.
Theorem C75_comprehension : forall e e', to_comprehension e = Ok (Some (Some e')) <-> use_comprehension e e'.
Proof.
  intros e e'. split.
  - intro H. destruct (comp_other e) as (f & a & x & elt & cs & -> & A & C); [congruence|]. rewrite (comp_call _ _ _ _ _ A C) in H.
    destruct (str_eqb f (u "list")) eqn:E1; [apply str_eqb_eq in E1; subst f; injection H as <-; econstructor; eauto|].
    destruct (str_eqb f (u "set")) eqn:E2; [apply str_eqb_eq in E2; subst f; injection H as <-; econstructor; eauto|].
    destruct (str_eqb f (u "dict")) eqn:E3; [apply str_eqb_eq in E3; subst f|discriminate].
    destruct elt; try discriminate; destruct es as [|[s1 k] [|[s2 v] es]]; try discriminate; injection H as <-; (eapply Comp_dict; [exact A|exact C| |]); [left; reflexivity|reflexivity|right; reflexivity|reflexivity].
  - intros [a x elt cs A C|a x elt cs A C|a x elt cs es k v more A C E M]; unfold name; rewrite (comp_call _ _ _ _ _ A C); try reflexivity.
    destruct E as [-> | ->]; destruct es as [|[s1 k'] [|[s2 v'] es]]; try discriminate; injection M as -> -> _; reflexivity.
Qed.
Theorem C75_comprehension_crash : forall e x, to_comprehension e = Err x <-> comprehension_fails e /\ x = IndexError.
Proof.
  intros e ex. split.
  - intro H. destruct (comp_other e) as (f & a & x & elt & cs & -> & A & C); [congruence|]. rewrite (comp_call _ _ _ _ _ A C) in H.
    destruct (str_eqb f (u "list")) eqn:E1; [discriminate|]. destruct (str_eqb f (u "set")) eqn:E2; [discriminate|]. destruct (str_eqb f (u "dict")) eqn:E3; [apply str_eqb_eq in E3; subst f|discriminate].
    destruct elt; try discriminate; destruct es as [|[s1 k] [|[s2 v] es]]; try discriminate; injection H as <-; (split; [|reflexivity]); econstructor; eauto.
  - intros [[a x elt cs es A C E S] ->]. unfold name. rewrite (comp_call _ _ _ _ _ A C). destruct E as [-> | ->]; destruct S as [-> |[[s y] ->]]; reflexivity.
Qed.
Theorem C75_comprehension_fix : forall e, to_comprehension e <> Ok (Some None).
Proof.
  intros e H. destruct (comp_other e) as (f & a & x & elt & cs & -> & A & C); [congruence|]. rewrite (comp_call _ _ _ _ _ A C) in H.
  repeat match type of H with (if ?b then _ else _) = _ => destruct b; try discriminate end. destruct elt; try discriminate; destruct es as [|[s1 k] [|[s2 v] es]]; discriminate.
Qed.
Theorem C75_any_all : forall e e', list_comprehension e = Some (Some e') <-> use_generator e e'.
Proof.
  intros e e'. split.
  - intro H. destruct e as [| | | | | | |f args| | | | | | | | | | | | | |]; try discriminate. destruct f as [f| | | | | | | | | | | | | | | | | | | | |]; try discriminate.
    destruct args as [|[[st kw] x] [|]]; try discriminate; [|destruct x; discriminate]. destruct x; try discriminate. cbn [list_comprehension] in H. destruct (str_eqb f (u "all")) eqn:E1; [apply str_eqb_eq in E1; subst f; injection H as <-; apply (Use_generator "all"); auto|].
    destruct (str_eqb f (u "any")) eqn:E2; [apply str_eqb_eq in E2; subst f; injection H as <-; apply (Use_generator "any"); auto|discriminate].
  - intros [f st kw elt cs [-> | ->]]; reflexivity.
Qed.

(** ** UseFstring *)
Definition np (c : N) : bool := negb (c =? 37)%N.
Definition body_re : re := Grp 1 (Cat (Lit (u "%s")) not_percent).
Lemma reach_np : forall y, exists x, List.In x (m not_percent y) /\ st_rest x = drop_while np (st_rest y).
Proof.
  intros [b s k]. unfold not_percent. rewrite m_star_chr. pose proof (star_chr_first np s b k) as H. change (fun c : N => negb (c =? 37)%N) with np.
  destruct (star_chr np b s k) as [|x l]; [discriminate|]. injection H as ->. eexists. split; [left; reflexivity|reflexivity].
Qed.
Lemma drop_len : forall p s, List.length (drop_while p s) <= List.length s.
Proof. intros p s. induction s as [|c s IH]; cbn; [lia|]. destruct (p c); cbn; lia. Qed.
Lemma reach_body : forall y s, st_rest y = 37%N :: 115%N :: s -> exists x, List.In x (m body_re y) /\ st_rest x = drop_while np s.
Proof.
  intros [b r k] s E. cbn in E. subst r. change (m body_re (St b (37%N :: 115%N :: s) k)) with (map (fun s' => St (st_bos s') (st_rest s') ((1, consumed (St b (37%N :: 115%N :: s) k) s') :: st_caps s')) (flat_map (m not_percent) (m (Lit (u "%s")) (St b (u "%s" ++ s) k)))).
  rewrite m_lit. cbn [flat_map]. rewrite app_nil_r. match goal with |- context [m not_percent ?z] => destruct (reach_np z) as (x & I & R); set (y := z) in * end.
  eexists. split; [apply in_map; exact I|]. cbn. exact R.
Qed.
Lemma only_s_tail : forall w t, only_s (w ++ t) -> only_s t.
Proof. intros w t H a b E. apply (H (w ++ a) b). rewrite E. apply app_assoc. Qed.
Lemma only_drop : forall s, only_s s -> drop_while np s = [] \/ exists t, drop_while np s = 37%N :: 115%N :: t.
Proof.
  intros s H. destruct (drop_while np s) as [|c t] eqn:E; [auto|]. right. pose proof (drop_while_head _ _ E) as P. unfold np in P. apply negb_false_iff, N.eqb_eq in P. subst c.
  destruct (H (take_while np s) t) as [c ->]; [rewrite <- E; symmetry; apply take_drop|]. eauto.
Qed.
Lemma reach_star : forall n y, List.length (st_rest y) <= n -> only_s (st_rest y) -> drop_while np (st_rest y) = st_rest y ->
  exists x, star_chain (m body_re) y x /\ st_rest x = [].
Proof.
  induction n as [|n IH]; intros y L O D.
  - exists y. split; [constructor|]. destruct (st_rest y); [reflexivity|cbn in L; lia].
  - destruct (only_drop _ O) as [E|[t E]]; rewrite D in E; [exists y; split; [constructor|exact E]|].
    destruct (reach_body y t E) as (z & I & R). assert (Lz : List.length (st_rest z) < List.length (st_rest y)) by (rewrite R, E; cbn; pose proof (drop_len np t); lia).
    destruct (IH z) as (x & C & X).
    + lia.
    + rewrite R. apply (only_s_tail (37%N :: 115%N :: take_while np t)). cbn [app]. rewrite take_drop, <- E. exact O.
    + rewrite R. destruct (drop_while np t) as [|c r] eqn:Q; [reflexivity|]. cbn. now rewrite (drop_while_head _ _ Q).
    + exists x. split; [|exact X]. econstructor; eauto.
Qed.
Lemma simple_format_complete : forall raw, only_placeholders raw -> fullmatch simple_format raw = true.
Proof.
  intros raw [O I]. unfold fullmatch. apply existsb_exists. destruct (reach_np (St true raw [])) as (y & Iy & Ry). cbn [st_rest] in Ry.
  destruct (only_drop _ O) as [E|[t E]].
  - exfalso. rewrite <- (take_drop np raw), E, app_nil_r in I. pose proof (take_while_all np raw) as T. rewrite forallb_forall in T. specialize (T _ I). discriminate.
  - rewrite E in Ry. destruct (reach_body y t Ry) as (z & Iz & Rz).
    assert (Oz : only_s (st_rest z)). { rewrite Rz. apply (only_s_tail (take_while np raw ++ 37%N :: 115%N :: take_while np t)). rewrite <- app_assoc. cbn [app]. rewrite take_drop, <- E, take_drop. exact O. }
    destruct (reach_star _ z (le_n _) Oz) as (x & C & X).
    { rewrite Rz. destruct (drop_while np t) as [|c r] eqn:Q; [reflexivity|]. cbn. now rewrite (drop_while_head _ _ Q). }
    exists x. split; [|now rewrite X]. unfold simple_format. change (List.In x (flat_map (m (Plus body_re)) (m not_percent (St true raw [])))). apply in_flat_map. exists y. split; [exact Iy|].
    change (List.In x (flat_map (m (Star body_re)) (m body_re y))). apply in_flat_map. exists z. split; [exact Iz|]. change (List.In x (star (m body_re) (List.length (st_rest z)) z)). now apply in_star.
Qed.
Lemma simple_format_iff : forall raw, fullmatch simple_format raw = true <-> only_placeholders raw.
Proof.
  intro raw. split; [|apply simple_format_complete]. intro H. apply simple_format_facts in H. destruct H as (O & a & b & ->). split; [exact O|]. apply in_app_iff. right. left. reflexivity.
Qed.
Lemma is_bytes_iff : forall p, is_bytes p = false <-> text_prefix p.
Proof.
  intro p. unfold is_bytes, lower_has, text_prefix. rewrite <- not_true_iff_false, existsb_exists. split.
  - intro H. split; intro I; apply H; eexists; (split; [exact I|reflexivity]).
  - intros [A B] (x & I & H). apply orb_true_iff in H. destruct H as [H|H]; apply N.eqb_eq in H; [subst x; auto|]. assert (x = 66%N) by lia. subst x. auto.
Qed.
Lemma contains_iff : forall t s, contains t s = true <-> exists a b, s = a ++ t ++ b.
Proof.
  intros t s. split.
  - induction s as [|c s IH]; intro H; cbn [contains] in H.
    + rewrite orb_false_r in H. apply startswith_spec in H. destruct H as [b E]. exists [], b. exact E.
    + apply orb_true_iff in H. destruct H as [H|H]; [apply startswith_spec in H; destruct H as [b E]; exists [], b; exact E|]. destruct (IH H) as (a & b & ->). exists (c :: a), b. reflexivity.
  - intros (a & b & ->). destruct (contains t (a ++ t ++ b)) eqn:E; auto. exfalso. eapply contains_spec; eauto.
Qed.
Lemma find_first : forall (A : Type) (f : A -> bool) l x, find f l = Some x <-> exists a b, l = a ++ x :: b /\ f x = true /\ forall y, List.In y a -> f y = false.
Proof.
  intros A f l x. split.
  - induction l as [|y l IH]; [discriminate|]. cbn [find]. destruct (f y) eqn:E.
    + intro H. injection H as ->. exists [], l. repeat split; auto. intros y [].
    + intro H. destruct (IH H) as (a & b & -> & F & N). exists (y :: a), b. repeat split; auto. intros z [<-|I]; auto.
  - intros (a & b & -> & F & N). induction a as [|y a IH]; cbn [app find]; [now rewrite F|]. rewrite N by (left; reflexivity). apply IH. intros z I. apply N. right. exact I.
Qed.

Section Fits.
  Context (reads_same : str -> str -> str -> str -> bool).
  Notation rq := (requote reads_same).
  Lemma requote_string_ok : forall q p o raw, requote_string reads_same q p o raw <> None <-> fits reads_same q (p, o, raw).
  Proof.
    intros q p o raw. unfold requote_string, fits. destruct (str_eqb q o) eqn:E.
    - apply str_eqb_eq in E. subst o.
      assert (Fr : forall n, negb (str_eqb n q) && negb (contains n raw) = true <-> n <> q /\ forall a b, raw <> a ++ n ++ b).
      { intro n. rewrite andb_true_iff, !negb_true_iff, str_eqb_neq. split; intros [A B]; split; auto.
        - intros a b X. apply not_true_iff_false in B. apply B. apply contains_iff. eauto.
        - apply not_true_iff_false. intro C. apply contains_iff in C. destruct C as (a & b & X). eapply B; eauto. }
      split.
      + intro H. right. destruct (find _ quotes) as [n|] eqn:F; [|congruence]. apply find_first in F. destruct F as (a & b & Q & Fn & Na). exists a, n, b. split; [exact Q|]. apply Fr in Fn. split; auto.
        destruct (reads_same p q n raw) eqn:R; [|congruence]. split; auto. intros x I X. apply Na in I. apply Fr in X. congruence.
      + intros [H|(a & n & b & Q & Fn & Na & R)]; [congruence|].
        assert (F : find (fun quo => negb (str_eqb quo q) && negb (contains quo raw)) quotes = Some n).
        { apply find_first. exists a, b. split; [exact Q|]. split; [now apply Fr|]. intros y I. apply not_true_iff_false. intro X. apply Fr in X. eapply Na; eauto. }
        rewrite F, R. discriminate.
    - split; [intros _; left; apply str_eqb_neq in E; congruence|discriminate].
  Qed.
  Lemma opt_map_ok : forall A B (f : A -> option B) l, opt_map f l <> None <-> Forall (fun a => f a <> None) l.
  Proof.
    intros A B f l. induction l as [|a l IH]; cbn [opt_map]; [split; [constructor|discriminate]|]. split.
    - intro H. destruct (f a) eqn:E; [|congruence]. constructor; [congruence|]. apply IH. intro N. rewrite N in H. congruence.
    - intro H. inversion H as [|x y H1 H2]; subst. apply IH in H2. destruct (f a); [|congruence]. destruct (opt_map f l); [discriminate|congruence].
  Qed.
  Lemma forall_flat : forall A B (g : A -> list B) Q l, Forall Q (flat_map g l) <-> Forall (fun a => Forall Q (g a)) l.
  Proof. intros A B g Q l. induction l as [|a l IH]; cbn [flat_map]; [split; constructor|]. rewrite Forall_app, IH. split; [intros [H1 H2]; now constructor|intro H; inversion H; auto]. Qed.
  Lemma forall_iff : forall A (P Q R : A -> Prop) l, Forall R l -> (forall a, R a -> (P a <-> Q a)) -> (Forall P l <-> Forall Q l).
  Proof. intros A P Q R l F H. induction F as [|a l Ra F IH]; [split; constructor|]. split; intro K; inversion K; subst; constructor; try (apply H; assumption); apply IH; assumption. Qed.
  Lemma omap_ok : forall A B (f : A -> B) o, omap f o <> None <-> o <> None.
  Proof. intros A B f [a|]; cbn; split; congruence. Qed.
  Lemma omap2_ok : forall A B C (f : A -> B -> C) a b, omap2 f a b <> None <-> a <> None /\ b <> None.
  Proof. intros A B C f [a|] [b|]; cbn; split; try (intros [? ?]); try split; congruence. Qed.

  Lemma requote_ok : forall q e, rq q e <> None <-> Forall (fits reads_same q) (literals e).
  Proof.
    intro q. set (Q := fun e => rq q e <> None <-> Forall (fits reads_same q) (literals e)).
    assert (Elems : forall es, Forall (fun x : bool * expr => Q (snd x)) es -> (opt_map (fun x : bool * expr => match rq q (snd x) with Some e => Some (fst x, e) | None => None end) es <> None <->
      Forall (fits reads_same q) (flat_map (fun x : bool * expr => literals (snd x)) es))).
    { intros es F. rewrite opt_map_ok, forall_flat. eapply forall_iff; [exact F|]. intros [st a] Qa. unfold Q in Qa. cbn in *. rewrite <- Qa. destruct (rq q a); split; congruence. }
    assert (Plain : forall es, Forall Q es -> (opt_map (rq q) es <> None <-> Forall (fits reads_same q) (flat_map literals es))).
    { intros es F. rewrite opt_map_ok, forall_flat. eapply forall_iff; [exact F|]. intros a Qa. exact Qa. }
    assert (Clauses : forall cs, Forall (on_clause Q) cs -> (opt_map (fun c => match c with (t, it, ifs) => match rq q t, rq q it, opt_map (rq q) ifs with Some t, Some it, Some ifs => Some (t, it, ifs) | _, _, _ => None end end) cs <> None <->
      Forall (fits reads_same q) (flat_map (fun c : clause => literals (fst (fst c)) ++ literals (snd (fst c)) ++ flat_map literals (snd c)) cs))).
    { intros cs F. rewrite opt_map_ok, forall_flat. eapply forall_iff; [exact F|]. intros [[t it] ifs] (Q1 & Q2 & Q3). cbn [fst snd] in *. rewrite !Forall_app, <- (Plain _ Q3). unfold Q in Q1, Q2. rewrite <- Q1, <- Q2.
      destruct (rq q t), (rq q it), (opt_map (rq q) ifs); split; try (intros (? & ? & ?)); try intro; repeat split; congruence. }
    apply (expr_all Q); intros; unfold Q in *; cbn [requote literals]; rewrite ?omap_ok, ?omap2_ok, ?Forall_app;
      try (split; [intros _; constructor|discriminate]); try tauto.
    - rewrite requote_string_ok. split; [intro; constructor; auto|intro K; now inversion K].
    - rewrite opt_map_ok, forall_flat. eapply forall_iff; [eassumption|]. intros [t|a] Qa; cbn in *; [split; [constructor|discriminate]|]. rewrite <- Qa. now rewrite omap_ok.
    - match goal with H : rq q _ <> None <-> _ |- _ => rewrite <- H end. rewrite <- Plain by assumption. reflexivity.
    - match goal with H : rq q _ <> None <-> _ |- _ => rewrite <- H end. rewrite opt_map_ok, forall_flat.
      assert (K : forall (l : list arg), Forall (fun a : arg => rq q (snd a) <> None <-> Forall (fits reads_same q) (literals (snd a))) l -> (Forall (fun a : arg => match a with (st, kw, e) => match rq q e with Some e => Some (st, kw, e) | None => None end end <> None) l <-> Forall (fun a : arg => Forall (fits reads_same q) (literals (snd a))) l)).
      { intros l9 F. eapply forall_iff; [exact F|]. intros [[st kw] a] Qa. cbn in *. rewrite <- Qa. destruct (rq q a); split; congruence. }
      rewrite <- K by assumption. reflexivity.
    - match goal with H : rq q _ <> None <-> _ |- _ => rewrite <- H end. rewrite opt_map_ok, forall_flat.
      assert (K : forall (l : list (cmpop * expr)), Forall (fun a => rq q (snd a) <> None <-> Forall (fits reads_same q) (literals (snd a))) l -> (Forall (fun x : cmpop * expr => match rq q (snd x) with Some e => Some (fst x, e) | None => None end <> None) l <-> Forall (fun a : cmpop * expr => Forall (fits reads_same q) (literals (snd a))) l)).
      { intros l9 F. eapply forall_iff; [exact F|]. intros [st a] Qa. cbn in *. rewrite <- Qa. destruct (rq q a); split; congruence. }
      rewrite <- K by assumption. reflexivity.
    - rewrite <- Elems by assumption. reflexivity.
    - rewrite <- Elems by assumption. reflexivity.
    - rewrite <- Elems by assumption. reflexivity.
    - rewrite opt_map_ok, forall_flat. eapply forall_iff; [eassumption|]. intros [a b] [Qa Qb]; cbn in *. rewrite Forall_app, <- Qa, <- Qb, omap2_ok. reflexivity.
    - match goal with H : rq q _ <> None <-> _ |- _ => rewrite <- H end. rewrite <- Clauses by assumption. reflexivity.
    - match goal with H : rq q _ <> None <-> _ |- _ => rewrite <- H end. rewrite <- Clauses by assumption. reflexivity.
    - match goal with H : rq q _ <> None <-> _ |- _ => rewrite <- H end. rewrite <- Clauses by assumption. reflexivity.
    - repeat match goal with H : rq q ?x <> None <-> _ |- _ => rewrite <- H; clear H end. rewrite <- Clauses by assumption.
      match goal with |- context [opt_map ?f cs] => destruct (opt_map f cs) end; destruct (rq q k), (rq q v); split; try (intros (? & ? & ?)); try intro; repeat split; congruence.
    - rewrite <- Plain by assumption. reflexivity.
  Qed.
  Lemma fill_ok : forall q tokens es, fill reads_same q tokens es <> None <->
    List.length tokens <= List.length es /\ Forall (fun e => Forall (fits reads_same q) (literals e)) (firstn (List.length tokens) es).
  Proof.
    intros q. induction tokens as [|t ts IH]; intros es; cbn [fill List.length firstn].
    - split; [intros _; split; [lia|constructor]|discriminate].
    - destruct es as [|e es]; [split; [congruence|intros [L _]; cbn in L; lia]|]. cbn [List.length]. specialize (IH es). pose proof (requote_ok q e) as R. split.
      + intro H. destruct (rq q e) as [e'|] eqn:E; [|congruence]. destruct (fill reads_same q ts es) as [ps|] eqn:F; [|congruence]. destruct (proj1 IH ltac:(discriminate)) as [L X]. split; [lia|]. constructor; [apply R; discriminate|exact X].
      + intros [L X]. inversion X as [|a b X1 X2]; subst. apply R in X1. destruct (rq q e); [|congruence]. destruct (fill reads_same q ts es); [discriminate|]. exfalso. apply (proj2 IH); [split; [lia|exact X2]|reflexivity].
  Qed.
End Fits.

Lemma simple_expression_iff : forall cl e, simple_expression cl e = true <-> brief cl e.
Proof.
  intros cl e. unfold simple_expression, brief, short. rewrite orb_true_iff, Nat.ltb_lt. split.
  - intros [H|H]; [|auto]. destruct e; try discriminate. right. exists es. split; [reflexivity|]. rewrite forallb_forall in H. intros x I. apply H in I. now apply Nat.ltb_lt.
  - intros [H|(es & -> & H)]; [auto|]. left. apply forallb_forall. intros x I. apply Nat.ltb_lt. auto.
Qed.

(** What is reported: a text (not bytes) on the left of %, and format of a literal. *)
Theorem C75_fstring_reported : forall cl rs e,
  use_fstring cl rs e <> Ok None <->
  (exists p q raw r, e = Modulo (SimpleString p q raw) r /\ text_prefix p) \/
  (exists p q raw args, e = Call (Attribute (SimpleString p q raw) (u "format")) args).
Proof.
  intros cl rs e. split.
  - intro H. destruct e as [| | | | | | |f args| | |l r| | | | | | | | | | |]; try (exfalso; apply H; reflexivity).
    + right. destruct f as [| | | | |f a| | | | | | | | | | | | | | | |]; try (exfalso; apply H; reflexivity). destruct f; try (exfalso; apply H; reflexivity). cbn [use_fstring] in H.
      destruct (str_eqb a (u "format")) eqn:E; [apply str_eqb_eq in E; subst a; do 4 eexists; reflexivity|exfalso; apply H; reflexivity].
    + left. destruct l; try (exfalso; apply H; reflexivity). exists prefix, quote, raw, r. split; [reflexivity|]. apply is_bytes_iff. unfold use_fstring in H. cbn [simple_string] in H.
      destruct (is_bytes prefix); [exfalso; apply H; reflexivity|reflexivity].
  - intros [(p & q & raw & r & -> & T)|(p & q & raw & args & ->)]; [|discriminate]. apply is_bytes_iff in T. unfold use_fstring. cbn [simple_string]. rewrite T. cbn [negb andb].
    destruct (fullmatch simple_format raw && simple_expression cl r); [|discriminate]. pose proof (split2_ne 37 115 (replace1 125 [125; 125]%N (replace1 123 [123; 123]%N raw))) as Ne.
    destruct (split2 _ _ _) as [|t ts]; [congruence|]. destruct (fill _ _ _ _); [|discriminate]. destruct (valid_fprefix _); discriminate.
Qed.

(** When a replacement is offered: no other placeholder than %s, brief expressions, at least as many as placeholders, and
    literals in them that fit into the f-string. *)
Theorem C75_fstring_fix : forall cl rs e,
  (exists e', use_fstring cl rs e = Ok (Some (Some e'))) <->
  exists p q raw r, e = Modulo (SimpleString p q raw) r /\ List.In p [[]; u "r"; u "R"] /\ only_placeholders raw /\ brief cl r /\
    holes raw <= List.length (values_of r) /\ forall x, List.In x (firstn (holes raw) (values_of r)) -> Forall (fits rs q) (literals x).
Proof.
  intros cl rs e.
  assert (Go : forall p q raw r, use_fstring cl rs (Modulo (SimpleString p q raw) r) =
    if is_bytes p then Ok None else if fullmatch simple_format raw && simple_expression cl r then
      match fill rs q (map dbl (tl (split2 37 115 raw))) (values_of r) with
      | Some parts => if valid_fprefix (u "f" ++ map ascii_lower p) then Ok (fix_with (FString (u "f" ++ map ascii_lower p) q (text_part (dbl (hd [] (split2 37 115 raw))) ++ parts))) else Err CSTValidationError
      | None => Ok no_fix end else Ok no_fix).
  { intros p q raw r. unfold use_fstring. cbn [simple_string]. rewrite doubled, split2_dbl. destruct (is_bytes p); cbn [negb andb]; [reflexivity|]. destruct (fullmatch simple_format raw && simple_expression cl r); [|reflexivity].
    pose proof (split2_ne 37 115 raw) as Ne. destruct (split2 37 115 raw) as [|t ts]; [congruence|]. reflexivity. }
  assert (V : forall p, is_bytes p = false /\ valid_fprefix (u "f" ++ map ascii_lower p) = true <-> List.In p [[]; u "r"; u "R"]).
  { intro p. split.
    - intros [_ H]. unfold valid_fprefix in H. apply orb_true_iff in H. destruct H as [H|H]; [apply orb_true_iff in H; destruct H as [H|H]|]; apply str_eqb_eq in H; cbn in H; injection H as H; [| |discriminate].
      + left. destruct p; [reflexivity|discriminate].
      + right. destruct p as [|c [|]]; try discriminate. injection H as H. unfold ascii_lower in H. destruct ((65 <=? c) && (c <=? 90))%N eqn:E; [right; left|left]; cbn; f_equal; try lia. 
    - intros [<-|[<-|[<-|[]]]]; split; reflexivity. }
  assert (Hl : forall raw, List.length (map dbl (tl (split2 37 115 raw))) = holes raw).
  { intro raw. rewrite map_length. pose proof (holes_split raw) as Hs. pose proof (split2_ne 37 115 raw) as Ne. destruct (split2 37 115 raw); [congruence|]. cbn in *. lia. }
  split.
  - intros [e' H]. destruct e as [| | | | | | |f args| | |l r| | | | | | | | | | |]; try discriminate.
    + exfalso. destruct f as [| | | | |f a| | | | | | | | | | | | | | | |]; try discriminate. destruct f; try discriminate. cbn [use_fstring] in H. destruct (str_eqb a (u "format")); discriminate.
    + destruct l; try discriminate. rewrite Go in H. destruct (is_bytes prefix) eqn:B; [discriminate|]. destruct (fullmatch simple_format raw && simple_expression cl r) eqn:S; [|discriminate].
      destruct (fill _ _ _ _) as [parts|] eqn:F; [|discriminate]. destruct (valid_fprefix _) eqn:W; [|discriminate]. apply andb_true_iff in S. destruct S as [S1 S2].
      assert (Fo : fill rs quote (map dbl (tl (split2 37 115 raw))) (values_of r) <> None) by congruence. apply fill_ok in Fo. rewrite Hl in Fo. destruct Fo as [L A]. exists prefix, quote, raw, r.
      split; [reflexivity|]. split; [apply V; auto|]. split; [now apply simple_format_iff|]. split; [now apply simple_expression_iff|]. split; [exact L|]. now apply Forall_forall.
  - intros (p & q & raw & r & -> & I & O & Br & L & A). apply V in I. destruct I as [B W]. rewrite Go, B, W. rewrite (proj2 (simple_format_iff raw) O), (proj2 (simple_expression_iff cl r) Br). cbn [andb].
    destruct (fill rs q (map dbl (tl (split2 37 115 raw))) (values_of r)) as [parts|] eqn:F; [eexists; reflexivity|]. exfalso. apply (proj2 (fill_ok rs q (map dbl (tl (split2 37 115 raw))) (values_of r))); [|exact F]. rewrite Hl. split; [exact L|]. now apply Forall_forall.
Qed.

(** What the replacement is. *)
Section Unquoted.
  Context (reads_same : str -> str -> str -> str -> bool).
  Notation rq := (requote reads_same).
  Lemma opt_map_same : forall A B C (f : A -> option B) (g : A -> C) (h : B -> C) (R : A -> Prop) l l', Forall R l -> (forall a b, R a -> f a = Some b -> h b = g a) ->
    opt_map f l = Some l' -> map h l' = map g l.
  Proof.
    intros A B C f g h R l l' F H. revert l'. induction F as [|a l Ra F IH]; intros l' E; cbn [opt_map] in E; [now injection E as <-|].
    destruct (f a) as [b|] eqn:Fa; [|discriminate]. destruct (opt_map f l) as [bs|]; [|discriminate]. injection E as <-. cbn [map]. now rewrite (H a b Ra Fa), (IH bs eq_refl).
  Qed.
  Lemma requote_unquoted : forall q e e', rq q e = Some e' -> unquoted e' = unquoted e.
  Proof.
    intro q. set (Q := fun e => forall e', rq q e = Some e' -> unquoted e' = unquoted e).
    assert (Elems : forall es es', Forall (fun x : bool * expr => Q (snd x)) es -> opt_map (fun x : bool * expr => match rq q (snd x) with Some e => Some (fst x, e) | None => None end) es = Some es' ->
      map (fun x : bool * expr => (fst x, unquoted (snd x))) es' = map (fun x : bool * expr => (fst x, unquoted (snd x))) es).
    { intros es es' F. eapply opt_map_same; [exact F|]. intros [st a] [st' b] Qa H. cbn in *. destruct (rq q a) as [c|] eqn:E; [|discriminate]. injection H as <- <-. now rewrite (Qa c E). }
    assert (Plain : forall es es', Forall Q es -> opt_map (rq q) es = Some es' -> map unquoted es' = map unquoted es).
    { intros es es' F. eapply opt_map_same; [exact F|]. intros a b Qa H. now apply Qa. }
    assert (Clauses : forall cs cs', Forall (on_clause Q) cs -> opt_map (fun c => match c with (t, it, ifs) => match rq q t, rq q it, opt_map (rq q) ifs with Some t, Some it, Some ifs => Some (t, it, ifs) | _, _, _ => None end end) cs = Some cs' ->
      map (fun c : clause => (unquoted (fst (fst c)), unquoted (snd (fst c)), map unquoted (snd c))) cs' = map (fun c : clause => (unquoted (fst (fst c)), unquoted (snd (fst c)), map unquoted (snd c))) cs).
    { intros cs cs' F. eapply opt_map_same; [exact F|]. intros [[t it] ifs] [[t' it'] ifs'] (Q1 & Q2 & Q3) H. cbn [fst snd] in *.
      destruct (rq q t) as [x|] eqn:E1; [|discriminate]. destruct (rq q it) as [y|] eqn:E2; [|discriminate]. destruct (opt_map (rq q) ifs) as [z|] eqn:E3; [|discriminate]. injection H as <- <- <-.
      now rewrite (Q1 _ E1), (Q2 _ E2), (Plain _ _ Q3 E3). }
    apply (expr_all Q); intros; intros e' HE; cbn [requote] in HE; unfold omap, omap2, option_map in HE;
      try (match type of HE with match rq q ?l with _ => _ end = _ => destruct (rq q l) as [x|] eqn:E1; [|discriminate] end);
      try (match type of HE with match rq q ?l with _ => _ end = _ => destruct (rq q l) as [y|] eqn:E2; [|discriminate] end);
      try (match type of HE with match ?m with _ => _ end = _ => destruct m as [z|] eqn:E3; [|discriminate] end);
      try (injection HE as <-); cbn [unquoted]; try reflexivity; f_equal; auto.
    - unfold requote_string in HE. destruct (str_eqb q q0); [|now injection HE as <-]. destruct (find _ quotes) as [n|]; [|discriminate]. destruct (reads_same _ _ n _); [|discriminate]. now injection HE as <-.
    - eapply opt_map_same; [eassumption| |exact E3]. intros [t|a] b Qa H1; [now injection H1 as <-|]. cbn in *. destruct (rq q a) as [c|] eqn:Ea; [|discriminate]. injection H1 as <-. now rewrite (Qa c Ea).
    - eapply opt_map_same; [eassumption| |exact E3]. intros [[st kw] a] [[st' kw'] b] Qa H1. cbn in *. destruct (rq q a) as [c|] eqn:E; [|discriminate]. injection H1 as <- <- <-. now rewrite (Qa c E).
    - eapply opt_map_same; [eassumption| |exact E3]. intros [op a] [op' b] Qa H1. cbn in *. destruct (rq q a) as [c|] eqn:E; [|discriminate]. injection H1 as <- <-. now rewrite (Qa c E).
    - eapply opt_map_same; [eassumption| |exact E3]. intros [a1 b1] [a2 b2] [Q1 Q2] H1. cbn in *. destruct (rq q a1) as [c|] eqn:Ea; [|discriminate]. destruct (rq q b1) as [d|] eqn:Eb; [|discriminate].
      injection H1 as <- <-. now rewrite (Q1 c Ea), (Q2 d Eb).
  Qed.
  Lemma fill_unquoted : forall q tokens es parts, fill reads_same q tokens es = Some parts ->
    map unquoted (values_in parts) = map unquoted (firstn (List.length tokens) es) /\ as_format parts = flat_map (fun t => u "%s" ++ t) tokens.
  Proof.
    intro q. induction tokens as [|t ts IH]; intros es parts H; cbn [fill] in H; [injection H as <-; auto|].
    destruct es as [|e es]; [discriminate|]. destruct (rq q e) as [e'|] eqn:R; [|discriminate]. destruct (fill reads_same q ts es) as [ps|] eqn:F; [|discriminate]. injection H as <-.
    destruct (IH es ps F) as [V A]. split.
    - cbn [List.length firstn map]. rewrite <- V, <- (requote_unquoted q e e' R). unfold text_part. destruct t; reflexivity.
    - cbn [flat_map]. rewrite <- A. unfold text_part. destruct t; cbn; rewrite ?app_nil_r; reflexivity.
  Qed.
End Unquoted.
Lemma split_join : forall s, hd [] (split2 37 115 s) ++ flat_map (fun t => u "%s" ++ t) (tl (split2 37 115 s)) = s.
Proof.
  apply (two_induction _ (fun s => hd [] (split2 37 115 s) ++ flat_map (fun t => u "%s" ++ t) (tl (split2 37 115 s)) = s)); try reflexivity. intros c d s I1 I2. rewrite split2_2.
  destruct ((c =? 37) && (d =? 115))%N eqn:E.
  - apply andb_true_iff in E. destruct E as [E1 E2]. apply N.eqb_eq in E1, E2. subst. pose proof (split2_ne 37 115 s) as Ne. destruct (split2 37 115 s) as [|t ts]; [congruence|]. cbn [hd tl flat_map app] in *. rewrite <- app_assoc, I1. reflexivity.
  - pose proof (split2_ne 37 115 (d :: s)) as Ne. destruct (split2 37 115 (d :: s)) as [|t ts]; [congruence|]. cbn [hd tl app] in *. now rewrite I2.
Qed.
Lemma dbl_doubled : forall s, dbl s = braces_doubled s.
Proof. intro s. unfold dbl, braces_doubled. apply flat_map_ext. intro c. unfold dd. destruct (N.eqb_spec c 123) as [->|]; [reflexivity|]. destruct (N.eqb_spec c 125) as [->|]; reflexivity. Qed.
Theorem C75_fstring_text : forall cl rs p q raw r e', use_fstring cl rs (Modulo (SimpleString p q raw) r) = Ok (Some (Some e')) ->
  exists p' parts, e' = FString p' q parts /\ (p = [] /\ p' = u "f" \/ List.In p [u "r"; u "R"] /\ p' = u "fr") /\
    as_format parts = braces_doubled raw /\ map unquoted (values_in parts) = map unquoted (firstn (holes raw) (values_of r)) /\ List.length (values_in parts) = holes raw.
Proof.
  intros cl rs p q raw r e' H.
  assert (X : exists e', use_fstring cl rs (Modulo (SimpleString p q raw) r) = Ok (Some (Some e'))) by eauto. apply C75_fstring_fix in X.
  destruct X as (p0 & q0 & raw0 & r0 & E & I & _ & _ & Len & _). injection E as <- <- <- <-.
  unfold use_fstring in H. destruct (simple_string (SimpleString p q raw) && simple_expression cl r); [|destruct (is_bytes p); discriminate].
  rewrite doubled in H. pose proof (split_join (dbl raw)) as J. pose proof (split2_ne 37 115 (dbl raw)) as Ne.
  assert (Hl : List.length (split2 37 115 (dbl raw)) = S (holes raw)) by (rewrite split2_dbl, map_length; symmetry; apply holes_split).
  destruct (split2 37 115 (dbl raw)) as [|t ts]; [congruence|]. cbn [hd tl List.length] in J, Hl. injection Hl as Hl.
  change (match r with Tuple xs => map snd xs | _ => [r] end) with (values_of r) in H. destruct (fill rs q ts (values_of r)) as [parts|] eqn:F; [|discriminate].
  cbv zeta in H. destruct (valid_fprefix _); [|discriminate]. injection H as <-. destruct (fill_unquoted rs q ts (values_of r) parts F) as [V A]. rewrite Hl in V.
  assert (Vt : values_in (text_part t ++ parts) = values_in parts) by (unfold text_part; destruct t; reflexivity).
  do 2 eexists. split; [reflexivity|]. split; [destruct I as [<-|[<-|[<-|[]]]]; [left|right|right]; (split; [cbn; auto|reflexivity])|].
  split; [|rewrite Vt; split; [exact V|]].
  - rewrite <- dbl_doubled, <- J, <- A. unfold as_format, text_part. rewrite flat_map_app. destruct t; cbn [flat_map app]; rewrite ?app_nil_r; reflexivity.
  - rewrite <- (map_length unquoted), V, map_length, firstn_length. lia.
Qed.
Example C75_fstring_example : exists parts,
  use_fstring (fun _ => 1) yes (Modulo (SimpleString (u "R") (u "'") (u "{%s} %s")) (Tuple [(false, SimpleString [] (u "'") (u "y")); (false, name "x")])) = Ok (Some (Some (FString (u "fr") (u "'") parts))) /\
  as_format parts = u "{{%s}} %s" /\ values_in parts = [SimpleString [] [34%N] (u "y"); name "x"].
Proof. eexists. vm_compute. repeat split; reflexivity. Qed.

(** Each kind of report occurs. *)
Example C75_example :
  settled (Not (BoolOp (name "x") And (name "False"))) true /\
  type_check (fun f => is_name "isinstance" f = true) (Call (name "isinstance") [positional (name "a"); positional (name "b")]) (name "a") /\
  use_assert_none (Call (self_dot "assertFalse") [positional (Not (Compare (name "x") [(Is, name "None")]))]) (none_assertion true (name "x")) /\
  use_literal (Call (name "dict") [positional (List [(false, Tuple [(false, name "a"); (false, name "b")])])]) (Dict [(name "a", name "b")]) /\
  use_comprehension (Call (name "dict") [positional (GeneratorExp (Tuple [(false, name "a"); (false, name "b")]) [])]) (DictComp (name "a") (name "b") []) /\
  only_placeholders (u "a %s") /\ brief (fun _ => 40) (Tuple []) /\ ~ brief (fun _ => 30) (name "x") /\
  fits yes (u "'") ([], u "'", [34%N]) /\ ~ fits (fun _ _ _ _ => false) (u "'") ([], u "'", []).
Proof.
  repeat split.
  - apply (Settled_not _ false). apply Settled_and_right. constructor.
  - apply (@Type_check _ _ _ _ _ (name "b")); [reflexivity|reflexivity|reflexivity|discriminate].
  - apply (None_false _ (Not (Compare (name "x") [(Is, name "None")])) _ false); [reflexivity|]. apply (Asks_not _ _ true). constructor.
  - eapply Literal_dict; [apply Displayed_list; reflexivity|]. constructor; [split; [reflexivity|apply Pair_tuple; reflexivity]|constructor].
  - eapply Comp_dict; [reflexivity|constructor|left; reflexivity|reflexivity].
  - intros a b E. destruct a as [|x [|y [|z [|w a]]]]; try discriminate; cbn in E; repeat (injection E as ? E); subst; eauto; try discriminate. destruct a; discriminate.
  - vm_compute. auto.
  - right. exists []. split; [reflexivity|]. intros x [].
  - intros [H|(es & E & _)]; [lia|discriminate].
  - right. exists [u "'"; [34%N]], (u "'''"), [[34; 34; 34]%N]. split; [reflexivity|]. split; [split; [discriminate|]|split; [|reflexivity]].
    + intros a b E. destruct a as [|x [|y a]]; discriminate.
    + intros x [<-|[<-|[]]] [H1 H2]; [now apply H1|]. now apply (H2 [] []).
  - intros [H|(a & n & b & _ & _ & _ & H)]; [now apply H|discriminate].
Qed.
Example C75_isinstance_example :
  let check t c := Call (name "isinstance") [positional t; positional c] in
  let e := BoolOp (BoolOp (BoolOp (check (name "a") (name "b")) Or (name "x")) Or (check (name "c") (name "b"))) Or (check (name "a") (name "d")) in
  let e' := BoolOp (BoolOp (check (name "a") (Tuple [(false, name "b"); (false, name "d")])) Or (name "x")) Or (check (name "c") (name "b")) in
  collapse expr_name_eqb (is_name "isinstance") e = Some (Some e') /\
  merged (fun f => is_name "isinstance" f = true) (fun a b => expr_name_eqb a b = true)
    [check (name "a") (name "b"); name "x"; check (name "c") (name "b"); check (name "a") (name "d")]
    [check (name "a") (Tuple [(false, name "b"); (false, name "d")]); name "x"; check (name "c") (name "b")].
Proof.
  cbv zeta. split; [vm_compute; reflexivity|].
  apply (@Merged_check _ _ _ (name "a") (name "b") _ [name "d"] [name "x"; Call (name "isinstance") [positional (name "c"); positional (name "b")]]).
  - econstructor; try reflexivity. discriminate.
  - apply Picks_no; [intros t c H; inversion H|]. apply Picks_no.
    + intros t c H E. inversion H as [f a b t0 c0 I A B N E1 E2 E3]; subst. unfold any_arg in A. cbn in A. subst t. discriminate.
    + eapply Picks_yes; [econstructor; try reflexivity; discriminate|reflexivity|constructor].
  - apply Merged_other; [intros t c H; inversion H|]. apply (@Merged_check _ _ _ (name "c") (name "b") [] [] []); [econstructor; try reflexivity; discriminate|constructor|constructor].
Qed.
