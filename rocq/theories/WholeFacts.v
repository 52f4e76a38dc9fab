(** * Trees of expressions: nodes, parts, a measure that every fix makes smaller *)
From Coq Require Import String List NArith ZArith Bool Arith Lia.
From Verif Require Import Base PyStr Regex Py Rules RulesSpec RulesProps RulesProps2 RulesProps3 Whole WholeSpec.
Import ListNotations.

(** ** The parts of a node *)
Definition clause_parts (c : clause) : list expr := fst (fst c) :: snd (fst c) :: snd c.
Definition children (e : expr) : list expr :=
  match e with
  | Name _ | Number _ | SimpleString _ _ _ => []
  | Concatenated l r | BoolOp l _ r | Modulo l r => [l; r]
  | FString _ _ parts => flat_map (fun x => match x with inl _ => [] | inr e => [e] end) parts
  | Attribute e _ | Not e | Lambda _ _ e => [e]
  | Subscript e sl => e :: sl
  | Call f args => f :: map snd args
  | Compare l rest => l :: map snd rest
  | Tuple es | List es | Set_ es => map snd es
  | Dict es => flat_map (fun kv => [fst kv; snd kv]) es
  | ListComp elt cs | SetComp elt cs | GeneratorExp elt cs => elt :: flat_map clause_parts cs
  | DictComp k v cs => k :: v :: flat_map clause_parts cs
  | Other _ es => es
  end.
Definition rebuild (f : expr -> expr) (e : expr) : expr :=
  let clauses := map (fun c : clause => (f (fst (fst c)), f (snd (fst c)), map f (snd c))) in
  let elems := map (fun x : bool * expr => (fst x, f (snd x))) in
  match e with
  | Name _ | Number _ | SimpleString _ _ _ => e
  | Concatenated l r => Concatenated (f l) (f r)
  | FString p q parts => FString p q (map (fun x => match x with inl t => inl t | inr e => inr (f e) end) parts)
  | Attribute e a => Attribute (f e) a
  | Subscript e sl => Subscript (f e) (map f sl)
  | Call g args => Call (f g) (map (fun a : arg => (fst a, f (snd a))) args)
  | Not e => Not (f e)
  | BoolOp l op r => BoolOp (f l) op (f r)
  | Modulo l r => Modulo (f l) (f r)
  | Compare l rest => Compare (f l) (map (fun x : cmpop * expr => (fst x, f (snd x))) rest)
  | Tuple es => Tuple (elems es)
  | List es => List (elems es)
  | Set_ es => Set_ (elems es)
  | Dict es => Dict (map (fun kv : expr * expr => (f (fst kv), f (snd kv))) es)
  | Lambda ps simple body => Lambda ps simple (f body)
  | ListComp elt cs => ListComp (f elt) (clauses cs)
  | SetComp elt cs => SetComp (f elt) (clauses cs)
  | GeneratorExp elt cs => GeneratorExp (f elt) (clauses cs)
  | DictComp k v cs => DictComp (f k) (f v) (clauses cs)
  | Other n es => Other n (map f es)
  end.

Lemma pass_eq : forall fixes e, pass fixes e = match fixes e with Some e' => e' | None => rebuild (pass fixes) e end.
Proof. intros fixes e. destruct e; reflexivity. Qed.

Lemma flat_map_map : forall A B C (f : B -> list C) (g : A -> B) l, flat_map f (map g l) = flat_map (fun a => f (g a)) l.
Proof. intros. induction l as [|a l IH]; [reflexivity|]. cbn. now rewrite IH. Qed.
Lemma flat_map_flat : forall A B C (f : B -> list C) (g : A -> list B) l, flat_map f (flat_map g l) = flat_map (fun a => flat_map f (g a)) l.
Proof. intros. induction l as [|a l IH]; [reflexivity|]. cbn. now rewrite flat_map_app, IH. Qed.
Lemma map_flat_map : forall A B C (f : B -> C) (g : A -> list B) l, map f (flat_map g l) = flat_map (fun a => map f (g a)) l.
Proof. intros. induction l as [|a l IH]; [reflexivity|]. cbn. now rewrite map_app, IH. Qed.
Lemma flat_map_same : forall A B (f g : A -> list B) l, (forall a, f a = g a) -> flat_map f l = flat_map g l.
Proof. intros A B f g l H. induction l as [|a l IH]; [reflexivity|]. cbn. now rewrite H, IH. Qed.

Lemma subnodes_eq : forall e, subnodes e = e :: flat_map subnodes (children e).
Proof.
  assert (Cl : forall cs, flat_map subnodes (flat_map clause_parts cs) = flat_map (fun c : clause => subnodes (fst (fst c)) ++ subnodes (snd (fst c)) ++ flat_map subnodes (snd c)) cs)
    by (intro cs; rewrite flat_map_flat; apply flat_map_same; intros [[t it] ifs]; reflexivity).
  assert (Sn : forall (T : Type) (l : list (T * expr)), flat_map subnodes (map snd l) = flat_map (fun x => subnodes (snd x)) l) by (intros; apply flat_map_map).
  intro e. destruct e; cbn [subnodes children flat_map app]; f_equal; rewrite ?app_nil_r, ?Cl, ?Sn; try reflexivity.
  - rewrite flat_map_flat. apply flat_map_same. intros [t|x]; cbn; [reflexivity|now rewrite app_nil_r].
  - rewrite flat_map_flat. apply flat_map_same. intros [a b]; cbn. now rewrite app_nil_r.
Qed.

Lemma children_rebuild : forall f e, children (rebuild f e) = map f (children e).
Proof.
  intros f e.
  assert (Cl : forall cs, flat_map clause_parts (map (fun c : clause => (f (fst (fst c)), f (snd (fst c)), map f (snd c))) cs) = map f (flat_map clause_parts cs))
    by (intro cs; rewrite flat_map_map, map_flat_map; apply flat_map_same; intros [[t it] ifs]; reflexivity).
  destruct e; cbn [rebuild children map]; rewrite ?Cl, ?map_map; try reflexivity.
  - rewrite flat_map_map, map_flat_map. apply flat_map_same. intros [t|x]; reflexivity.
  - rewrite flat_map_map, map_flat_map. apply flat_map_same. intros [a b]; reflexivity.
Qed.

Lemma forall_parts : forall Q parts, Forall (on_part Q) parts -> Forall Q (flat_map (fun x : str + expr => match x with inl _ => [] | inr e => [e] end) parts).
Proof. intros Q parts F. induction F as [|[t|x] parts H F IH]; cbn; auto. Qed.
Lemma forall_clauses : forall Q cs, Forall (on_clause Q) cs -> Forall Q (flat_map clause_parts cs).
Proof. intros Q cs F. induction F as [|[[t it] ifs] cs (H1 & H2 & H3) F IH]; cbn; auto. constructor; [exact H1|]. constructor; [exact H2|]. apply Forall_app. auto. Qed.
Lemma forall_snd : forall Q (T : Type) (l : list (T * expr)), Forall (fun x => Q (snd x)) l -> Forall Q (map snd l).
Proof. intros Q T l F. induction F; cbn; auto. Qed.
Lemma forall_pairs : forall Q (l : list (expr * expr)), Forall (fun x => Q (fst x) /\ Q (snd x)) l -> Forall Q (flat_map (fun kv => [fst kv; snd kv]) l).
Proof. intros Q l F. induction F as [|[a b] l (H1 & H2) F IH]; cbn; auto. Qed.

Lemma expr_children : forall Q : expr -> Prop, (forall e, Forall Q (children e) -> Q e) -> forall e, Q e.
Proof.
  intros Q H e. apply (expr_all Q); intros; apply H; cbn [children]; auto using forall_parts, forall_clauses, forall_snd, forall_pairs.
Qed.

Lemma subnode_self : forall e, List.In e (subnodes e).
Proof. intro e. rewrite subnodes_eq. now left. Qed.
Lemma subnode_child : forall e c x, List.In c (children e) -> List.In x (subnodes c) -> List.In x (subnodes e).
Proof. intros e c x Ic Ix. rewrite subnodes_eq. right. apply in_flat_map. eauto. Qed.

(** ** The measure *)
Definition total (l : list nat) : nat := fold_right plus 0 l.
Lemma total_cons : forall x l, total (x :: l) = x + total l.
Proof. reflexivity. Qed.
Lemma total_app : forall l1 l2, total (l1 ++ l2) = total l1 + total l2.
Proof. induction l1 as [|x l1 IH]; intro l2; [reflexivity|]. cbn [app]. rewrite !total_cons, IH. lia. Qed.

Definition marked (a : str) : bool := str_eqb a (u "assertTrue") || existsb (fun p => str_eqb a (u (fst p))) deprecated_asserts.
Definition extra (e : expr) : nat :=
  match e with ListComp _ _ | FString _ _ _ => 1 | Attribute _ a => if marked a then 1 else 0 | _ => 0 end.

Section Measure.
  Context (qual : expr -> bool) (use_equal use_is : bool).
  Definition lit (e : expr) : bool := use_equal && primitive e.
  Definition sing (e : expr) : bool := use_is && singleton qual e.
  Definition pair_weight (l : expr) (op : cmpop) (r : expr) : nat :=
    if lit l || lit r then if is_or_not op then 1 else 0
    else if sing l || sing r then if equal_or_not op then 1 else 0
    else 2.
  Fixpoint pairs_weight (l : expr) (rest : list (cmpop * expr)) : nat :=
    match rest with [] => 0 | (op, r) :: rest' => pair_weight l op r + pairs_weight r rest' end.
  Definition own (e : expr) : nat := 10 + extra e + match e with Compare l rest => pairs_weight l rest | _ => 0 end.
  Definition weight (e : expr) : nat := total (map own (subnodes e)).
  Definition weights (l : list expr) : nat := total (map weight l).

  Lemma weight_eq : forall e, weight e = own e + weights (children e).
  Proof.
    intro e. unfold weight at 1. rewrite subnodes_eq. cbn [map]. rewrite total_cons. f_equal. unfold weights.
    induction (children e) as [|c l IH]; [reflexivity|]. cbn [flat_map map]. rewrite map_app, total_app, total_cons, IH. reflexivity.
  Qed.
  Lemma weight_ge : forall e, 10 <= weight e.
  Proof. intro e. rewrite weight_eq. unfold own. lia. Qed.

  Lemma pair_weight_le : forall l op r, pair_weight l op r <= 2.
  Proof. intros. unfold pair_weight. destruct (_ || _); [destruct (is_or_not op); lia|]. destruct (_ || _); [destruct (equal_or_not op); lia|lia]. Qed.
  Lemma pairs_weight_le : forall rest l, pairs_weight l rest <= 2 * List.length rest.
  Proof. induction rest as [|[op r] rest IH]; intro l; cbn; [lia|]. pose proof (pair_weight_le l op r). specialize (IH r). lia. Qed.
  Lemma weight_bound : forall e, weight e + 2 <= 13 * List.length (subnodes e).
  Proof.
    apply expr_children. intros e F. rewrite weight_eq, subnodes_eq. cbn [List.length].
    assert (B : weights (children e) + 2 * List.length (children e) <= 13 * List.length (flat_map subnodes (children e))).
    { clear -F. unfold weights. induction F as [|c l H F IH]; [cbn; lia|]. cbn [map flat_map List.length]. rewrite total_cons, app_length. lia. }
    assert (O : own e <= 11 + 2 * List.length (children e)).
    { unfold own, extra. destruct e; cbn [children List.length]; rewrite ?map_length; try lia.
      - destruct (marked attr); lia.
      - pose proof (pairs_weight_le rest e). lia. }
    lia.
  Qed.

  Lemma weights_cons : forall e l, weights (e :: l) = weight e + weights l.
  Proof. reflexivity. Qed.
  Lemma weights_app : forall l1 l2, weights (l1 ++ l2) = weights l1 + weights l2.
  Proof. intros. unfold weights. now rewrite map_app, total_app. Qed.
  Lemma weights_nil : weights [] = 0.
  Proof. reflexivity. Qed.

  Ltac node := intros; rewrite weight_eq; unfold own; cbn [children extra]; rewrite ?weights_cons, ?weights_nil; lia.
  Lemma w_name : forall n, weight (Name n) = 10. Proof. node. Qed.
  Lemma w_string : forall p q r, weight (SimpleString p q r) = 10. Proof. node. Qed.
  Lemma w_attr : forall e a, weight (Attribute e a) = 10 + (if marked a then 1 else 0) + weight e. Proof. node. Qed.
  Lemma w_call : forall f args, weight (Call f args) = 10 + weight f + weights (map snd args). Proof. node. Qed.
  Lemma w_not : forall e, weight (Not e) = 10 + weight e. Proof. node. Qed.
  Lemma w_bool : forall l op r, weight (BoolOp l op r) = 10 + weight l + weight r. Proof. node. Qed.
  Lemma w_mod : forall l r, weight (Modulo l r) = 10 + weight l + weight r. Proof. node. Qed.
  Lemma w_cmp : forall l rest, weight (Compare l rest) = 10 + pairs_weight l rest + weight l + weights (map snd rest). Proof. node. Qed.
  Lemma w_tuple : forall es, weight (Tuple es) = 10 + weights (map snd es). Proof. node. Qed.
  Lemma w_list : forall es, weight (List es) = 10 + weights (map snd es). Proof. node. Qed.
  Lemma w_set : forall es, weight (Set_ es) = 10 + weights (map snd es). Proof. node. Qed.
  Lemma w_dict : forall es, weight (Dict es) = 10 + weights (flat_map (fun kv => [fst kv; snd kv]) es). Proof. node. Qed.
  Lemma w_lambda : forall ps s b, weight (Lambda ps s b) = 10 + weight b. Proof. node. Qed.
  Lemma w_lc : forall e cs, weight (ListComp e cs) = 11 + weight e + weights (flat_map clause_parts cs). Proof. node. Qed.
  Lemma w_sc : forall e cs, weight (SetComp e cs) = 10 + weight e + weights (flat_map clause_parts cs). Proof. node. Qed.
  Lemma w_ge : forall e cs, weight (GeneratorExp e cs) = 10 + weight e + weights (flat_map clause_parts cs). Proof. node. Qed.
  Lemma w_dc : forall k v cs, weight (DictComp k v cs) = 10 + weight k + weight v + weights (flat_map clause_parts cs). Proof. node. Qed.
  Lemma w_f : forall p q parts, weight (FString p q parts) = 11 + weights (flat_map (fun x => match x with inl _ => [] | inr e => [e] end) parts). Proof. node. Qed.
  Hint Rewrite w_name w_string w_attr w_call w_not w_bool w_mod w_cmp w_tuple w_list w_set w_dict w_lambda w_lc w_sc w_ge w_dc w_f weights_cons weights_app weights_nil : wt.
  Ltac wt := do 4 (cbn [map snd app]; autorewrite with wt).

  (** ** Every fix makes the program lighter *)
  Notation smaller rule := (forall e e', rule e = Some (Some e') -> weight e' < weight e).

  Lemma by_equal_lighter : use_equal = true -> smaller by_equal.
  Proof.
    intros U e e' H. destruct e; try discriminate H. cbn [by_equal] in H. destruct (by_equal_found e rest) eqn:F; [|discriminate H]. injection H as <-.
    rewrite !w_cmp. assert (Same : forall rest l, map snd (by_equal_ops l rest) = map snd rest) by (induction rest0 as [|[op r] rest0 IH]; intro l; cbn; [reflexivity|now rewrite IH]).
    rewrite Same. assert (D : forall rest l, (pairs_weight l (by_equal_ops l rest) <= pairs_weight l rest) /\ (by_equal_found l rest = true -> pairs_weight l (by_equal_ops l rest) < pairs_weight l rest)).
    { clear -U. induction rest as [|[op r] rest IH]; intro l; cbn; [split; [lia|discriminate]|]. destruct (IH r) as (L & S). unfold pair_weight, lit. rewrite U. cbn [andb].
      destruct op; cbn; try (split; [lia|intro H; specialize (S H); lia]); destruct (primitive l || primitive r); cbn; (split; [lia|intro H; try specialize (S H); lia]). }
    pose proof (proj2 (D rest e) F). lia.
  Qed.

  Lemma by_is_lighter : use_is = true -> forall e e', by_is qual e = Some (Some e') ->
    (use_equal = true -> forall l rest, e = Compare l rest -> ~ pair_in (literal_and_singleton qual) l rest) -> weight e' < weight e.
  Proof.
    intros U e e' H No. destruct e; try discriminate H. cbn [by_is] in H. destruct (by_is_ops qual e rest) as [needs out] eqn:F; destruct needs; [|discriminate H]. injection H as <-.
    specialize (fun u => No u e rest eq_refl). rewrite !w_cmp.
    assert (D : forall rest l needs out, by_is_ops qual l rest = (needs, out) -> (use_equal = true -> ~ pair_in (literal_and_singleton qual) l rest) ->
      map snd out = map snd rest /\ pairs_weight l out <= pairs_weight l rest /\ (needs = true -> pairs_weight l out < pairs_weight l rest)).
    { clear -U. induction rest as [|[op r] rest IH]; intros l needs out H No; cbn in H; [injection H as <- <-; cbn; repeat split; [lia|discriminate]|].
      destruct (by_is_ops qual r rest) as [n1 o1] eqn:E. destruct (IH r n1 o1 E) as (S1 & L1 & G1); [intros Ue X; apply (No Ue); cbn; auto|].
      destruct (equal_or_not op && (singleton qual l || singleton qual r)) eqn:C.
      - injection H as <- <-. apply andb_prop in C. destruct C as (C1 & C2). cbn [map snd pairs_weight].
        assert (L : lit l || lit r = false).
        { unfold lit. destruct use_equal eqn:Ue; [|reflexivity]. cbn [andb]. destruct (primitive l || primitive r) eqn:Pr; [|reflexivity]. exfalso. apply (No eq_refl). left.
          split; [destruct op; try discriminate C1; cbn; auto|].
          apply orb_prop in Pr. apply orb_prop in C2. destruct Pr as [Pr|Pr], C2 as [Si|Si].
          - destruct l; cbn in Pr, Si; congruence.
          - left. split; [exact Pr|]. destruct r; try discriminate Si. cbn in Si. eauto.
          - right. split; [exact Pr|]. destruct l; try discriminate Si. cbn in Si. eauto.
          - destruct r; cbn in Pr, Si; congruence. }
        assert (Sg : sing l || sing r = true) by (unfold sing; rewrite U; exact C2).
        unfold pair_weight. rewrite L, Sg, C1. split; [now rewrite S1|]. destruct op; try discriminate C1; cbn; (split; [lia|intros _; lia]).
      - injection H as <- <-. cbn [map snd pairs_weight]. split; [now rewrite S1|]. split; [lia|]. intro N. specialize (G1 N). lia. }
    destruct (D rest e true out F No) as (S & _ & G). rewrite S. specialize (G eq_refl). lia.
  Qed.

  Definition stack_weight (l : list expr) : nat := total (map (fun e => weight e + 10) l).
  Lemma unwrap_weight : forall e, weight e + 10 = stack_weight (unwrap e).
  Proof.
    fix IH 1. intro e. destruct e; try (unfold stack_weight; cbn; lia). destruct op; [unfold stack_weight; cbn; lia|].
    cbn [unwrap]. unfold stack_weight in *. rewrite map_app, total_app, <- (IH e1), w_bool. cbn. lia.
  Qed.
  Lemma or_all_weight : forall es e, or_all es = Some e -> weight e + 10 = stack_weight es.
  Proof.
    intros [|x es] e H; [discriminate H|]. injection H as <-. unfold stack_weight. cbn [map]. rewrite total_cons. revert x.
    induction es as [|y es IH]; intro x; cbn [fold_left]; [cbn; lia|]. rewrite IH, w_bool. cbn [map]. rewrite total_cons. lia.
  Qed.

  Section Collapse.
    Context (deq : expr -> expr -> bool) (is_isinstance : expr -> bool).
    Notation ops_weight ops := (stack_weight (map operand_expr ops)).
    (** every collected target has a type *)
    Definition with_types (o : operand) : Prop := match o with Target _ [] => False | _ => True end.
    Lemma add_check_weight : forall t c ops, Forall with_types ops ->
      Forall with_types (add_check deq t c ops) /\
      ops_weight (add_check deq t c ops) + List.length ops + 1 <= ops_weight ops + 30 + weight t + weight c + List.length (add_check deq t c ops).
    Proof.
      intros t c ops F. unfold stack_weight. induction F as [|o ops H F (IH1 & IH2)].
      - split; [repeat constructor|]. cbn [add_check map operand_expr List.length]. rewrite total_cons. unfold plain_arg. wt. change (total []) with 0. lia.
      - destruct o as [t' cs|x].
        + cbn [add_check]. destruct (deq t t').
          * destruct cs as [|c1 cs]; [contradiction|]. split; [constructor; [|exact F]; destruct cs; exact I|].
            cbn [map List.length]. rewrite !total_cons. pose proof (weight_ge t). pose proof (weight_ge c). destruct cs as [|c2 cs]; cbn [app operand_expr]; unfold plain_arg; wt; [lia|].
            rewrite map_app, map_app, weights_app. wt. lia.
          * split; [constructor; assumption|]. cbn [map List.length]. rewrite !total_cons. lia.
        + cbn [add_check]. split; [constructor; [exact I|assumption]|]. cbn [map List.length]. rewrite !total_cons. lia.
    Qed.
    Lemma collect_weight : forall stack ops, Forall with_types ops ->
      let ops' := fold_left (fun ops e => match check_of is_isinstance e with Some (t, c) => add_check deq t c ops | None => ops ++ [Operand e] end) stack ops in
      ops_weight ops' + List.length ops + List.length stack <= ops_weight ops + stack_weight stack + List.length ops'.
    Proof.
      induction stack as [|e stack IH]; intros ops F; cbn [fold_left]; [cbn; lia|]. cbn zeta in IH.
      destruct (check_of is_isinstance e) as [[t c]|] eqn:C.
      - destruct (add_check_weight t c ops F) as (F' & L). specialize (IH _ F'). cbn [List.length]. change (stack_weight (e :: stack)) with (weight e + 10 + stack_weight stack).
        assert (W : weight e + 10 >= 30 + weight t + weight c).
        { destruct e; try discriminate C. destruct args as [|[[? ?] a] [|[[? ?] b] [|? ?]]]; try discriminate C. cbn in C.
          assert (a = t /\ b = c) as (-> & ->) by (destruct b; try discriminate C; destruct (is_isinstance e); try discriminate C; injection C as <- <-; auto).
          wt. pose proof (weight_ge e). lia. }
        lia.
      - specialize (IH (ops ++ [Operand e])). rewrite app_length in IH. cbn [List.length] in *. rewrite map_app in IH. assert (SW : stack_weight (map operand_expr ops ++ map operand_expr [Operand e]) = ops_weight ops + (weight e + 10)) by (unfold stack_weight; rewrite map_app, total_app; cbn [map operand_expr]; rewrite total_cons; change (total []) with 0; lia). rewrite SW in IH.
        assert (F' : Forall with_types (ops ++ [Operand e])) by (apply Forall_app; split; [exact F|repeat constructor]). specialize (IH F').
        change (stack_weight (e :: stack)) with (weight e + 10 + stack_weight stack). lia.
    Qed.
    Lemma collect_length : forall stack ops, List.length (fold_left (fun ops e => match check_of is_isinstance e with Some (t, c) => add_check deq t c ops | None => ops ++ [Operand e] end) stack ops) <= List.length ops + List.length stack.
    Proof.
      assert (A : forall t c ops, List.length (add_check deq t c ops) <= S (List.length ops)).
      { intros t c ops. induction ops as [|[t' cs|x] ops IH]; cbn; [lia| |lia]. destruct (deq t t'); cbn; lia. }
      induction stack as [|e stack IH]; intro ops; cbn [fold_left List.length]; [lia|]. destruct (check_of is_isinstance e) as [[t c]|].
      - specialize (IH (add_check deq t c ops)). specialize (A t c ops). lia.
      - specialize (IH (ops ++ [Operand e])). rewrite app_length in IH. cbn in IH. lia.
    Qed.
    Lemma collapse_lighter : smaller (collapse deq is_isinstance).
    Proof.
      intros e e' H. unfold collapse in H. destruct e; try discriminate H. destruct (_ =? _)%nat eqn:E; [discriminate H|]. apply Nat.eqb_neq in E.
      destruct (or_all _) as [r|] eqn:O; [|discriminate H]. injection H as <-. apply or_all_weight in O. pose proof (unwrap_weight (BoolOp e1 op e2)) as U.
      pose proof (collect_weight (unwrap (BoolOp e1 op e2)) [] ltac:(constructor)) as C. cbn zeta in C. pose proof (collect_length (unwrap (BoolOp e1 op e2)) []) as L.
      unfold collect_targets in *. change (ops_weight []) with 0 in C. cbn [List.length] in C, L. lia.
    Qed.

    (** chained_instance_check.py 101-102: nodes already seen need not be looked at *)
    Lemma collapse_inner : forall l r, collapse deq is_isinstance (BoolOp l Or r) = None -> collapse deq is_isinstance l = None.
    Proof.
      intros l r H. unfold collapse in H. destruct (_ =? _)%nat eqn:E.
      - apply Nat.eqb_eq in E. unfold collapse. destruct l; try reflexivity. change (unwrap (BoolOp (BoolOp l1 op l2) Or r)) with (unwrap (BoolOp l1 op l2) ++ [r]) in E. set (st := unwrap (BoolOp l1 op l2)) in *.
        assert (Eq : List.length (collect_targets deq is_isinstance st) = List.length st).
        { unfold collect_targets in *. rewrite fold_left_app in E. rewrite app_length in E. pose proof (collect_length st []) as L. cbn [fold_left List.length] in E, L.
          set (ops := fold_left _ st []) in *. pose proof (collect_length [r] ops) as L1. cbn [fold_left List.length] in L1. lia. }
        apply Nat.eqb_eq in Eq. rewrite Eq. reflexivity.
      - destruct (or_all _) eqn:O; [discriminate H|]. exfalso. apply Nat.eqb_neq in E. clear H.
        assert (N : collect_targets deq is_isinstance (unwrap (BoolOp l Or r)) <> []).
        { unfold collect_targets. cbn [unwrap]. rewrite fold_left_app. cbn [fold_left]. destruct (check_of is_isinstance r) as [[t c]|]; [|intro X; now apply app_eq_nil in X].
          set (ops := fold_left _ _ []). destruct ops as [|[t' cs|x] ops']; cbn; try discriminate. destruct (deq t t'); discriminate. }
        destruct (collect_targets deq is_isinstance (unwrap (BoolOp l Or r))); [now apply N|discriminate O].
    Qed.
  End Collapse.

  Lemma on_self_weight : forall name f, on_self name f = true -> weight f = 20 + (if marked (u name) then 1 else 0) /\ exists a, f = Attribute (Name (u "self")) a /\ a = u name.
  Proof.
    intros name f H. destruct f; try discriminate H. cbn in H. apply andb_prop in H. destruct H as (H1 & H2). apply str_eqb_eq in H2. subst attr.
    destruct f; try discriminate H1. cbn in H1. apply str_eqb_eq in H1. subst s. wt. split; [lia|eauto].
  Qed.

  Ltac marks := repeat match goal with |- context [marked (u ?s)] => let b := eval vm_compute in (marked (u s)) in change (marked (u s)) with b end; cbv iota.

  Lemma assert_in_lighter : smaller assert_in.
  Proof.
    intros e e' H. destruct e; try discriminate H. destruct args as [|[[st kw] x] [|? ?]]; try discriminate H. cbn [assert_in] in H.
    assert (Out : forall a b (x : expr) n, marked (u n) = false -> weight a + weight b + 10 <= weight x -> 20 <= weight e -> weight (self_call n [plain_arg a; plain_arg b]) < weight (Call e [(st, kw, x)])).
    { intros a b y n Hn Hw He. unfold self_call, plain_arg. wt. rewrite Hn. lia. }
    assert (InW : forall a op b, weight a + weight b + 10 <= weight (Compare a [(op, b)])) by (intros; wt; lia).
    assert (NW : forall a op b, weight a + weight b + 10 <= weight (Not (Compare a [(op, b)]))) by (intros; wt; lia).
    assert (SelfW : forall n, on_self n e = true -> 20 <= weight e) by (intros n Hn; apply on_self_weight in Hn; lia).
    assert (M1 : marked (u "assertIn") = false) by (vm_compute; reflexivity). assert (M2 : marked (u "assertNotIn") = false) by (vm_compute; reflexivity).
    destruct (on_self "assertTrue" e) eqn:T.
    - specialize (SelfW _ T). destruct x; try discriminate H.
      + destruct x; try discriminate H. destruct rest as [|[[] b] [|? ?]]; try discriminate H. injection H as <-. auto.
      + destruct rest as [|[[] b] [|? ?]]; try discriminate H; injection H as <-; auto.
    - destruct (on_self "assertFalse" e) eqn:F; [|discriminate H]. specialize (SelfW _ F). destruct x; try discriminate H. destruct rest as [|[[] b] [|? ?]]; try discriminate H. injection H as <-. auto.
  Qed.

  Lemma none_check_weight : forall x a n, none_check x = Some (a, n) -> weight a + 20 <= weight x.
  Proof.
    intros x a n H. destruct x; try discriminate H. destruct rest as [|[[] b] [|? ?]]; try discriminate H; cbn in H; destruct (is_name "None" b); try discriminate H; injection H as <- <-; wt; pose proof (weight_ge b); lia.
  Qed.
  Lemma assert_none_lighter : smaller assert_none.
  Proof.
    intros e e' H. destruct e; try discriminate H. destruct args as [|[[st kw] x] [|? ?]]; try discriminate H. cbn [assert_none] in H.
    destruct (if on_self "assertTrue" e then Some false else if on_self "assertFalse" e then Some true else None) as [isf|] eqn:N; [|discriminate H].
    assert (W : 20 <= weight e).
    { destruct (on_self "assertTrue" e) eqn:T; [apply on_self_weight in T; lia|]. destruct (on_self "assertFalse" e) eqn:F; [apply on_self_weight in F; lia|discriminate N]. }
    destruct (match x with Not x' => _ | _ => _ end) as [[[a n] hn]|] eqn:A; [|discriminate H].
    assert (Wx : weight a + 20 <= weight x).
    { destruct x; try (destruct (none_check _) as [[a' n']|] eqn:C; [|discriminate A]; injection A as <- <- <-; apply none_check_weight in C; rewrite ?w_not; lia). }
    injection H as <-. match goal with |- context [self_call (if ?b then _ else _)] => destruct b end; unfold self_call, plain_arg; wt; marks; lia.
  Qed.

  Lemma assert_true_lighter : smaller assert_true_comparison.
  Proof.
    intros e e' H. destruct e; try discriminate H. destruct args as [|a [|[[st kw] x] [|? ?]]]; try discriminate H. cbn [assert_true_comparison] in H.
    destruct (on_self "assertTrue" e) eqn:T; [|discriminate H]. destruct (literal_second x); [|discriminate H]. cbn [andb] in H. apply on_self_weight in T. destruct T as (W & attr & -> & ->).
    pose proof (weight_ge x).
    assert (H' : (if is_name "True" x then Call (Attribute (Name (u "self")) (u "assertTrue")) [a]
                  else if is_name "None" x then Call (with_attr (Attribute (Name (u "self")) (u "assertTrue")) (u "assertIsNone")) [a]
                  else if is_name "False" x then Call (with_attr (Attribute (Name (u "self")) (u "assertTrue")) (u "assertFalse")) [a]
                  else Call (with_attr (Attribute (Name (u "self")) (u "assertTrue")) (u "assertEqual")) [a; (st, kw, x)]) = e') by (unfold fix_with in H; congruence).
    subst e'. destruct (is_name "True" x); [wt; marks; lia|]. destruct (is_name "None" x); [unfold with_attr; wt; marks; lia|].
    destruct (is_name "False" x); [unfold with_attr; wt; marks; lia|]. unfold with_attr; wt; marks. lia.
  Qed.

  Lemma deprecated_lighter : smaller deprecated_assert.
  Proof.
    intros e e' H. destruct e; try discriminate H. unfold deprecated_assert in H. destruct (find _ deprecated_asserts) as [[old new]|] eqn:F; [|discriminate H].
    apply find_some in F. destruct F as (I & T). cbn [fst] in T. apply on_self_weight in T. destruct T as (W & attr & -> & ->).
    assert (E : Call (with_attr (Attribute (Name (u "self")) (u old)) (u new)) args = e') by (unfold fix_with in H; congruence). subst e'. unfold with_attr. wt.
    assert (M : marked (u old) = true /\ marked (u new) = false) by (cbn [deprecated_asserts List.In] in I; repeat (destruct I as [I|I]; [injection I as <- <-; split; vm_compute; reflexivity|]); destruct I).
    destruct M as (-> & ->). lia.
  Qed.

  Lemma pairs_of_weight : forall es ps, pairs_of es = Some ps -> weights (flat_map (fun kv => [fst kv; snd kv]) ps) <= weights (map snd es).
  Proof.
    induction es as [|[st e] es IH]; intros ps H; cbn in H; [injection H as <-; reflexivity|].
    destruct (pair_of e) as [[a b]|] eqn:Pe; [|discriminate H]. destruct (pairs_of es) as [ps'|]; [|discriminate H]. destruct st; [discriminate H|]. injection H as <-. specialize (IH _ eq_refl).
    cbn [flat_map fst snd]. wt. assert (weight a + weight b <= weight e).
    { destruct e; try discriminate Pe; destruct es0 as [|[? x] [|[? y] [|? ?]]]; try discriminate Pe; injection Pe as <- <-; wt; lia. }
    lia.
  Qed.
  Lemma to_literal_lighter : smaller to_literal.
  Proof.
    intros e e' H. destruct e; try discriminate H. destruct e; try discriminate H. cbn [to_literal] in H.
    assert (K : forall es, weights (map snd es) <= weights (map snd args) -> 
      (if str_eqb s (u "tuple") then fix_with (Tuple es) else if str_eqb s (u "list") then fix_with (List es)
       else if str_eqb s (u "set") then match es with [] => fix_with (Call (Name (u "set")) []) | _ => fix_with (Set_ es) end
       else if str_eqb s (u "dict") then match pairs_of es with Some ps => fix_with (Dict ps) | None => None end else None) = Some (Some e') ->
      (es = [] -> str_eqb s (u "set") = true -> args <> []) -> weight e' < weight (Call (Name s) args)).
    { intros es W R A. wt. destruct (str_eqb s (u "tuple")); [injection R as <-; wt; lia|]. destruct (str_eqb s (u "list")); [injection R as <-; wt; lia|].
      destruct (str_eqb s (u "set")).
      - destruct es; [|injection R as <-; wt; revert W; wt; lia]. injection R as <-. destruct args as [|a args]; [now destruct (A eq_refl eq_refl)|]. wt. pose proof (weight_ge (snd a)). lia.
      - destruct (str_eqb s (u "dict")); [|discriminate R]. destruct (pairs_of es) as [ps|] eqn:Ps; [|discriminate R]. injection R as <-. apply pairs_of_weight in Ps. rewrite w_dict. lia. }
    destruct args as [|[[st kw] a] [|? ?]].
    - destruct (str_eqb s (u "set")) eqn:S; [discriminate H|]. apply (K []); auto. congruence.
    - destruct (display a) as [es|] eqn:D; [|discriminate H]. apply (K es); auto; [|discriminate]. destruct a; try discriminate D; injection D as ->; wt; lia.
    - discriminate H.
  Qed.

  Lemma to_comprehension_lighter : forall e e', to_comprehension e = Ok (Some (Some e')) -> weight e' < weight e.
  Proof.
    intros e e' H. destruct e; try discriminate H. destruct e; try discriminate H. destruct args as [|[[st kw] x] [|? ?]]; try (destruct x; discriminate H); try discriminate H.
    assert (K : forall elt cs, weight elt + weights (flat_map clause_parts cs) + 10 <= weight x ->
      (if str_eqb s (u "list") then Ok (fix_with (ListComp elt cs)) else if str_eqb s (u "set") then Ok (fix_with (SetComp elt cs))
       else if str_eqb s (u "dict") then match elt with Tuple es | List es => match es with (_, k) :: (_, v) :: _ => Ok (fix_with (DictComp k v cs)) | _ => Err IndexError end | _ => Ok None end
       else Ok None) = Ok (Some (Some e')) -> weight e' < weight (Call (Name s) [(st, kw, x)])).
    { intros elt cs W R. wt. destruct (str_eqb s (u "list")); [injection R as <-; wt; lia|]. destruct (str_eqb s (u "set")); [injection R as <-; wt; lia|].
      destruct (str_eqb s (u "dict")); [|discriminate R]. destruct elt; try discriminate R; destruct es as [|[? k] [|[? v] es]]; try discriminate R; injection R as <-; wt; revert W; wt; lia. }
    destruct x; try discriminate H; apply (K x for_in); try exact H; wt; lia.
  Qed.

  Lemma list_comprehension_lighter : smaller list_comprehension.
  Proof.
    intros e e' H. destruct e; try discriminate H. destruct e; try discriminate H. destruct args as [|[[st kw] x] [|? ?]]; try discriminate H; destruct x; try discriminate H.
    cbn [list_comprehension] in H. destruct (_ || _); [|discriminate H]. injection H as <-. wt. lia.
  Qed.
  Lemma redundant_lambda_lighter : smaller redundant_lambda.
  Proof.
    intros e e' H. destruct e; try discriminate H. destruct simple; [|discriminate H]. destruct e; try discriminate H. cbn [redundant_lambda] in H. destruct (passes_params ps args); [|discriminate H]. injection H as <-. wt. lia.
  Qed.
  Lemma redundant_fstring_lighter : smaller redundant_fstring.
  Proof.
    intros e e' H. destruct e; try discriminate H. destruct parts as [|[t|x] [|? ?]]; try discriminate H. cbn [redundant_fstring] in H. unfold fix_with in H.
    assert (E : e' = SimpleString (without_f prefix) quote (if has2 123 123 t || has2 125 125 t then replace2 125 125 [125%N] (replace2 123 123 [123%N] t) else t)) by congruence.
    subst e'. wt. lia.
  Qed.

  (** quotes weigh nothing *)
  Lemma no_quotes_rebuild : forall e, no_quotes e = match e with SimpleString p _ r => SimpleString p [] r | _ => rebuild no_quotes e end.
  Proof. intro e. destruct e; reflexivity. Qed.
  Lemma primitive_no_quotes : forall e, primitive (no_quotes e) = primitive e.
  Proof. intro e. destruct e; reflexivity. Qed.
  Lemma singleton_no_quotes : forall e, singleton qual (no_quotes e) = singleton qual e.
  Proof. intro e. destruct e; reflexivity. Qed.
  Lemma pairs_no_quotes : forall rest l, pairs_weight (no_quotes l) (map (fun x : cmpop * expr => (fst x, no_quotes (snd x))) rest) = pairs_weight l rest.
  Proof.
    induction rest as [|[op r] rest IH]; intro l; cbn [map fst snd pairs_weight]; [reflexivity|]. rewrite IH. f_equal. unfold pair_weight, lit, sing. now rewrite !primitive_no_quotes, !singleton_no_quotes.
  Qed.
  Lemma weight_no_quotes : forall e, weight (no_quotes e) = weight e.
  Proof.
    apply expr_children. intros e F.
    assert (D : (exists p q r, e = SimpleString p q r) \/ no_quotes e = rebuild no_quotes e) by (destruct e; eauto).
    destruct D as [(p & q & r & ->)|D]; [cbn [no_quotes]; wt; reflexivity|]. rewrite D, weight_eq, (weight_eq e), children_rebuild. f_equal.
    - unfold own. destruct e; cbn [rebuild extra]; try reflexivity. now rewrite pairs_no_quotes.
    - clear D. induction F as [|c l H F IH]; [reflexivity|]. cbn [map]. now rewrite !weights_cons, H, IH.
  Qed.
  Lemma requote_weight : forall reads_same q e e', requote reads_same q e = Some e' -> weight e' = weight e.
  Proof. intros rs q e e' H. rewrite <- (weight_no_quotes e'), <- (weight_no_quotes e). now rewrite (requote_no rs q e e' H). Qed.

  Definition part_exprs (parts : list (str + expr)) : list expr := flat_map (fun x => match x with inl _ => [] | inr e => [e] end) parts.
  Lemma fill_weight : forall reads_same q ts es parts, fill reads_same q ts es = Some parts -> weights (part_exprs parts) <= weights es.
  Proof.
    intros rs q. induction ts as [|t ts IH]; intros es parts H; cbn in H; [injection H as <-; cbn; lia|]. destruct es as [|e es]; [discriminate H|].
    destruct (requote rs q e) as [e'|] eqn:R; [|discriminate H]. destruct (fill rs q ts es) as [ps|] eqn:F; [|discriminate H]. injection H as <-. specialize (IH _ _ F).
    apply requote_weight in R. unfold part_exprs in *. cbn [flat_map app]. rewrite flat_map_app. wt. assert (T : weights (flat_map (fun x => match x with inl _ => [] | inr e => [e] end) (text_part t)) = 0) by (destruct t; reflexivity). lia.
  Qed.
  Lemma use_fstring_lighter : forall code_length reads_same e e', use_fstring code_length reads_same e = Ok (Some (Some e')) -> weight e' < weight e.
  Proof.
    intros cl rs e e' H. destruct e; try discriminate H.
    - destruct e; try discriminate H. destruct e; try discriminate H. cbn in H. destruct (str_eqb attr _); discriminate H.
    - cbn [use_fstring] in H. destruct (simple_string e1 && simple_expression cl e2); [|destruct e1; try discriminate H; destruct (is_bytes prefix); discriminate H].
      destruct e1; try discriminate H. destruct (split2 37 115 _) as [|t ts]; [discriminate H|]. destruct (fill rs quote ts _) as [parts|] eqn:F; [|discriminate H].
      destruct (valid_fprefix _); [|discriminate H]. assert (E : e' = FString (u "f" ++ map ascii_lower prefix) quote (text_part t ++ parts)) by (unfold fix_with in H; congruence). subst e'.
      apply fill_weight in F. rewrite w_f, flat_map_app. fold (part_exprs parts). wt. assert (T : weights (flat_map (fun x => match x with inl _ => [] | inr e => [e] end) (text_part t)) = 0) by (destruct t; reflexivity).
      rewrite T. assert (L : weights (match e2 with Tuple xs => map snd xs | _ => [e2] end) <= weight e2) by (destruct e2; try (rewrite w_tuple; lia); rewrite weights_cons, weights_nil; lia).
      lia.
  Qed.

  (** ** A pass *)
  Section Pass.
    Context (fixes : expr -> option expr).
    Context (Lit : forall e e', fixes e = Some e' -> primitive e = true -> primitive e' = true) (Names : forall n, fixes (Name n) = None).

    Lemma pass_primitive : forall e, primitive e = true -> primitive (pass fixes e) = true.
    Proof. intros e H. rewrite pass_eq. destruct (fixes e) as [e'|] eqn:F; [eauto|]. destruct e; try discriminate H; reflexivity. Qed.
    Lemma pass_singleton : forall e, singleton qual e = true -> singleton qual (pass fixes e) = true.
    Proof. intros e H. destruct e; try discriminate H. rewrite pass_eq, Names. exact H. Qed.
    Definition no_mix (l : expr) (op : cmpop) (r : expr) : Prop := use_equal = true -> use_is = true -> ~ literal_and_singleton qual l op r.
    Lemma pass_pair : forall l op r, no_mix (pass fixes l) op (pass fixes r) -> pair_weight (pass fixes l) op (pass fixes r) <= pair_weight l op r.
    Proof.
      intros l op r N. pose proof (pair_weight_le (pass fixes l) op (pass fixes r)). unfold pair_weight at 2.
      assert (L : forall e, lit e = true -> lit (pass fixes e) = true) by (intros e; unfold lit; destruct use_equal; [apply pass_primitive|auto]).
      assert (S : forall e, sing e = true -> sing (pass fixes e) = true) by (intros e; unfold sing; destruct use_is; [apply pass_singleton|auto]).
      destruct (lit l || lit r) eqn:E.
      - assert (E' : lit (pass fixes l) || lit (pass fixes r) = true) by (apply orb_true_iff in E; apply orb_true_iff; destruct E; auto). unfold pair_weight. rewrite E'. lia.
      - destruct (sing l || sing r) eqn:G; [|lia].
        assert (G' : sing (pass fixes l) || sing (pass fixes r) = true) by (apply orb_true_iff in G; apply orb_true_iff; destruct G; auto). unfold pair_weight. rewrite G'.
        destruct (lit (pass fixes l) || lit (pass fixes r)) eqn:E'; [|lia]. destruct (is_or_not op) eqn:O; [|lia]. exfalso.
        set (l' := pass fixes l) in *. set (r' := pass fixes r) in *. unfold lit in E'. unfold sing in G'. destruct use_equal eqn:U1; [|discriminate E']. destruct use_is eqn:U2; [|discriminate G'].
        apply (N U1 U2). cbn [andb] in E', G'. split; [destruct op; try discriminate O; cbn; auto|].
        apply orb_prop in E'. apply orb_prop in G'. destruct E' as [Pr|Pr], G' as [Si|Si].
        + destruct l'; cbn in Pr, Si; congruence.
        + left. split; [exact Pr|]. destruct r'; try discriminate Si. cbn in Si. eauto.
        + right. split; [exact Pr|]. destruct l'; try discriminate Si. cbn in Si. eauto.
        + destruct r'; cbn in Pr, Si; congruence.
    Qed.
    Lemma pass_pairs : forall rest l, (use_equal = true -> use_is = true -> ~ pair_in (literal_and_singleton qual) (pass fixes l) (map (fun x : cmpop * expr => (fst x, pass fixes (snd x))) rest)) ->
      pairs_weight (pass fixes l) (map (fun x : cmpop * expr => (fst x, pass fixes (snd x))) rest) <= pairs_weight l rest.
    Proof.
      induction rest as [|[op r] rest IH]; intros l N; cbn [map fst snd pairs_weight]; [lia|].
      pose proof (pass_pair l op r) as A. assert (B : no_mix (pass fixes l) op (pass fixes r)) by (intros U1 U2 M; apply (N U1 U2); cbn; auto). specialize (A B).
      specialize (IH r). assert (C : pairs_weight (pass fixes r) (map (fun x : cmpop * expr => (fst x, pass fixes (snd x))) rest) <= pairs_weight r rest) by (apply IH; intros U1 U2 M; apply (N U1 U2); cbn; auto).
      lia.
    Qed.

    Definition unmixed (e : expr) : Prop := use_equal = true -> use_is = true -> ~ mixed_comparison qual e.
    Lemma unmixed_child : forall e c, List.In c (children e) -> unmixed e -> unmixed c.
    Proof. intros e c I N U1 U2 (l & rest & Il & M). apply (N U1 U2). exists l, rest. split; [exact (subnode_child _ _ _ I Il)|exact M]. Qed.

    Lemma pass_lighter : forall e, unmixed (pass fixes e) -> (forall x e', List.In x (subnodes e) -> fixes x = Some e' -> weight e' < weight x) ->
      weight (pass fixes e) <= weight e /\ ((exists x e', List.In x (subnodes e) /\ fixes x = Some e') -> weight (pass fixes e) < weight e).
    Proof.
      apply (expr_children (fun e => unmixed (pass fixes e) -> (forall x e', List.In x (subnodes e) -> fixes x = Some e' -> weight e' < weight x) ->
        weight (pass fixes e) <= weight e /\ ((exists x e', List.In x (subnodes e) /\ fixes x = Some e') -> weight (pass fixes e) < weight e))).
      intros e F N D. rewrite pass_eq in *. destruct (fixes e) as [e'|] eqn:Fe.
      - assert (weight e' < weight e) by (apply D; [apply subnode_self|exact Fe]). split; [lia|auto].
      - rewrite !(weight_eq e), weight_eq, children_rebuild.
        assert (O : own (rebuild (pass fixes) e) <= own e).
        { unfold own. destruct e; cbn [rebuild extra]; try lia. apply Nat.add_le_mono_l. apply pass_pairs.
          intros U1 U2 M. apply (N U1 U2). do 2 eexists. split; [apply subnode_self|exact M]. }
        assert (W : weights (map (pass fixes) (children e)) <= weights (children e) /\ ((exists c x e', List.In c (children e) /\ List.In x (subnodes c) /\ fixes x = Some e') -> weights (map (pass fixes) (children e)) < weights (children e))).
        { assert (Nc : forall c, List.In c (children e) -> unmixed (pass fixes c)) by (intros c Ic; apply (unmixed_child (rebuild (pass fixes) e)); [rewrite children_rebuild; now apply in_map|exact N]).
          assert (Dc : forall c x e', List.In c (children e) -> List.In x (subnodes c) -> fixes x = Some e' -> weight e' < weight x) by (intros c x e' Ic Ix; apply D; exact (subnode_child _ _ _ Ic Ix)).
          clear -F Nc Dc. induction (children e) as [|c l IH]; [split; [cbn; lia|intros (c & x & e' & [] & _)]|].
          inversion F as [|? ? Fc Fl]; subst. destruct IH as (L & S); auto; [intros; apply Nc; now right|intros c' x e' Ic; apply (Dc c'); now right|].
          destruct Fc as (Lc & Sc); [apply Nc; now left|intros x e'; apply (Dc c); now left|]. cbn [map]. rewrite !weights_cons. split; [lia|].
          intros (c' & x & e' & [->|Ic] & Ix & Fx); [assert (weight (pass fixes c') < weight c') by eauto; lia|]. assert (weights (map (pass fixes) l) < weights l) by eauto 8. lia. }
        destruct W as (W1 & W2). split; [lia|]. intros (x & e' & Ix & Fx). rewrite subnodes_eq in Ix. destruct Ix as [<-|Ix]; [congruence|]. apply in_flat_map in Ix. destruct Ix as (c & Ic & Ix).
        assert (weights (map (pass fixes) (children e)) < weights (children e)) by (apply W2; eauto 8). lia.
    Qed.

    (** without fixes there is nothing to change *)
    Lemma rebuild_id : forall f e, (forall c, List.In c (children e) -> f c = c) -> rebuild f e = e.
    Proof.
      intros f e H.
      assert (Snd : forall T (l : list (T * expr)), (forall c, List.In c (map snd l) -> f c = c) -> map (fun x => (fst x, f (snd x))) l = l).
      { intros T l. induction l as [|[a x] l IH]; intro K; cbn; [reflexivity|]. rewrite K by now left. f_equal. apply IH. intros c Ic. apply K. now right. }
      assert (Id : forall l, (forall c, List.In c l -> f c = c) -> map f l = l) by (intros l K; rewrite <- map_id; now apply map_ext_in).
      assert (Cl : forall cs, (forall c, List.In c (flat_map clause_parts cs) -> f c = c) -> map (fun c : clause => (f (fst (fst c)), f (snd (fst c)), map f (snd c))) cs = cs).
      { induction cs as [|[[t it] ifs] cs IH]; intro K; cbn [map fst snd]; [reflexivity|]. cbn [flat_map clause_parts fst snd] in K. rewrite (K t) by now left. rewrite (K it) by (right; now left).
        rewrite Id by (intros c Ic; apply K; right; right; apply in_or_app; now left). f_equal. apply IH. intros c Ic. apply K. right. right. apply in_or_app. now right. }
      destruct e; cbn [rebuild children] in *; try reflexivity;
        try (rewrite !H by (cbn; auto); reflexivity); try (rewrite Snd by exact H; reflexivity); try (rewrite Id by exact H; reflexivity).
      - f_equal. induction parts as [|[t|x] parts IH]; cbn [map]; [reflexivity| |]; f_equal; [apply IH; exact H|f_equal; apply H; now left|apply IH; intros c Ic; apply H; now right].
      - rewrite (H e) by now left. rewrite Id by (intros c Ic; apply H; now right). reflexivity.
      - rewrite (H e) by now left. f_equal. apply (Snd (stars * option str)%type args). intros c Ic. apply H. now right.
      - rewrite (H e) by now left. rewrite Snd by (intros c Ic; apply H; now right). reflexivity.
      - f_equal. induction es as [|[a b] es IH]; cbn [map fst snd]; [reflexivity|]. cbn [flat_map fst snd] in H. rewrite (H a) by now left. rewrite (H b) by (right; now left). f_equal. apply IH. intros c Ic. apply H. right. now right.
      - rewrite (H e) by now left. rewrite Cl by (intros c Ic; apply H; now right). reflexivity.
      - rewrite (H e) by now left. rewrite Cl by (intros c Ic; apply H; now right). reflexivity.
      - rewrite (H e) by now left. rewrite Cl by (intros c Ic; apply H; now right). reflexivity.
      - rewrite (H e1) by now left. rewrite (H e2) by (right; now left). rewrite Cl by (intros c Ic; apply H; right; now right). reflexivity.
    Qed.
    Lemma pass_nothing : forall e, (forall x, List.In x (subnodes e) -> fixes x = None) -> pass fixes e = e.
    Proof.
      apply (expr_children (fun e => (forall x, List.In x (subnodes e) -> fixes x = None) -> pass fixes e = e)). intros e F H. rewrite pass_eq, H by apply subnode_self.
      apply rebuild_id. intros c Ic. rewrite Forall_forall in F. apply F; [exact Ic|]. intros x Ix. apply H. exact (subnode_child _ _ _ Ic Ix).
    Qed.
  End Pass.
End Measure.
