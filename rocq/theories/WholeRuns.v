(** * Any number of runs of seven rules keep what a program means (C76) *)
From Coq Require Import String List NArith ZArith Bool Arith Lia.
From Verif Require Import Base PyStr Py Rules RulesSpec RulesProps RulesProps2 PyToy Whole WholeSpec WholeFacts WholeProps.
Import ListNotations.

(** A first run may make displays and comprehensions of calls, and a second one may fix what dict is called
    with then. So what dict is called with, and the pairs in it, must not be calls that one of the rules
    rewrites. *)
Definition settled (x : expr) : Prop := forall n args, x = Call (Name n) args -> ~ known_names n.
Definition settled_pairs (x : expr) : Prop :=
  match x with
  | GeneratorExp elt _ | ListComp elt _ => settled elt
  | List es | Tuple es => forall y, List.In y es -> settled (snd y)
  | _ => settled x
  end.
Definition calm (e : expr) : Prop := forall args a, List.In (Call (Name (u "dict")) args) (subnodes e) -> List.In a args -> settled_pairs (snd a).

(** The conditions on one node *)
Definition node_fine (x : expr) : Prop :=
  (forall t it ifs, List.In (t, it, ifs) (clauses_of x) -> plain_target t /\ forall n, known_names n -> ~ mentions n t) /\
  (forall n, known_names n -> ~ List.In n (params_of x)) /\
  match x with
  | FString p _ _ => is_bytes p = false
  | Call f args => on_known f ->
      (forall a, List.In a args -> a = plain_arg (snd a)) /\
      (f = Name (u "dict") -> forall a, List.In a args -> pairs_only (snd a) /\ settled_pairs (snd a))
  | _ => True
  end.
Definition all_fine (e : expr) : Prop := forall x, List.In x (subnodes e) -> node_fine x.
Lemma all_fine_eq : forall e, all_fine e <-> node_fine e /\ forall c, List.In c (children e) -> all_fine c.
Proof.
  intro e. unfold all_fine. split.
  - intro H. split; [apply H, subnode_self|]. intros c Ic x Ix. apply H. exact (subnode_child _ _ _ Ic Ix).
  - intros (H1 & H2) x Ix. rewrite subnodes_eq in Ix. destruct Ix as [<-|Ix]; [exact H1|]. apply in_flat_map in Ix. destruct Ix as (c & Ic & Ix). exact (H2 c Ic x Ix).
Qed.
Lemma all_fine_in : forall e, plain_targets e -> binds_no known_names e -> f_prefixes e -> tidy e -> calm e -> all_fine e.
Proof.
  intros e Pt Bn Fp Ty Cm x Ix. split; [|split].
  - intros t it ifs Ic. split; [exact (Pt x t it ifs Ix Ic)|]. intros n Kn. exact (proj2 (Bn x n Ix Kn) t it ifs Ic).
  - intros n Kn. exact (proj1 (Bn x n Ix Kn)).
  - destruct x; try exact Logic.I; [exact (Fp _ _ _ Ix)|]. intro K. destruct (Ty _ _ Ix K) as (T1 & T2). split; [exact T1|]. intros -> a Ia. split; [auto|exact (Cm args a Ix Ia)].
Qed.
Lemma all_fine_out : forall e, all_fine e -> plain_targets e /\ binds_no known_names e /\ f_prefixes e /\ tidy e.
Proof.
  intros e A. split; [|split; [|split]].
  - intros x t it ifs Ix Ic. exact (proj1 (proj1 (A x Ix) t it ifs Ic)).
  - intros x n Ix Kn. destruct (A x Ix) as (A1 & A2 & _). split; [exact (A2 n Kn)|]. intros t it ifs Ic. exact (proj2 (A1 t it ifs Ic) n Kn).
  - intros p q parts Ix. exact (proj2 (proj2 (A _ Ix))).
  - intros f args Ix K. destruct (proj2 (proj2 (A _ Ix)) K) as (A1 & A2). split; [exact A1|]. intros E a Ia. exact (proj1 (A2 E a Ia)).
Qed.

Lemma known_in : forall n, List.In n ["self"; "list"; "tuple"; "set"; "dict"]%string -> known_names (u n).
Proof. intro n. apply in_map. Qed.

(** What the seven rules replace, and by what. *)
Inductive swaps : expr -> expr -> Prop :=
  | S_is : forall l rest rest', map snd rest' = map snd rest -> swaps (Compare l rest) (Compare l rest')
  | S_in : forall n n' st kw x a b, List.In a (subnodes x) -> List.In b (subnodes x) ->
      swaps (self_call n [(st, kw, x)]) (self_call n' [plain_arg a; plain_arg b])
  | S_none : forall n n' st kw x a, List.In a (subnodes x) -> swaps (self_call n [(st, kw, x)]) (self_call n' [plain_arg a])
  | S_old : forall n n' args, swaps (self_call n args) (self_call n' args)
  | S_set : forall args, swaps (Call (Name (u "set")) args) (Call (Name (u "set")) [])
  | S_call : forall n args e', known_names n ->
      match e' with Tuple _ | List _ | Set_ _ | Dict _ | ListComp _ _ | SetComp _ _ | DictComp _ _ _ => True | _ => False end ->
      (forall c, List.In c (children e') -> exists a, List.In a args /\ List.In c (subnodes (snd a))) ->
      (forall c, List.In c (clauses_of e') -> exists a, List.In a args /\ List.In c (clauses_of (snd a))) ->
      swaps (Call (Name n) args) e'
  | S_text : forall p q t p' t', swaps (FString p q [inl t]) (SimpleString p' q t').

Lemma pairs_of_in : forall es ps, pairs_of es = Some ps -> forall k v, List.In (k, v) ps -> exists y, List.In y es /\ pair_of (snd y) = Some (k, v).
Proof.
  induction es as [|[st e] es IH]; intros ps H k v I; cbn [pairs_of] in H; [injection H as <-; destruct I|].
  destruct (pair_of e) as [p|] eqn:P; [|discriminate H]. destruct (pairs_of es) as [ps'|]; [|discriminate H]. destruct st; [discriminate H|]. injection H as <-. destruct I as [->|I].
  - exists (false, e). split; [now left|exact P].
  - destruct (IH _ eq_refl _ _ I) as (y & Iy & E). exists y. split; [now right|exact E].
Qed.
Lemma pair_of_children : forall e k v, pair_of e = Some (k, v) -> List.In k (children e) /\ List.In v (children e).
Proof. intros e k v H. destruct e; try discriminate H; destruct es as [|[? ?] [|[? ?] [|? ?]]]; try discriminate H; injection H as <- <-; cbn; auto. Qed.
Lemma child_sub : forall e c, List.In c (children e) -> List.In c (subnodes e).
Proof. intros e c I. exact (subnode_child _ _ _ I (subnode_self c)). Qed.

Lemma seven_swaps : forall qual rule x x', List.In rule (seven_rules qual) -> rule x = Ok (Some (Some x')) -> swaps x x'.
Proof.
  intros qual rule x x' I H. unfold seven_rules, rule_by_is, sure in I. cbn [List.In] in I. destruct I as [<-|[<-|[<-|[<-|[<-|[<-|[<-|[]]]]]]]]; try (injection H as H).
  - destruct x; try discriminate H. cbn [by_is] in H. destruct (by_is_ops qual x rest) as [[|] out] eqn:E; [|discriminate H]. injection H as <-. apply by_is_same in E. now constructor.
  - destruct x; try discriminate H. destruct args as [|[[st kw] y] [|? ?]]; try discriminate H. cbn [assert_in] in H.
    assert (G : forall n n' a b, on_self n x = true -> (exists z op, (y = z \/ y = Not z) /\ z = Compare a [(op, b)]) -> swaps (Call x [(st, kw, y)]) (self_call n' [plain_arg a; plain_arg b])).
    { intros n n' a b O (z & op & [->| ->] & ->); apply on_self_inv in O; subst x; constructor; cbn; rewrite ?in_app_iff; auto using subnode_self. 
      all: do 2 right; apply in_app_iff; left; rewrite ?app_nil_r; apply subnode_self. }
    destruct (on_self "assertTrue" x) eqn:T.
    + destruct y; try discriminate H.
      * destruct y; try discriminate H. destruct rest as [|[[] ?] [|? ?]]; try discriminate H. injection H as <-. eapply G; eauto.
      * destruct rest as [|[[] ?] [|? ?]]; try discriminate H; injection H as <-; eapply G; eauto.
    + destruct (on_self "assertFalse" x) eqn:F; [|discriminate H]. destruct y; try discriminate H. destruct rest as [|[[] ?] [|? ?]]; try discriminate H; injection H as <-; eapply G; eauto.
  - destruct x; try discriminate H. destruct args as [|[[st kw] y] [|? ?]]; try discriminate H. cbn [assert_none] in H.
    assert (G : exists n, on_self n x = true).
    { destruct (on_self "assertTrue" x) eqn:T; [eauto|]. destruct (on_self "assertFalse" x) eqn:F; [eauto|discriminate H]. }
    destruct G as (n & O). apply on_self_inv in O. subst x. destruct (if on_self "assertTrue" _ then _ else _) as [fa|]; [|discriminate H].
    assert (C : forall z a nn, none_check z = Some (a, nn) -> exists op b, z = Compare a [(op, b)]).
    { intros z a nn E. destruct z; try discriminate E. destruct rest as [|[[] r] [|? ?]]; try discriminate E; cbn in E; destruct (is_name "None" r); try discriminate E; injection E as <- <-; eauto. }
    destruct (match y with Not x' => _ | _ => _ end) as [[[a nn] hn]|] eqn:E; [|discriminate H]. unfold fix_with in H. injection H as <-. apply S_none.
    assert (D : exists z op b, (y = z \/ y = Not z) /\ z = Compare a [(op, b)]).
    { destruct y; try discriminate E.
      - destruct (none_check y) as [[a0 n0]|] eqn:Ny; [|discriminate E]. injection E as <- <- <-. destruct (C _ _ _ Ny) as (op & b & ->). eauto 6.
      - destruct (none_check (Compare y rest)) as [[a0 n0]|] eqn:Ny; [|discriminate E]. injection E as <- <- <-. destruct (C _ _ _ Ny) as (op & b & Q). eauto 6. }
    destruct D as (z & op & b & [->| ->] & ->); cbn; rewrite ?in_app_iff; auto using subnode_self.
  - destruct x; try discriminate H. unfold deprecated_assert in H. destruct (find _ deprecated_asserts) as [[old new]|] eqn:F; [|discriminate H]. injection H as <-. apply find_some in F. destruct F as (_ & F).
    cbn [fst] in F. apply on_self_inv in F. subst x. cbn [with_attr]. constructor.
  - destruct x; try discriminate H. destruct x; try discriminate H. cbn [to_literal] in H.
    destruct (match args with [] => _ | _ => _ end) as [es|] eqn:E; [|discriminate H].
    assert (Es : forall y, List.In y es -> exists a, List.In a args /\ List.In (snd y) (children (snd a))).
    { intros y Iy. destruct args as [|[[st kw] z] [|? ?]]; [destruct (str_eqb s (u "set")); [discriminate E|injection E as <-; destruct Iy]| |discriminate E].
      exists (st, kw, z). split; [now left|]. destruct z; try discriminate E; injection E as <-; cbn; now apply in_map. }
    assert (El : forall c, List.In c (map snd es) -> exists a, List.In a args /\ List.In c (subnodes (snd a))).
    { intros c Ic. apply in_map_iff in Ic. destruct Ic as (y & <- & Iy). destruct (Es y Iy) as (a & Ia & Ic). exists a. split; [exact Ia|now apply child_sub]. }
    unfold fix_with in H.
    destruct (str_eqb s (u "tuple")) eqn:E1; [apply str_eqb_eq in E1; subst s; injection H as <-; apply S_call; [apply known_in; cbn; tauto|exact Logic.I|exact El|intros ? []]|].
    destruct (str_eqb s (u "list")) eqn:E2; [apply str_eqb_eq in E2; subst s; injection H as <-; apply S_call; [apply known_in; cbn; tauto|exact Logic.I|exact El|intros ? []]|].
    destruct (str_eqb s (u "set")) eqn:E3.
    { apply str_eqb_eq in E3; subst s. destruct es; injection H as <-; [constructor|]. apply S_call; [apply known_in; cbn; tauto|exact Logic.I|exact El|intros ? []]. }
    destruct (str_eqb s (u "dict")) eqn:E4; [|discriminate H]. apply str_eqb_eq in E4; subst s. destruct (pairs_of es) as [ps|] eqn:Ps; [|discriminate H]. injection H as <-.
    apply S_call; [apply known_in; cbn; tauto|exact Logic.I| |intros ? []].
    intros c Ic. cbn [children] in Ic. apply in_flat_map in Ic. destruct Ic as ([k v] & Ik & Ic). destruct (pairs_of_in _ _ Ps _ _ Ik) as (y & Iy & Py). destruct (Es y Iy) as (a & Ia & Iz). exists a. split; [exact Ia|].
    apply (subnode_child _ _ _ Iz). apply pair_of_children in Py. apply child_sub. cbn in Ic. destruct Ic as [<-|[<-|[]]]; apply Py.
  - destruct x; try discriminate H. destruct x; try discriminate H. destruct args as [|[[st kw] z] [|? ?]]; [discriminate H| |destruct z; discriminate H].
    assert (Z : exists elt cs, children z = elt :: flat_map clause_parts cs /\ clauses_of z = cs /\
      (if str_eqb s (u "list") then Ok (fix_with (ListComp elt cs)) else if str_eqb s (u "set") then Ok (fix_with (SetComp elt cs)) else if str_eqb s (u "dict") then
        match elt with Tuple es | List es => match es with (_, k) :: (_, v) :: _ => Ok (fix_with (DictComp k v cs)) | _ => Err IndexError end | _ => Ok None end else Ok None) = Ok (Some (Some x'))).
    { destruct z; try discriminate H; exists z, for_in; (split; [reflexivity|split; [reflexivity|exact H]]). }
    destruct Z as (elt & cs & Ch & Cl & Z). clear H. unfold fix_with in Z.
    assert (Sub : forall c, List.In c (elt :: flat_map clause_parts cs) -> exists a, List.In a [(st, kw, z)] /\ List.In c (subnodes (snd a))).
    { intros c Ic. exists (st, kw, z). split; [now left|]. apply child_sub. cbn [snd]. now rewrite Ch. }
    assert (Cs : forall c, List.In c cs -> exists a, List.In a [(st, kw, z)] /\ List.In c (clauses_of (snd a))).
    { intros c Ic. exists (st, kw, z). split; [now left|]. cbn [snd]. now rewrite Cl. }
    destruct (str_eqb s (u "list")) eqn:E2; [apply str_eqb_eq in E2; subst s; injection Z as <-; apply S_call; [apply known_in; cbn; tauto|exact Logic.I|exact Sub|exact Cs]|].
    destruct (str_eqb s (u "set")) eqn:E3; [apply str_eqb_eq in E3; subst s; injection Z as <-; apply S_call; [apply known_in; cbn; tauto|exact Logic.I|exact Sub|exact Cs]|].
    destruct (str_eqb s (u "dict")) eqn:E4; [|discriminate Z]. apply str_eqb_eq in E4; subst s.
    assert (Kv : exists k v, List.In k (children elt) /\ List.In v (children elt) /\ x' = DictComp k v cs).
    { destruct elt; try discriminate Z; destruct es as [|[? k] [|[? v] ?]]; try discriminate Z; injection Z as <-; exists k, v; cbn; auto. }
    destruct Kv as (k & v & Ik & Iv & ->). apply S_call; [apply known_in; cbn; tauto|exact Logic.I| |exact Cs].
    intros c Ic. cbn [children] in Ic. destruct Ic as [<-|[<-|Ic]]; [| |apply Sub; now right].
    + exists (st, kw, z). split; [now left|]. cbn [snd]. apply (subnode_child z elt); [rewrite Ch; now left|now apply child_sub].
    + exists (st, kw, z). split; [now left|]. cbn [snd]. apply (subnode_child z elt); [rewrite Ch; now left|now apply child_sub].
  - destruct x; try discriminate H. destruct parts as [|[t|x] [|? ?]]; try discriminate H. unfold redundant_fstring, fix_with in H. injection H as <-. constructor.
Qed.

Lemma sub_trans : forall e x y, List.In x (subnodes e) -> List.In y (subnodes x) -> List.In y (subnodes e).
Proof.
  apply (expr_children (fun e => forall x y, List.In x (subnodes e) -> List.In y (subnodes x) -> List.In y (subnodes e))). intros e F x y Ix Iy.
  rewrite subnodes_eq in Ix. destruct Ix as [<-|Ix]; [exact Iy|]. apply in_flat_map in Ix. destruct Ix as (c & Ic & Ix). rewrite Forall_forall in F. exact (subnode_child _ _ _ Ic (F c Ic x y Ix Iy)).
Qed.
Lemma all_fine_sub : forall e x, all_fine e -> List.In x (subnodes e) -> all_fine x.
Proof. intros e x A Ix y Iy. apply A. exact (sub_trans _ _ _ Ix Iy). Qed.

Lemma self_attr_fine : forall n, all_fine (Attribute (Name (u "self")) n).
Proof. intros n x [<-|[<-|[]]]; (split; [intros ? ? ? []|split; [intros ? ? []|exact Logic.I]]). Qed.

Lemma swaps_fine : forall x x', swaps x x' -> all_fine x -> all_fine x'.
Proof.
  intros x x' W A. pose proof (proj1 (all_fine_eq _) A) as (A1 & A2). apply all_fine_eq. destruct W as [l rest rest' E|n n' st kw x a b Ia Ib|n n' st kw x a Ia|n n' args|args|n args e' Kn Sh Ch Cl|p q t p' t'].
  - split; [split; [intros ? ? ? []|split; [intros ? ? []|exact Logic.I]]|]. cbn [children] in *. now rewrite E.
  - assert (Ax : all_fine x) by (apply A2; cbn; auto). split.
    + split; [intros ? ? ? []|split; [intros ? ? []|]]. intros _. split; [intros y [<-|[<-|[]]]; reflexivity|discriminate].
    + cbn [children self_call map snd plain_arg]. intros c [<-|[<-|[<-|[]]]]; [apply self_attr_fine| |]; eapply all_fine_sub; eauto.
  - assert (Ax : all_fine x) by (apply A2; cbn; auto). split.
    + split; [intros ? ? ? []|split; [intros ? ? []|]]. intros _. split; [intros y [<-|[]]; reflexivity|discriminate].
    + cbn [children self_call map snd plain_arg]. intros c [<-|[<-|[]]]; [apply self_attr_fine|]; eapply all_fine_sub; eauto.
  - split.
    + split; [intros ? ? ? []|split; [intros ? ? []|]]. intros _. destruct (proj2 (proj2 A1)) as (P & _); [exists (u "self"); split; [apply known_in; cbn; auto|right; eauto]|]. split; [exact P|discriminate].
    + cbn [children self_call] in *. intros c [<-|Ic]; [apply self_attr_fine|]. apply A2. now right.
  - split; [split; [intros ? ? ? []|split; [intros ? ? []|intros _; split; [intros ? []|discriminate]]]|]. intros c [<-|[]]. apply A2. now left.
  - assert (Fa : forall a, List.In a args -> all_fine (snd a)) by (intros a Ia; apply A2; cbn [children]; right; now apply in_map). split.
    + split; [|split; [intros m _; destruct e'; auto; intros []|destruct e'; try destruct Sh; exact Logic.I]].
      intros t it ifs I. destruct (Cl _ I) as (a & Ia & Ic). exact (proj1 (Fa a Ia _ (subnode_self _)) t it ifs Ic).
    + intros c Ic. destruct (Ch c Ic) as (a & Ia & Iz). exact (all_fine_sub _ _ (Fa a Ia) Iz).
  - split; [split; [intros ? ? ? []|split; [intros ? ? []|exact Logic.I]]|intros ? []].
Qed.

Section Pass.
  Context (fixes : expr -> option expr) (Sw : forall x x', fixes x = Some x' -> swaps x x').
  Lemma targets_kept : forall e, match e with Name _ | Tuple _ | List _ => fixes e = None | _ => True end.
  Proof. intro e. destruct e; try exact Logic.I; match goal with |- fixes ?x = None => destruct (fixes x) as [x'|] eqn:E; [apply Sw in E; inversion E|reflexivity] end. Qed.
  Lemma pass_name : forall f n, pass fixes f = Name n -> f = Name n.
  Proof.
    intros f n H. rewrite pass_eq in H. destruct (fixes f) as [x'|] eqn:E.
    - apply Sw in E. subst x'. inversion E; subst; contradiction.
    - destruct f; try discriminate H. exact H.
  Qed.
  Lemma pass_known : forall f, on_known (pass fixes f) -> on_known f.
  Proof.
    intros f (n & Kn & [E|(a & E)]).
    - apply pass_name in E. exists n. auto.
    - rewrite pass_eq in E. destruct (fixes f) as [x'|] eqn:Ef.
      + apply Sw in Ef. subst x'. inversion Ef; subst; contradiction.
      + destruct f; try discriminate E. injection E as E <-. apply pass_name in E. subst f. exists n. eauto.
  Qed.
  Lemma pass_settled : forall x, settled x -> settled (pass fixes x).
  Proof.
    intros x H n args E. rewrite pass_eq in E. destruct (fixes x) as [x'|] eqn:Ef.
    - apply Sw in Ef. subst x'. inversion Ef; subst; try contradiction. intros _. exact (H _ _ eq_refl (known_in "set" ltac:(cbn; tauto))).
    - destruct x; try discriminate E. injection E as E _. apply pass_name in E. subst x. exact (H _ _ eq_refl).
  Qed.
  (** a settled expression becomes a display or a comprehension only if it is one *)
  Lemma pass_shape : forall x, settled x -> (exists y, fixes x = Some y /\ match y with Compare _ _ | Call _ _ | SimpleString _ _ _ => True | _ => False end /\ match x with Compare _ _ | Call _ _ | FString _ _ _ => True | _ => False end) \/ pass fixes x = rebuild (pass fixes) x.
  Proof.
    intros x H. destruct (fixes x) as [y|] eqn:Ef.
    - left. exists y. split; [reflexivity|]. apply Sw in Ef. destruct Ef as [| | | | |n args e' Kn Sh Ch Cl|]; split; try exact Logic.I. exfalso. exact (H _ _ eq_refl Kn).
    - right. now rewrite pass_eq, Ef.
  Qed.
  Lemma pass_exact : forall x, settled x -> exact_pair x -> exact_pair (pass fixes x).
  Proof.
    intros x H E. destruct (pass_shape x H) as [(y & Ef & Sh & _)| ->].
    - rewrite pass_eq, Ef. destruct y; try destruct Sh; exact Logic.I.
    - destruct x; try exact Logic.I; cbn [rebuild exact_pair] in *; destruct es as [|[[] ?] [|[[] ?] [|? ?]]]; cbn; tauto.
  Qed.
  Lemma pass_plain : forall x, settled x -> plain_pair x -> plain_pair (pass fixes x).
  Proof.
    intros x H E. destruct (pass_shape x H) as [(y & Ef & Sh & _)| ->].
    - rewrite pass_eq, Ef. destruct y; try destruct Sh; exact Logic.I.
    - destruct x; try exact Logic.I; cbn [rebuild plain_pair] in *; intros y Iy; apply in_map_iff in Iy; destruct Iy as (z & <- & Iz); exact (E z Iz).
  Qed.
  Lemma pass_pairs : forall x, pairs_only x -> settled_pairs x -> pairs_only (pass fixes x) /\ settled_pairs (pass fixes x).
  Proof.
    intros x P Q.
    assert (Sx : settled x) by (destruct x; try exact Q; intros ? ? ?; discriminate).
    destruct (pass_shape x Sx) as [(y & Ef & Sh & Shx)| E].
    - pose proof (pass_settled x Sx) as S1. rewrite pass_eq, Ef in *. destruct y; try destruct Sh; (split; [exact Logic.I|exact S1]).
    - pose proof (pass_settled x Sx) as S1. rewrite E in *. destruct x; try (split; [exact Logic.I|exact S1]); cbn [rebuild pairs_only settled_pairs] in *.
      + split; intros y Iy; apply in_map_iff in Iy; destruct Iy as (z & <- & Iz); cbn [snd]; [apply pass_plain|apply pass_settled]; auto.
      + split; intros y Iy; apply in_map_iff in Iy; destruct Iy as (z & <- & Iz); cbn [snd]; [apply pass_plain|apply pass_settled]; auto.
      + split; [apply pass_exact|apply pass_settled]; auto.
      + split; [apply pass_exact|apply pass_settled]; auto.
  Qed.
  Lemma node_fine_rebuild : forall x, node_fine x -> node_fine (rebuild (pass fixes) x).
  Proof.
    intros x (H1 & H2 & H3). split; [|split].
    - assert (E : clauses_of (rebuild (pass fixes) x) = map (fun c : clause => (pass fixes (fst (fst c)), pass fixes (snd (fst c)), map (pass fixes) (snd c))) (clauses_of x)) by (destruct x; reflexivity).
      intros t it ifs I. rewrite E in I. apply in_map_iff in I. destruct I as ([[t0 it0] ifs0] & Eq & I). cbn [fst snd] in Eq. injection Eq as <- <- <-. specialize (H1 _ _ _ I). now rewrite (plain_target_pass fixes targets_kept t0 (proj1 H1)).
    - intros n Kn. assert (E : params_of (rebuild (pass fixes) x) = params_of x) by (destruct x; reflexivity). rewrite E. exact (H2 n Kn).
    - destruct x; cbn [rebuild]; try exact Logic.I; [exact H3|]. intro K. apply pass_known in K. destruct (H3 K) as (P & D). split.
      + intros a Ia. apply in_map_iff in Ia. destruct Ia as (a0 & <- & Ia). specialize (P a0 Ia). destruct a0 as [q y]. cbn [fst snd] in *. unfold plain_arg in *. now injection P as ->.
      + intros Ed a Ia. apply pass_name in Ed. apply in_map_iff in Ia. destruct Ia as (a0 & <- & Ia). cbn [snd]. destruct (D Ed a0 Ia). now apply pass_pairs.
  Qed.
  Lemma pass_fine : forall e, all_fine e -> all_fine (pass fixes e).
  Proof.
    apply (expr_children (fun e => all_fine e -> all_fine (pass fixes e))). intros e F A. rewrite pass_eq. destruct (fixes e) as [e'|] eqn:Fe; [exact (swaps_fine _ _ (Sw _ _ Fe) A)|].
    apply all_fine_eq in A. destruct A as (A1 & A2). apply all_fine_eq. split; [now apply node_fine_rebuild|]. intros c Ic. rewrite children_rebuild in Ic. apply in_map_iff in Ic. destruct Ic as (c0 & <- & Ic).
    rewrite Forall_forall in F. apply F; auto.
  Qed.
End Pass.

Lemma fix_run_fine : forall qual rules e, incl rules (seven_rules qual) -> all_fine e -> all_fine (fix_run rules e).
Proof.
  intros qual rules e Inc A. unfold fix_run. destruct (crashes rules e); [exact A|]. apply pass_fine; [|exact A].
  intros x x' H. apply replacements_in in H. destruct H as (rule & I & H). exact (seven_swaps qual rule x x' (Inc _ I) H).
Qed.

(** C76, runs: any number of runs of any of the seven rules, with conditions on the first program alone. *)
Theorem C76_runs : forall P qual rules self method tup lst flist ftuple fset fdict e n rho, incl rules (seven_rules qual) ->
  assignment_law P -> function_law P -> honest_bools P ->
  (forall rho, free_scope P known_names rho -> test_case_laws P rho self method /\ display_laws P rho tup lst flist ftuple fset fdict) ->
  generator_laws P tup lst flist fset fdict ->
  (forall old new v s, unittest_alias old new -> p_attr P v (u old) s = p_attr P v (u new) s) ->
  (forall x, qual x = true -> exists v, names_singleton P x v /\ by_identity P v) ->
  plain_targets e -> binds_no known_names e -> f_prefixes e -> tidy e -> calm e ->
  free_scope P known_names rho -> same_meaning P rho e (runs (fix_run rules) n e).
Proof.
  intros P qual rules self method tup lst flist ftuple fset fdict e n rho Inc UL FL Hb Laws Gl Al Q Pt Bn Fp Ty Cm Fr.
  pose proof (all_fine_in e Pt Bn Fp Ty Cm) as A. clear Pt Bn Fp Ty Cm. revert e A. induction n as [|n IH]; intros e A s; [reflexivity|]. cbn [runs].
  destruct (all_fine_out e A) as (Pt & Bn & Fp & Ty).
  rewrite (C76_run P qual rules self method tup lst flist ftuple fset fdict e rho Inc UL FL Hb Laws Gl Al Q Pt Bn Fp Ty Fr s). apply IH. now apply (fix_run_fine qual).
Qed.

(** (list(tuple([2])), list(x for x in list(tuple([3]))), dict((x, list([x])) for x in [4])): three runs, with fixes in each *)
Definition program3 : expr := Tuple (map (fun e => (false, e))
  [Call (name "list") [plain_arg (Call (name "tuple") [plain_arg (List [(false, Number (u "2"))])])];
   Call (name "list") [plain_arg (GeneratorExp (name "x") [(name "x", Call (name "list") [plain_arg (Call (name "tuple") [plain_arg (List [(false, Number (u "3"))])])], [])])];
   Call (name "dict") [plain_arg (GeneratorExp (Tuple [(false, name "x"); (false, Call (name "list") [plain_arg (List [(false, name "x")])])]) [(name "x", List [(false, Number (u "4"))], [])])]]).
Definition program3_fixed : expr := Tuple (map (fun e => (false, e))
  [List [(false, Number (u "2"))]; ListComp (name "x") [(name "x", List [(false, Number (u "3"))], [])];
   DictComp (name "x") (List [(false, name "x")]) [(name "x", List [(false, Number (u "4"))], [])]]).
Example C76_runs_example : let P := toy (fun _ => None) in let rules := seven_rules (is_name "None") in
  runs (fix_run rules) 3 program3 = program3_fixed /\ runs (fix_run rules) 2 program3 <> program3_fixed /\ same_meaning P [] program3 program3_fixed /\
  eval P [] program3 [] = (Ok (TTup [TLst [TInt 2]; TLst [TInt 3]; TDic [(TInt 4, TLst [TInt 4])]]), []).
Proof.
  intros P rules. assert (E : runs (fix_run rules) 3 program3 = program3_fixed) by (vm_compute; reflexivity). split; [exact E|]. split; [vm_compute; discriminate|]. split; [|vm_compute; reflexivity].
  rewrite <- E. apply (C76_runs P (is_name "None") rules TSelf (fun n => TFun (u n)) TTup TLst (TFun (u "list")) (TFun (u "tuple")) (TFun (u "set")) (TFun (u "dict"))).
  - apply incl_refl.
  - apply toy_assignment.
  - apply toy_function.
  - apply toy_bools.
  - apply toy_free.
  - apply toy_generator.
  - intros old new v s H. repeat (destruct H as [H|H]; [injection H as <- <-; vm_compute; destruct v; reflexivity|]). destruct H.
  - exact C53_none_example.
  - intros x t it ifs Ix Ic. repeat (destruct Ix as [<-|Ix]; [cbn in Ic; try (destruct Ic as [Ic|[]]; injection Ic as <- <- <-; constructor); try destruct Ic|]); destruct Ix.
  - intros x n Ix Kn. repeat (destruct Ix as [<-|Ix]; [split; [intros []|intros t it ifs Ic; cbn in Ic; try (destruct Ic as [Ic|[]]; injection Ic as <- <- <-; cbn; intros <-; vm_compute in Kn; repeat (destruct Kn as [Kn|Kn]; [discriminate Kn|]); destruct Kn); try destruct Ic]|]); destruct Ix.
  - intros p q parts Ix. cbn in Ix. repeat (destruct Ix as [Ix|Ix]; [first [discriminate Ix|injection Ix as <- <- <-; reflexivity]|]). destruct Ix.
  - intros f args Ix _. cbn in Ix. repeat (destruct Ix as [Ix|Ix]; [first [discriminate Ix|injection Ix as <- <-; split; [intros a [<-|[]]; reflexivity|first [discriminate|intros _ a [<-|[]]; exact Logic.I]]]|]). destruct Ix.
  - intros args a Ix Ia. cbn in Ix. repeat (destruct Ix as [Ix|Ix]; [first [discriminate Ix|inversion Ix; subst args; destruct Ia as [<-|[]]; intros n args' E'; discriminate E']|]). destruct Ix.
  - intros n _. reflexivity.
Qed.
