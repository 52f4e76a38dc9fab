(** * Fixing whole programs (C76). [C76_meaning] and its instances use functional extensionality. *)
From Coq Require Import String List NArith ZArith Bool Arith Lia FunctionalExtensionality.
From Verif Require Import Base PyStr Regex Py Rules RulesSpec PyToy RulesProps RulesProps2 RulesProps3 Whole WholeSpec WholeFacts.
Import ListNotations.

Lemma replacements_in : forall rules e e', replacements rules e = Some e' -> exists rule, List.In rule rules /\ rule e = Ok (Some (Some e')).
Proof.
  intros rules e e'. unfold replacements.
  assert (G : forall rules found, fold_left (fun found rule => match replacement_of (rule e) with Some e' => Some e' | None => found end) rules found = Some e' -> found = Some e' \/ exists rule, List.In rule rules /\ rule e = Ok (Some (Some e'))).
  { induction rules0 as [|r rs IH]; intros found H; cbn in H; [auto|]. destruct (IH _ H) as [E|(rule & I & R)]; [|right; exists rule; split; [now right|exact R]].
    destruct (replacement_of (r e)) as [x|] eqn:Rx; [|auto]. injection E as ->. right. exists r. split; [now left|]. unfold replacement_of in Rx. destruct (r e) as [[o|]|]; try discriminate Rx; now subst o. }
  intro H. destruct (G _ _ H) as [X|X]; [discriminate X|exact X].
Qed.
Lemma replacements_none : forall rules e, replacements rules e = None -> forall rule e', List.In rule rules -> rule e <> Ok (Some (Some e')).
Proof.
  intros rules e. unfold replacements.
  assert (G : forall rules found, fold_left (fun found rule => match replacement_of (rule e) with Some e' => Some e' | None => found end) rules found = None -> found = None /\ forall rule e', List.In rule rules -> rule e <> Ok (Some (Some e'))).
  { induction rules0 as [|r rs IH]; intros found H; cbn in H; [split; [exact H|intros ? ? []]|]. destruct (IH _ H) as (E & K). destruct (replacement_of (r e)) as [x|] eqn:Rx; [discriminate E|].
    split; [exact E|]. intros rule e' [<-|I]; [intro X; rewrite X in Rx; discriminate Rx|now apply K]. }
  intro H. exact (proj2 (G _ _ H)).
Qed.

Section Stops.
  Context (deq : expr -> expr -> bool) (is_isinstance qual : expr -> bool) (code_length : expr -> nat) (reads_same : str -> str -> str -> str -> bool).
  Context (use_equal use_is : bool) (rules : list (expr -> res report)).
  Context (Sel : incl rules ((if use_equal then [rule_by_equal] else []) ++ (if use_is then [rule_by_is qual] else []) ++ other_rules deq is_isinstance code_length reads_same)).
  Notation w := (weight qual use_equal use_is).

  Lemma rule_cases : forall rule e e', List.In rule rules -> rule e = Ok (Some (Some e')) ->
    (use_equal = true /\ by_equal e = Some (Some e')) \/ (use_is = true /\ by_is qual e = Some (Some e')) \/
    (List.In rule (other_rules deq is_isinstance code_length reads_same)).
  Proof.
    intros rule e e' I R. apply Sel in I. apply in_app_or in I. destruct I as [I|I].
    - left. destruct use_equal; [|destruct I]. destruct I as [<-|[]]. split; [reflexivity|]. unfold rule_by_equal, sure in R. congruence.
    - apply in_app_or in I. destruct I as [I|I]; [|auto]. right. left. destruct use_is; [|destruct I]. destruct I as [<-|[]]. split; [reflexivity|]. unfold rule_by_is, sure in R. congruence.
  Qed.

  Lemma fix_lighter : forall x e', unmixed qual use_equal use_is x -> replacements rules x = Some e' -> w e' < w x.
  Proof.
    intros x e' N R. apply replacements_in in R. destruct R as (rule & I & R). destruct (rule_cases rule x e' I R) as [(U & E)|[(U & E)|O]].
    - now apply by_equal_lighter.
    - apply by_is_lighter; [exact U|exact E|]. intros Ue l rest -> M. apply (N Ue U). exists l, rest. split; [apply subnode_self|exact M].
    - unfold other_rules in O. cbn [List.In] in O. unfold sure in O.
      repeat (destruct O as [<-|O]; [first
        [ apply to_comprehension_lighter; exact R | eapply use_fstring_lighter; exact R | injection R as R; first
          [ eapply collapse_lighter; exact R | apply assert_in_lighter; exact R | apply assert_none_lighter; exact R | apply assert_true_lighter; exact R | apply deprecated_lighter; exact R
          | apply to_literal_lighter; exact R | apply list_comprehension_lighter; exact R | apply redundant_lambda_lighter; exact R | apply redundant_fstring_lighter; exact R ]] |]). destruct O.
  Qed.

  Lemma fix_literals : forall e e', replacements rules e = Some e' -> primitive e = true -> primitive e' = true.
  Proof.
    intros x e' R Pr. apply replacements_in in R. destruct R as (rule & I & R). destruct (rule_cases rule x e' I R) as [(U & E)|[(U & E)|O]].
    - destruct x; discriminate.
    - destruct x; discriminate.
    - unfold other_rules in O. cbn [List.In] in O. unfold sure in O.
      repeat (destruct O as [<-|O]; [destruct x; try discriminate Pr; try discriminate R; destruct parts as [|[t|x] [|? ?]]; try discriminate R; unfold redundant_fstring, fix_with in R; injection R as R; subst e'; reflexivity|]). destruct O.
  Qed.
  Lemma fix_names : forall n, replacements rules (Name n) = None.
  Proof.
    intro n. destruct (replacements rules (Name n)) as [e'|] eqn:R; [|reflexivity]. exfalso. apply replacements_in in R. destruct R as (rule & I & R).
    destruct (rule_cases rule _ e' I R) as [(U & E)|[(U & E)|O]]; try discriminate.
    unfold other_rules in O. cbn [List.In] in O. unfold sure in O. repeat (destruct O as [<-|O]; [discriminate R|]). destruct O.
  Qed.

  Lemma unmixed_sub : forall e x, unmixed qual use_equal use_is e -> List.In x (subnodes e) -> unmixed qual use_equal use_is x.
  Proof.
    intros e x. revert e. apply (expr_children (fun e => unmixed qual use_equal use_is e -> List.In x (subnodes e) -> unmixed qual use_equal use_is x)).
    intros e F N I. rewrite subnodes_eq in I. destruct I as [<-|I]; [exact N|]. apply in_flat_map in I. destruct I as (c & Ic & Ix). rewrite Forall_forall in F. apply (F c Ic); [|exact Ix]. exact (unmixed_child _ _ _ e c Ic N).
  Qed.

  Lemma finished_or_not : forall e, finished rules e \/ exists x e', List.In x (subnodes e) /\ replacements rules x = Some e'.
  Proof.
    intro e. destruct (existsb (fun x => match replacements rules x with Some _ => true | None => false end) (subnodes e)) eqn:E.
    - right. apply existsb_exists in E. destruct E as (x & I & R). destruct (replacements rules x) as [e'|] eqn:Rx; [|discriminate R]. eauto.
    - left. intros x rule e' Ix Ir. apply (replacements_none rules x); [|exact Ir]. destruct (replacements rules x) as [y|] eqn:Rx; [|reflexivity].
      assert (T : existsb (fun x => match replacements rules x with Some _ => true | None => false end) (subnodes e) = true) by (apply existsb_exists; exists x; rewrite Rx; auto). congruence.
  Qed.

  Lemma settled : forall e, crashes rules e = true \/ finished rules e -> fix_run rules e = e.
  Proof.
    intros e [C|F]; unfold fix_run; [now rewrite C|]. destruct (crashes rules e); [reflexivity|]. apply pass_nothing. intros x Ix.
    destruct (replacements rules x) as [e'|] eqn:R; [|reflexivity]. exfalso. apply replacements_in in R. destruct R as (rule & I & R). exact (F x rule e' Ix I R).
  Qed.

  Lemma crashes_iff : forall e, crashes rules e = true <-> raises rules e.
  Proof.
    intro e. unfold crashes, raises. rewrite existsb_exists. split.
    - intros (x & Ix & X). apply existsb_exists in X. destruct X as (rule & Ir & X). exists x, rule. destruct (rule x) as [r|err]; [discriminate|]. eauto.
    - intros (x & rule & err & Ix & Ir & X). exists x. split; auto. apply existsb_exists. exists rule. rewrite X. auto.
  Qed.

  Lemma lighter : forall e, unmixed qual use_equal use_is e -> unmixed qual use_equal use_is (fix_run rules e) -> crashes rules e = false ->
    (exists x e', List.In x (subnodes e) /\ replacements rules x = Some e') -> w (fix_run rules e) < w e.
  Proof.
    intros e N0 N1 C X. unfold fix_run in *. rewrite C in *. apply (pass_lighter qual use_equal use_is (replacements rules)); auto; [apply fix_literals|apply fix_names|].
    intros x e' Ix Rx. apply fix_lighter; [|exact Rx]. exact (unmixed_sub e x N0 Ix).
  Qed.

  Lemma stops : forall n e, w e <= n -> (forall k, unmixed qual use_equal use_is (runs (fix_run rules) k e)) ->
    exists k, k <= n /\ (crashes rules (runs (fix_run rules) k e) = true \/ finished rules (runs (fix_run rules) k e)).
  Proof.
    induction n as [|n IH]; intros e W N; [pose proof (weight_ge qual use_equal use_is e); lia|].
    destruct (crashes rules e) eqn:C; [exists 0; split; [lia|left; exact C]|].
    destruct (finished_or_not e) as [F|X]; [exists 0; split; [lia|right; exact F]|].
    assert (D : w (fix_run rules e) < w e).
    { apply lighter; auto; [exact (N 0)|exact (N 1)]. }
    destruct (IH (fix_run rules e)) as (k & Hk & R); [lia|intro k; exact (N (S k))|]. exists (S k). split; [lia|exact R].
  Qed.
End Stops.

(** C76: fixing again and again comes to an end, after at most 13 runs for each node of the program, unless both
    rules about comparisons are on and some comparison of a literal with None, True or False turns up. *)
Theorem C76_stops : forall deq is_isinstance qual code_length reads_same (use_equal use_is : bool) rules e,
  incl rules ((if use_equal then [rule_by_equal] else []) ++ (if use_is then [rule_by_is qual] else []) ++ other_rules deq is_isinstance code_length reads_same) ->
  (use_equal = true -> use_is = true -> forall n, ~ mixed_comparison qual (runs (fix_run rules) n e)) ->
  exists n, n <= 13 * List.length (subnodes e) /\ forall m, n <= m ->
    let e' := runs (fix_run rules) m e in
    e' = runs (fix_run rules) n e /\ (raises rules e' \/ finished rules e').
Proof.
  intros deq isin qual cl rs ue ui rules e Sel N.
  destruct (stops deq isin qual cl rs ue ui rules Sel (weight qual ue ui e) e) as (k & Hk & R); [lia|intros k U1 U2; apply (N U1 U2)|].
  exists k. split; [pose proof (weight_bound qual ue ui e); lia|]. intros m Hm. cbn zeta.
  assert (St : forall j x, fix_run rules x = x -> runs (fix_run rules) j x = x) by (induction j as [|j IH]; intros x Hx; cbn; [reflexivity|rewrite Hx; auto]).
  assert (Add : forall a b x, runs (fix_run rules) (a + b) x = runs (fix_run rules) b (runs (fix_run rules) a x)) by (induction a as [|a IH]; intros b x; cbn; auto).
  assert (E : runs (fix_run rules) m e = runs (fix_run rules) k e).
  { replace m with (k + (m - k)) by lia. rewrite Add. apply St. now apply settled. }
  rewrite E, <- crashes_iff. auto.
Qed.

(** A run leaves a program as it is if a rule raises, and only then or if nothing is left to fix. *)
Theorem C76_crash : forall rules e, raises rules e -> fix_run rules e = e.
Proof. intros rules e R. apply crashes_iff in R. unfold fix_run. now rewrite R. Qed.

Theorem C76_progress : forall deq is_isinstance qual code_length reads_same (use_equal use_is : bool) rules e,
  incl rules ((if use_equal then [rule_by_equal] else []) ++ (if use_is then [rule_by_is qual] else []) ++ other_rules deq is_isinstance code_length reads_same) ->
  (use_equal = true -> use_is = true -> ~ mixed_comparison qual e /\ ~ mixed_comparison qual (fix_run rules e)) ->
  ~ raises rules e -> ~ finished rules e -> fix_run rules e <> e.
Proof.
  intros deq isin qual cl rs ue ui rules e Sel N R F E. rewrite <- crashes_iff in R. apply not_true_is_false in R.
  destruct (finished_or_not rules e) as [F'|X]; [contradiction|].
  pose proof (lighter deq isin qual cl rs ue ui rules Sel e) as L. rewrite E in *. enough (weight qual ue ui e < weight qual ue ui e) by lia.
  apply L; auto; intros U1 U2; apply (N U1 U2).
Qed.

(** Both rules together, which are on by default, may go back and forth for ever: "1 is None". *)
Theorem C76_cycle_refuted : ~ (forall qual rules e, incl rules [rule_by_equal; rule_by_is qual] ->
  exists n, forall m, n <= m -> runs (fix_run rules) m e = runs (fix_run rules) n e).
Proof.
  intro H. set (qual := is_name "None"). set (rules := [rule_by_equal; rule_by_is qual]).
  set (a := Compare (Number (u "1")) [(Is, Name (u "None"))]). set (b := Compare (Number (u "1")) [(Equal, Name (u "None"))]).
  destruct (H qual rules a (incl_refl _)) as (n & Hn). specialize (Hn (S n) ltac:(lia)).
  assert (A : fix_run rules a = b) by (vm_compute; reflexivity). assert (B : fix_run rules b = a) by (vm_compute; reflexivity).
  assert (G : forall n x, x = a \/ x = b -> runs (fix_run rules) (S n) x <> runs (fix_run rules) n x).
  { clear n Hn. induction n as [|n IH]; intros x Hx; [cbn; destruct Hx as [->| ->]; rewrite ?A, ?B; discriminate|]. change (runs (fix_run rules) (S n) (fix_run rules x) <> runs (fix_run rules) n (fix_run rules x)).
    apply IH. destruct Hx as [->| ->]; auto. }
  exact (G n a (or_introl eq_refl) Hn).
Qed.

(** No number of runs is enough for all programs: list(list(list([]))). *)
Fixpoint nested (n : nat) : expr := match n with 0 => List [] | S n => Call (Name (u "list")) [plain_arg (nested n)] end.
Theorem C76_many_refuted : forall n, ~ (forall e, finished [sure to_literal] (runs (fix_run [sure to_literal]) n e)).
Proof.
  intros n H. specialize (H (nested (S n))).
  assert (C : forall e, crashes [sure to_literal] e = false) by (intro e; unfold crashes; induction (subnodes e); auto).
  assert (D : forall k, fix_run [sure to_literal] (nested (S k)) = nested k).
  { intro k. unfold fix_run. rewrite C. induction k as [|k IH]; [vm_compute; reflexivity|]. change (nested (S (S k))) with (Call (Name (u "list")) [plain_arg (nested (S k))]).
    rewrite pass_eq. replace (replacements [sure to_literal] (Call (Name (u "list")) [plain_arg (nested (S k))])) with (@None expr) by reflexivity.
    cbn [rebuild map snd fst plain_arg]. rewrite IH. reflexivity. }
  assert (R : forall n k, runs (fix_run [sure to_literal]) n (nested (n + k)) = nested k) by (induction n0 as [|m IH]; intro k; [reflexivity|]; cbn [runs Nat.add]; rewrite D; apply IH).
  replace (S n) with (n + 1) in H by lia. rewrite R in H. specialize (H (nested 1) (sure to_literal) (List [])). apply H; [apply subnode_self|now left|vm_compute; reflexivity].
Qed.

(** any(list([x for x in xs if x is 1])): three runs, one fix in each *)
Definition some_rules := [rule_by_equal; sure to_literal; to_comprehension; sure list_comprehension; sure redundant_fstring; use_fstring (sl 0) yes].
Definition name (n : string) : expr := Name (u n).
Definition clauses_ex (op : cmpop) : list clause := [(name "x", name "xs", [Compare (name "x") [(op, Number (u "1"))]])].
Definition program : expr := Other 7 [Call (name "any") [plain_arg (Call (name "list") [plain_arg (ListComp (name "x") (clauses_ex Is))])]; FString (u "f") [34%N] [inl (u "{{")]].
Example C76_example :
  fix_run some_rules program = Other 7 [Call (name "any") [plain_arg (ListComp (name "x") (clauses_ex Is))]; SimpleString [] [34%N] (u "{")] /\
  runs (fix_run some_rules) 2 program = Other 7 [Call (name "any") [plain_arg (GeneratorExp (name "x") (clauses_ex Is))]; SimpleString [] [34%N] (u "{")] /\
  runs (fix_run some_rules) 3 program = Other 7 [Call (name "any") [plain_arg (GeneratorExp (name "x") (clauses_ex Equal))]; SimpleString [] [34%N] (u "{")] /\
  fix_run some_rules (runs (fix_run some_rules) 3 program) = runs (fix_run some_rules) 3 program /\
  incl some_rules ([rule_by_equal] ++ [] ++ other_rules (fun _ _ => true) (fun _ => true) (sl 0) yes) /\ List.length (subnodes program) = 13.
Proof. repeat split; try (vm_compute; reflexivity). intros r I. cbn in *. tauto. Qed.

(** A file in which a rule raises stays as it is: dict([(k,) for k in ks]), although there is an f-string to fix. *)
Example C76_crash_example : let e := Other 7 [FString (u "f") [34%N] [inl (u "a")]; Call (name "dict") [plain_arg (ListComp (Tuple [(false, name "k")]) [(name "k", name "ks", [])])]] in
  raises some_rules e /\ fix_run some_rules e = e /\ ~ finished some_rules e.
Proof.
  cbn zeta. split; [apply crashes_iff; vm_compute; reflexivity|]. split; [vm_compute; reflexivity|]. intro F. refine (F (FString (u "f") [34%N] [inl (u "a")]) (sure redundant_fstring) _ _ _ _); [cbn; auto|cbn; tauto|vm_compute; reflexivity].
Qed.

(** ** Meaning *)
Section Meaning.
  Context (P : py) (R : str -> Prop) (fixes : expr -> option expr).
  Context (UL : assignment_law P) (FL : function_law P).
  Context (Targets : forall e, match e with Name _ | Tuple _ | List _ => fixes e = None | _ => True end).
  Notation go := (pass fixes).

  Lemma plain_target_pass : forall t, plain_target t -> go t = t.
  Proof.
    apply (expr_children (fun t => plain_target t -> go t = t)). intros t F Pt. rewrite pass_eq. pose proof (Targets t) as Tt. inversion Pt as [n|es Fe|es Fe]; subst t; rewrite Tt.
    - reflexivity.
    - apply rebuild_id. intros c Ic. rewrite Forall_forall in F, Fe. apply F; [exact Ic|]. apply in_map_iff in Ic. destruct Ic as (x & <- & Ix). now apply Fe.
    - apply rebuild_id. intros c Ic. rewrite Forall_forall in F, Fe. apply F; [exact Ic|]. apply in_map_iff in Ic. destruct Ic as (x & <- & Ix). now apply Fe.
  Qed.

  Definition fine (e : expr) : Prop := forall rho, free_scope P R rho -> eval P rho (go e) = eval P rho e.

  Lemma free_app : forall bs rho, (forall n w, List.In (n, w) bs -> ~ R n) -> free_scope P R rho -> free_scope P R (bs ++ rho).
  Proof.
    intros bs rho H F n Rn. induction bs as [|[k v] bs IH]; [now apply F|]. cbn. destruct (str_eqb n k) eqn:E.
    - apply str_eqb_eq in E. subst k. exfalso. exact (H n v (or_introl eq_refl) Rn).
    - apply IH. intros m w I. apply (H m w). now right.
  Qed.
  Lemma bind_free : forall t v s bs s', (forall n, R n -> ~ mentions n t) -> bind_target P t v s = (Ok bs, s') -> forall n w, List.In (n, w) bs -> ~ R n.
  Proof.
    intros t v s bs s' H B n w I Rn. apply (H n Rn). destruct t; try exact (UL _ v s bs s' n w B I). cbn in B. injection B as <- <-. destruct I as [I|[]]. injection I as <- <-. reflexivity.
  Qed.

  Notation ek := (fun x : cmpop * expr => (fst x, go (snd x))).
  Lemma chain_fine : forall rho rest v, free_scope P R rho -> Forall (fun x : cmpop * expr => fine (snd x)) rest -> chain P (eval P rho) v (map ek rest) = chain P (eval P rho) v rest.
  Proof.
    intros rho rest v Fr F. revert v. induction F as [|[op e] rest H F IH]; intro v; [reflexivity|]. cbn [map fst snd chain]. cbn in H. rewrite (H rho Fr). f_equal.
    apply functional_extensionality. intro w. f_equal. apply functional_extensionality. intro c. destruct rest; [reflexivity|]. cbn [map] in *. f_equal. apply functional_extensionality. intro b. destruct b; [|reflexivity]. apply IH.
  Qed.
  Lemma elements_fine : forall rho es, free_scope P R rho -> Forall (fun x : bool * expr => fine (snd x)) es -> elements P (eval P rho) (map (fun x => (fst x, go (snd x))) es) = elements P (eval P rho) es.
  Proof. intros rho es Fr F. induction F as [|[st e] es H F IH]; [reflexivity|]. cbn [map fst snd elements]. cbn in H. now rewrite (H rho Fr), IH. Qed.
  Lemma arguments_fine : forall rho args, free_scope P R rho -> Forall (fun x : arg => fine (snd x)) args -> arguments P (eval P rho) (map (fun a : arg => (fst a, go (snd a))) args) = arguments P (eval P rho) args.
  Proof. intros rho args Fr F. induction F as [|[[st kw] e] es H F IH]; [reflexivity|]. cbn [map fst snd arguments]. cbn in H. now rewrite (H rho Fr), IH. Qed.
  Lemma all_true_fine : forall rho es, free_scope P R rho -> Forall fine es -> all_true P (eval P rho) (map go es) = all_true P (eval P rho) es.
  Proof. intros rho es Fr F. induction F as [|e es H F IH]; [reflexivity|]. cbn [map all_true]. now rewrite (H rho Fr), IH. Qed.
  Lemma mapM_fine : forall rho es, free_scope P R rho -> Forall fine es -> mapM (eval P rho) (map go es) = mapM (eval P rho) es.
  Proof. intros rho es Fr F. induction F as [|e es H F IH]; [reflexivity|]. cbn [map mapM]. now rewrite (H rho Fr), IH. Qed.

  Definition clause_fine (c : clause) : Prop := plain_target (fst (fst c)) /\ (forall n, R n -> ~ mentions n (fst (fst c))) /\ fine (snd (fst c)) /\ Forall fine (snd c).
  Notation gc := (fun c : clause => (go (fst (fst c)), go (snd (fst c)), map go (snd c))).
  Lemma body_fine : forall B rho t ifs (inner inner' : scope P -> gen B (state P)), free_scope P R rho -> (forall n, R n -> ~ mentions n t) -> Forall fine ifs ->
    (forall rho, free_scope P R rho -> inner' rho = inner rho) -> body_of (eval P) rho t (map go ifs) inner' = body_of (eval P) rho t ifs inner.
  Proof.
    intros B rho t ifs inner inner' Fr T F I. unfold body_of. apply functional_extensionality. intro v. f_equal. apply functional_extensionality. intro s. unfold mbind at 1 3.
    destruct (bind_target P t v s) as [[bs|x] s'] eqn:Bt; [|reflexivity].
    assert (Fr' : free_scope P R (bs ++ rho)) by (apply free_app; [exact (bind_free t v s bs s' T Bt)|exact Fr]). now rewrite (all_true_fine _ _ Fr' F), (I _ Fr').
  Qed.
  Lemma comp_fine : forall B (k k' : scope P -> M (state P) B) cs, Forall clause_fine cs -> (forall rho, free_scope P R rho -> k' rho = k rho) ->
    forall rho, free_scope P R rho -> comp (eval P) k' rho (map gc cs) = comp (eval P) k rho cs.
  Proof.
    intros B k k' cs F Hk. induction F as [|[[t it] ifs] cs (H1 & H2 & H3 & H4) F IH]; intros rho Fr; cbn [map comp fst snd] in *.
    - now rewrite (Hk _ Fr).
    - rewrite (H3 _ Fr), (plain_target_pass t H1). f_equal. f_equal. apply functional_extensionality. intro v. f_equal. apply functional_extensionality. intro g. f_equal. f_equal.
      apply body_fine; auto.
  Qed.
  Lemma comp_start_fine : forall B (k k' : scope P -> M (state P) B) cs, Forall clause_fine cs -> (forall rho, free_scope P R rho -> k' rho = k rho) ->
    forall rho, free_scope P R rho -> comp_start (eval P) k' rho (map gc cs) = comp_start (eval P) k rho cs.
  Proof.
    intros B k k' cs F Hk rho Fr. destruct F as [|[[t it] ifs] cs (H1 & H2 & H3 & H4) F]; cbn [map comp_start fst snd] in *; [reflexivity|].
    rewrite (H3 _ Fr), (plain_target_pass t H1). f_equal. apply functional_extensionality. intro v. f_equal. apply functional_extensionality. intro g. f_equal. f_equal.
    apply body_fine; auto. intros rho' Fr'. now apply comp_fine.
  Qed.

  Lemma pass_meaning : forall e, (forall x e', List.In x (subnodes e) -> fixes x = Some e' -> forall rho, free_scope P R rho -> same_meaning P rho x e') -> plain_targets e -> binds_no R e -> fine e.
  Proof.
    set (Hyp := fun e => (forall x e', List.In x (subnodes e) -> fixes x = Some e' -> forall rho, free_scope P R rho -> same_meaning P rho x e') /\ plain_targets e /\ binds_no R e).
    assert (Down : forall e c, List.In c (children e) -> Hyp e -> Hyp c).
    { intros e c Ic (H1 & H2 & H3). split; [|split].
      - intros x e' Ix. apply H1. exact (subnode_child _ _ _ Ic Ix).
      - intros x t it ifs Ix. apply H2. exact (subnode_child _ _ _ Ic Ix).
      - intros x n Ix. apply H3. exact (subnode_child _ _ _ Ic Ix). }
    intros e H1 H2 H3. assert (Hy : Hyp e) by (split; auto). clear H1 H2 H3. revert e Hy.
    apply (expr_children (fun e => Hyp e -> fine e)). intros e F Hy.
    assert (Ch : Forall fine (children e)) by (rewrite Forall_forall in *; intros c Ic; apply F; [exact Ic|exact (Down e c Ic Hy)]). clear F Down.
    destruct Hy as (H1 & H2 & H3). specialize (fun t it ifs => H2 e t it ifs (subnode_self e)). specialize (fun n => H3 e n (subnode_self e)).
    intros rho Fr. rewrite pass_eq. destruct (fixes e) as [e'|] eqn:Fe.
    - symmetry. apply functional_extensionality. intro s. exact (H1 e e' (subnode_self e) Fe rho Fr s).
    - clear H1 Fe.
      assert (Snd : forall (T : Type) (l : list (T * expr)), Forall fine (map snd l) -> Forall (fun x => fine (snd x)) l) by (intros T l K; induction l as [|a l IH]; [constructor|]; inversion K; subst; constructor; auto).
      assert (Cl : forall cs, clauses_of e = cs -> Forall fine (flat_map clause_parts cs) -> Forall clause_fine cs).
      { intros cs Ec K. rewrite Forall_forall in *. intros [[t it] ifs] Ic. specialize (H2 t it ifs). rewrite Ec in H2. split; [now apply H2|]. split.
        - intros n Rn. destruct (H3 n Rn) as (_ & H4). rewrite Ec in H4. exact (H4 t it ifs Ic).
        - split; [apply K; apply in_flat_map; exists (t, it, ifs); split; [exact Ic|right; now left]|]. rewrite Forall_forall. intros x Ix. apply K. apply in_flat_map. exists (t, it, ifs). split; [exact Ic|right; now right]. }
      destruct e; cbn [rebuild eval children] in *; try reflexivity.
      + inversion Ch as [|? ? C1 Ch1]; subst. inversion Ch1 as [|? ? C2 Ch2]; subst. now rewrite (C1 rho Fr), (C2 rho Fr).
      + clear H2 H3 Cl Snd. f_equal. induction parts as [|[t|x] parts IH]; [reflexivity| |]; cbn [map mapM flat_map app] in *.
        * now rewrite IH.
        * inversion Ch as [|? ? C1 Ch1]; subst. now rewrite (C1 rho Fr), IH.
      + inversion Ch as [|? ? C1 Ch1]; subst. now rewrite (C1 rho Fr).
      + inversion Ch as [|? ? C1 Ch1]; subst. now rewrite (C1 rho Fr), (mapM_fine rho slices Fr Ch1).
      + inversion Ch as [|? ? C1 Ch1]; subst. rewrite (C1 rho Fr). f_equal. apply functional_extensionality. intro vf. now rewrite (arguments_fine rho args Fr (Snd _ args Ch1)).
      + inversion Ch as [|? ? C1 Ch1]; subst. now rewrite (C1 rho Fr).
      + inversion Ch as [|? ? C1 Ch1]; subst. inversion Ch1 as [|? ? C2 Ch2]; subst. now rewrite (C1 rho Fr), (C2 rho Fr).
      + inversion Ch as [|? ? C1 Ch1]; subst. inversion Ch1 as [|? ? C2 Ch2]; subst. now rewrite (C1 rho Fr), (C2 rho Fr).
      + inversion Ch as [|? ? C1 Ch1]; subst. rewrite (C1 rho Fr). f_equal. apply functional_extensionality. intro v. exact (chain_fine rho rest v Fr (Snd _ rest Ch1)).
      + now rewrite (elements_fine rho es Fr (Snd _ es Ch)).
      + now rewrite (elements_fine rho es Fr (Snd _ es Ch)).
      + now rewrite (elements_fine rho es Fr (Snd _ es Ch)).
      + clear H2 H3 Cl Snd. f_equal. induction es as [|[a b] es IH]; [reflexivity|]. cbn [map mapM flat_map app fst snd] in *. inversion Ch as [|? ? C1 Ch1]; subst. inversion Ch1 as [|? ? C2 Ch2]; subst. now rewrite (C1 rho Fr), (C2 rho Fr), IH.
      + inversion Ch as [|? ? C1 Ch1]; subst. f_equal. apply FL. intros bs Hb s. apply equal_f. apply C1. apply free_app; [|exact Fr]. intros n w I Rn. exact (proj1 (H3 n Rn) (Hb n w I)).
      + inversion Ch as [|? ? C1 Ch1]; subst. now rewrite (comp_start_fine _ (fun rho => eval P rho e) (fun rho => eval P rho (go e)) for_in (Cl _ eq_refl Ch1) C1 rho Fr).
      + inversion Ch as [|? ? C1 Ch1]; subst. now rewrite (comp_start_fine _ (fun rho => eval P rho e) (fun rho => eval P rho (go e)) for_in (Cl _ eq_refl Ch1) C1 rho Fr).
      + inversion Ch as [|? ? C1 Ch1]; subst. now rewrite (comp_start_fine _ (fun rho => eval P rho e) (fun rho => eval P rho (go e)) for_in (Cl _ eq_refl Ch1) C1 rho Fr).
      + inversion Ch as [|? ? C1 Ch1]; subst. inversion Ch1 as [|? ? C2 Ch2]; subst.
        rewrite (comp_start_fine _ (fun rho => let* a := eval P rho e1 in let* b := eval P rho e2 in ret (a, b)) (fun rho => let* a := eval P rho (go e1) in let* b := eval P rho (go e2) in ret (a, b)) for_in (Cl _ eq_refl Ch2)); auto.
        intros rho' Fr'. now rewrite (C1 rho' Fr'), (C2 rho' Fr').
      + now rewrite (mapM_fine rho es Fr Ch).
  Qed.
End Meaning.

Lemma no_fix_targets : forall deq is_isinstance qual code_length reads_same rules,
  incl rules (rule_by_equal :: rule_by_is qual :: other_rules deq is_isinstance code_length reads_same) ->
  forall e, match e with Name _ | Tuple _ | List _ => replacements rules e = None | _ => True end.
Proof.
  intros deq isin qual cl rs rules Sel e.
  assert (G : match e with Name _ | Tuple _ | List _ => True | _ => False end -> replacements rules e = None).
  { intro K. destruct (replacements rules e) as [e'|] eqn:Re; [|reflexivity]. exfalso. apply replacements_in in Re. destruct Re as (rule & I & Re). apply Sel in I.
    unfold other_rules in I. cbn [List.In] in I. unfold rule_by_equal, rule_by_is, sure in I. repeat (destruct I as [<-|I]; [destruct e; try destruct K; discriminate Re|]). destruct I. }
  destruct e; auto.
Qed.

(** C76: a program keeps its meaning through any number of runs if each single fix keeps the meaning of
    the expression it replaces. [R] are names that the program does not bind and on whose meaning the
    fixes may rely ("list", "self"). *)
Theorem C76_meaning : forall P R deq is_isinstance qual code_length reads_same rules e n,
  assignment_law P -> function_law P ->
  incl rules (rule_by_equal :: rule_by_is qual :: other_rules deq is_isinstance code_length reads_same) ->
  (forall k, k < n -> let e_k := runs (fix_run rules) k e in
    plain_targets e_k /\ binds_no R e_k /\
    forall x rule x' rho, List.In x (subnodes e_k) -> List.In rule rules -> rule x = Ok (Some (Some x')) -> free_scope P R rho -> same_meaning P rho x x') ->
  forall rho, free_scope P R rho -> same_meaning P rho e (runs (fix_run rules) n e).
Proof.
  intros P R deq isin qual cl rs rules e n UL FL Sel. revert e. induction n as [|n IH]; intros e H rho Fr s; [reflexivity|].
  assert (One : same_meaning P rho e (fix_run rules e)).
  { destruct (H 0 ltac:(lia)) as (H1 & H2 & H3). cbn [runs] in *. unfold fix_run. destruct (crashes rules e); [intro; reflexivity|]. intro s'. symmetry. apply equal_f.
    apply (pass_meaning P R (replacements rules) UL FL (no_fix_targets _ _ _ _ _ _ Sel)); auto. intros x e' Ix Rx. apply replacements_in in Rx. destruct Rx as (rule & I & Rx). eauto. }
  rewrite (One s). cbn [runs]. apply IH; [|exact Fr]. intros k Hk. exact (H (S k) ltac:(lia)).
Qed.

(** For the three rules whose fixes need no assumption about names, conditions on the first program are
    enough. *)
Definition safe_rules (qual : expr -> bool) : list (expr -> res report) := [rule_by_is qual; sure deprecated_assert; sure redundant_fstring].
Definition f_prefixes (e : expr) : Prop := forall p q parts, List.In (FString p q parts) (subnodes e) -> is_bytes p = false.

Section Safe.
  Context (fixes : expr -> option expr) (Targets : forall e, match e with Name _ | Tuple _ | List _ => fixes e = None | _ => True end).
  Definition node_ok (x : expr) : Prop := (forall t it ifs, List.In (t, it, ifs) (clauses_of x) -> plain_target t) /\ match x with FString p _ _ => is_bytes p = false | _ => True end.
  Definition all_ok (e : expr) : Prop := forall x, List.In x (subnodes e) -> node_ok x.
  Lemma all_ok_eq : forall e, all_ok e <-> node_ok e /\ forall c, List.In c (children e) -> all_ok c.
  Proof.
    intro e. unfold all_ok. split.
    - intro H. split; [apply H, subnode_self|]. intros c Ic x Ix. apply H. exact (subnode_child _ _ _ Ic Ix).
    - intros (H1 & H2) x Ix. rewrite subnodes_eq in Ix. destruct Ix as [<-|Ix]; [exact H1|]. apply in_flat_map in Ix. destruct Ix as (c & Ic & Ix). exact (H2 c Ic x Ix).
  Qed.
  Lemma node_ok_rebuild : forall x, node_ok x -> node_ok (rebuild (pass fixes) x).
  Proof.
    intros x (H1 & H2). split.
    - assert (E : clauses_of (rebuild (pass fixes) x) = map (fun c : clause => (pass fixes (fst (fst c)), pass fixes (snd (fst c)), map (pass fixes) (snd c))) (clauses_of x)) by (destruct x; reflexivity).
      intros t it ifs I. rewrite E in I. apply in_map_iff in I. destruct I as ([[t0 it0] ifs0] & Eq & I). cbn [fst snd] in Eq. injection Eq as <- <- <-. specialize (H1 _ _ _ I). now rewrite (plain_target_pass fixes Targets t0 H1).
    - destruct x; cbn [rebuild]; auto.
  Qed.
  Lemma pass_ok : (forall x e', fixes x = Some e' -> all_ok x -> all_ok e') -> forall e, all_ok e -> all_ok (pass fixes e).
  Proof.
    intro H. apply (expr_children (fun e => all_ok e -> all_ok (pass fixes e))). intros e F A. rewrite pass_eq. destruct (fixes e) as [e'|] eqn:Fe; [exact (H e e' Fe A)|].
    apply all_ok_eq in A. destruct A as (A1 & A2). apply all_ok_eq. split; [now apply node_ok_rebuild|]. intros c Ic. rewrite children_rebuild in Ic. apply in_map_iff in Ic. destruct Ic as (c0 & <- & Ic).
    rewrite Forall_forall in F. apply F; auto.
  Qed.
End Safe.

Lemma by_is_same : forall qual rest l needs out, by_is_ops qual l rest = (needs, out) -> map snd out = map snd rest.
Proof.
  intros qual. induction rest as [|[op r] rest IH]; intros l needs out H; cbn in H; [now injection H as <- <-|]. destruct (by_is_ops qual r rest) as [n1 o1] eqn:E. specialize (IH _ _ _ E).
  destruct (_ && _); injection H as <- <-; cbn [map snd]; now rewrite IH.
Qed.
Lemma safe_ok : forall qual x e', replacements (safe_rules qual) x = Some e' -> all_ok x -> all_ok e'.
Proof.
  intros qual x e' H A. apply replacements_in in H. destruct H as (rule & I & H). unfold safe_rules, rule_by_is, sure in I. cbn [List.In] in I. destruct I as [<-|[<-|[<-|[]]]]; injection H as H.
  - destruct x; try discriminate H. cbn [by_is] in H. destruct (by_is_ops qual x rest) as [[|] out] eqn:E; [|discriminate H]. injection H as <-. apply by_is_same in E.
    apply all_ok_eq in A. destruct A as (A1 & A2). apply all_ok_eq. split; [split; [intros ? ? ? []|exact I]|]. cbn [children] in *. now rewrite E.
  - destruct x; try discriminate H. unfold deprecated_assert in H. destruct (find _ deprecated_asserts) as [[old new]|] eqn:F; [|discriminate H]. injection H as <-. apply find_some in F. destruct F as (_ & F).
    cbn [fst] in F. apply on_self_inv in F. subst x. cbn [with_attr]. apply all_ok_eq in A. destruct A as (A1 & A2). apply all_ok_eq. split; [split; [intros ? ? ? []|exact I]|]. cbn [children] in *.
    intros c [<-|Ic]; [|apply A2; now right]. specialize (A2 _ (or_introl eq_refl)). apply all_ok_eq in A2. destruct A2 as (A3 & A4). apply all_ok_eq. split; [split; [intros ? ? ? []|exact I]|exact A4].
  - destruct x; try discriminate H. destruct parts as [|[t|x] [|? ?]]; try discriminate H. unfold redundant_fstring, fix_with in H. injection H as <-. intros x [<-|[]]. split; [intros ? ? ? []|exact I].
Qed.

Theorem C76_safe : forall P qual e n rho, assignment_law P -> function_law P ->
  (forall old new v s, unittest_alias old new -> p_attr P v (u old) s = p_attr P v (u new) s) ->
  (forall x, qual x = true -> exists v, names_singleton P x v /\ by_identity P v) ->
  plain_targets e -> f_prefixes e -> same_meaning P rho e (runs (fix_run (safe_rules qual)) n e).
Proof.
  intros P qual e n rho UL FL Al Q Pt Fp.
  assert (Sel : incl (safe_rules qual) (rule_by_equal :: rule_by_is qual :: other_rules (fun _ _ => true) (fun _ => true) (fun _ => 0) (fun _ _ _ _ => true))) by (intros r I; cbn in *; tauto).
  assert (Ok_ : forall k e, all_ok e -> all_ok (runs (fix_run (safe_rules qual)) k e)).
  { induction k as [|k IH]; intros e0 A; [exact A|]. cbn [runs]. apply IH. unfold fix_run. destruct (crashes _ e0); [exact A|]. apply pass_ok; auto; [exact (no_fix_targets _ _ _ _ _ _ Sel)|exact (safe_ok qual)]. }
  assert (A : all_ok e). { intros x Ix. split; [intros t it ifs; apply Pt; exact Ix|]. destruct x; try exact I. exact (Fp _ _ _ Ix). }
  refine (C76_meaning P (fun _ => False) _ _ qual _ _ (safe_rules qual) e n UL FL Sel _ rho _); [|intros ? []]. intros k Hk. cbn zeta. specialize (Ok_ k e A). split; [|split].
  - intros x t it ifs Ix. exact (proj1 (Ok_ x Ix) t it ifs).
  - intros x n0 _ [].
  - intros x rule x' rho' Ix Ir Rx _. unfold safe_rules, rule_by_is, sure in Ir. cbn [List.In] in Ir. destruct Ir as [<-|[<-|[<-|[]]]]; injection Rx as Rx.
    + exact (C53_by_is_meaning qual P rho' x x' Q Rx).
    + exact (C55_deprecated P rho' x x' Al Rx).
    + apply C60_same; [exact Rx|]. intros p q ps ->. exact (proj2 (Ok_ _ Ix)).
Qed.

(** One run of any of seven rules, on a program that does not bind self, list, tuple, set and dict. The
    conditions are those under which the single fixes keep the meaning (C55, C56, C57, C60): arguments
    without stars and keywords, and, where dict is called with a comprehension or a display, no starred
    elements in its pairs and pairs of two in the comprehension. *)
Definition seven_rules (qual : expr -> bool) : list (expr -> res report) :=
  [rule_by_is qual; sure assert_in; sure assert_none; sure deprecated_assert; sure to_literal; to_comprehension; sure redundant_fstring].
Definition known_names (n : str) : Prop := List.In n (map u ["self"; "list"; "tuple"; "set"; "dict"]%string).
Definition on_known (f : expr) : Prop := exists n, known_names n /\ (f = Name n \/ exists a, f = Attribute (Name n) a).
Definition pairs_only (x : expr) : Prop :=
  match x with
  | GeneratorExp elt _ | ListComp elt _ => exact_pair elt
  | List es | Tuple es => forall y, List.In y es -> plain_pair (snd y)
  | _ => True
  end.
Definition tidy (e : expr) : Prop := forall f args, List.In (Call f args) (subnodes e) -> on_known f ->
  (forall a, List.In a args -> a = plain_arg (snd a)) /\
  (f = Name (u "dict") -> forall a, List.In a args -> pairs_only (snd a)).

Theorem C76_run : forall P qual rules self method tup lst flist ftuple fset fdict e rho, incl rules (seven_rules qual) -> assignment_law P -> function_law P -> honest_bools P ->
  (forall rho, free_scope P known_names rho -> test_case_laws P rho self method /\ display_laws P rho tup lst flist ftuple fset fdict) ->
  generator_laws P tup lst flist fset fdict ->
  (forall old new v s, unittest_alias old new -> p_attr P v (u old) s = p_attr P v (u new) s) ->
  (forall x, qual x = true -> exists v, names_singleton P x v /\ by_identity P v) ->
  plain_targets e -> binds_no known_names e -> f_prefixes e -> tidy e ->
  free_scope P known_names rho -> same_meaning P rho e (fix_run rules e).
Proof.
  intros P qual rules self method tup lst flist ftuple fset fdict e rho Inc UL FL Hb Laws Gl Al Q Pt Bn Fp Ty Fr.
  assert (Sel : incl rules (rule_by_equal :: rule_by_is qual :: other_rules (fun _ _ => true) (fun _ => true) (fun _ => 0) (fun _ _ _ _ => true))) by (intros r I; apply Inc in I; cbn in *; tauto).
  refine (C76_meaning P known_names _ _ qual _ _ rules e 1 UL FL Sel _ rho Fr). intros k Hk. assert (k = 0) by lia. subst k. cbn [runs]. cbn zeta. split; [exact Pt|]. split; [exact Bn|].
  intros x rule x' rho' Ix Ir Rx Fr'. destruct (Laws rho' Fr') as (Tl & Dl).
  assert (Kn : forall n, List.In n ["self"; "list"; "tuple"; "set"; "dict"]%string -> known_names (u n)) by (intros n; apply in_map).
  assert (Self : forall n f, on_self n f = true -> on_known f).
  { intros n f H. apply on_self_inv in H. subst f. exists (u "self"). split; [apply Kn; cbn; auto|]. right. eauto. }
  apply Inc in Ir. unfold seven_rules, rule_by_is, sure in Ir. cbn [List.In] in Ir. destruct Ir as [<-|[<-|[<-|[<-|[<-|[<-|[<-|[]]]]]]]]; try (injection Rx as Rx).
  - exact (C53_by_is_meaning qual P rho' x x' Q Rx).
  - destruct x; try discriminate Rx. destruct args as [|a [|? ?]]; [discriminate Rx| |destruct a as [[? ?] ?]; discriminate Rx].
    assert (Pa : a = plain_arg (snd a)).
    { apply (Ty x [a] Ix); [|now left]. destruct a as [[st kw] y]. cbn [assert_in] in Rx. destruct (on_self "assertTrue" x) eqn:T; [exact (Self _ _ T)|]. destruct (on_self "assertFalse" x) eqn:F; [exact (Self _ _ F)|discriminate Rx]. }
    rewrite Pa in *. exact (C55_in P rho' self method x (snd a) x' Hb Tl Rx).
  - destruct x; try discriminate Rx. destruct args as [|a [|? ?]]; [discriminate Rx| |destruct a as [[? ?] ?]; discriminate Rx].
    assert (Pa : a = plain_arg (snd a)).
    { apply (Ty x [a] Ix); [|now left]. destruct a as [[st kw] y]. cbn [assert_none] in Rx. destruct (on_self "assertTrue" x) eqn:T; [exact (Self _ _ T)|]. destruct (on_self "assertFalse" x) eqn:F; [exact (Self _ _ F)|discriminate Rx]. }
    rewrite Pa in *. exact (C55_none P rho' self method x (snd a) x' Hb Tl Rx).
  - exact (C55_deprecated P rho' x x' Al Rx).
  - destruct x; try discriminate Rx. destruct x; try discriminate Rx.
    assert (K : known_names s).
    { cbn [to_literal] in Rx. destruct (match args with [] => _ | _ => _ end) as [es|]; [|discriminate Rx].
      destruct (str_eqb s (u "tuple")) eqn:E1; [apply str_eqb_eq in E1; subst s; apply Kn; cbn; tauto|]. destruct (str_eqb s (u "list")) eqn:E2; [apply str_eqb_eq in E2; subst s; apply Kn; cbn; tauto|].
      destruct (str_eqb s (u "set")) eqn:E3; [apply str_eqb_eq in E3; subst s; apply Kn; cbn; tauto|]. destruct (str_eqb s (u "dict")) eqn:E4; [apply str_eqb_eq in E4; subst s; apply Kn; cbn; tauto|discriminate Rx]. }
    destruct (Ty (Name s) args Ix) as (T1 & T2); [exists s; auto|]. apply (C56_literal P rho' tup lst flist ftuple fset fdict (Name s) args x' Dl T1); [|exact Rx].
    intros a es y Ia D Iy Ed. specialize (T2 Ed a Ia). destruct (snd a); try discriminate D; injection D as <-; exact (T2 y Iy).
  - destruct x; try discriminate Rx. destruct x; try discriminate Rx. destruct args as [|a [|? ?]]; [discriminate Rx| |destruct a as [[? ?] []]; discriminate Rx].
    assert (K : known_names s).
    { destruct a as [[st kw] y]. destruct y; try discriminate Rx; cbn [to_comprehension] in Rx;
      (destruct (str_eqb s (u "list")) eqn:E2; [apply str_eqb_eq in E2; subst s; apply Kn; cbn; tauto|];
       destruct (str_eqb s (u "set")) eqn:E3; [apply str_eqb_eq in E3; subst s; apply Kn; cbn; tauto|]; destruct (str_eqb s (u "dict")) eqn:E4; [apply str_eqb_eq in E4; subst s; apply Kn; cbn; tauto|discriminate Rx]). }
    destruct (Ty (Name s) [a] Ix) as (T1 & T2); [exists s; auto|]. rewrite (T1 a (or_introl eq_refl)) in *. apply (C57_comprehension P rho' tup lst flist ftuple fset fdict (Name s) (snd a) x' Dl Gl); [|exact Rx].
    intro Ed. specialize (T2 Ed _ (or_introl eq_refl)). cbn [plain_arg snd] in Rx, T2. destruct (snd a); try discriminate Rx; exact T2.
  - apply C60_same; [exact Rx|]. intros p q ps ->. exact (Fp _ _ _ Ix).
Qed.

(** The laws hold for the machine of PyToy.v. *)
Lemma toy_assignment : forall globals, assignment_law (toy globals).
Proof. intros globals t v s bs s' n w H. discriminate H. Qed.
Lemma toy_function : forall globals, function_law (toy globals).
Proof. intros globals rho ps simple body body' H. reflexivity. Qed.
Lemma toy_free : forall globals rho, free_scope (toy globals) known_names rho ->
  test_case_laws (toy globals) rho TSelf (fun n => TFun (u n)) /\ display_laws (toy globals) rho TTup TLst (TFun (u "list")) (TFun (u "tuple")) (TFun (u "set")) (TFun (u "dict")).
Proof.
  intros globals rho F. assert (N : forall n, List.In n ["self"; "list"; "tuple"; "set"; "dict"]%string -> assoc (u n) rho = None) by (intros n I; apply F; now apply in_map).
  assert (E : forall n, List.In n ["self"; "list"; "tuple"; "set"; "dict"]%string -> eval (toy globals) rho (Name (u n)) = eval (toy globals) [] (Name (u n))) by (intros n I; cbn [eval]; rewrite (N n I); reflexivity).
  pose proof (toy_test_case globals) as T. pose proof (toy_display globals) as D. split.
  - destruct T. constructor; auto. rewrite E by (cbn; tauto). assumption.
  - destruct D. constructor; auto; intro; rewrite E by (cbn; tauto); auto.
Qed.

(** (self.assertTrue(1 in [1]), list(x for x in tuple([2])), f"a", x == None) *)
Definition program2 : expr := Tuple (map (fun e => (false, e))
  [self_call "assertTrue" [plain_arg (Compare (Number (u "1")) [(InOp, List [(false, Number (u "1"))])])];
   Call (name "list") [plain_arg (GeneratorExp (name "x") [(name "x", Call (name "tuple") [plain_arg (List [(false, Number (u "2"))])], [])])];
   FString (u "f") [34%N] [inl (u "a")];
   Compare (Number (u "3")) [(Equal, name "None")]]).
Definition program2_fixed : expr := Tuple (map (fun e => (false, e))
  [self_call "assertIn" [plain_arg (Number (u "1")); plain_arg (List [(false, Number (u "1"))])];
   ListComp (name "x") [(name "x", Call (name "tuple") [plain_arg (List [(false, Number (u "2"))])], [])];
   SimpleString [] [34%N] (u "a");
   Compare (Number (u "3")) [(Is, name "None")]]).
Example C76_run_example : let P := toy (fun _ => None) in
  fix_run (seven_rules (is_name "None")) program2 = program2_fixed /\ same_meaning P [] program2 program2_fixed /\
  eval P [] program2 [] = (Ok (TTup [TNone; TLst [TInt 2]; TText (u "a"); TBool false]), []).
Proof.
  intro P. assert (E : fix_run (seven_rules (is_name "None")) program2 = program2_fixed) by (vm_compute; reflexivity). split; [exact E|]. split; [|vm_compute; reflexivity].
  rewrite <- E. apply (C76_run P (is_name "None") (seven_rules (is_name "None")) TSelf (fun n => TFun (u n)) TTup TLst (TFun (u "list")) (TFun (u "tuple")) (TFun (u "set")) (TFun (u "dict"))).
  - apply incl_refl.
  - apply toy_assignment.
  - apply toy_function.
  - apply toy_bools.
  - apply toy_free.
  - apply toy_generator.
  - intros old new v s H. repeat (destruct H as [H|H]; [injection H as <- <-; vm_compute; destruct v; reflexivity|]). destruct H.
  - exact C53_none_example.
  - intros x t it ifs Ix Ic. repeat (destruct Ix as [<-|Ix]; [cbn in Ic; try (destruct Ic as [Ic|[]]; injection Ic as <- <- <-; constructor); try destruct Ic|]); destruct Ix.
  - intros x n Ix Kn. repeat (destruct Ix as [<-|Ix]; [split; [intros []|intros t it ifs Ic; cbn in Ic; try (destruct Ic as [Ic|[]]; injection Ic as <- <- <-; cbn; intros <-; vm_compute in Kn; repeat (destruct Kn as [Kn|Kn]; [discriminate Kn|]); destruct Kn); try destruct Ic]|]); destruct Ix.
  - intros p q parts Ix. cbn in Ix. repeat (destruct Ix as [Ix|Ix]; [first [discriminate Ix|injection Ix as <- <- <-; reflexivity]|]). destruct Ix.
  - intros f args Ix _. cbn in Ix. repeat (destruct Ix as [Ix|Ix]; [first [discriminate Ix|injection Ix as <- <-; split; [intros a [<-|[]]; reflexivity|discriminate]]|]). destruct Ix.
  - intros n _. reflexivity.
Qed.

(** Both comparison rules, and no comparison of a literal with a singleton: x == None, y is 1 *)
Example C76_both_example : let rules := [rule_by_equal; rule_by_is (is_name "None")] in
  let e := Other 7 [Compare (name "x") [(Equal, name "None")]; Compare (name "y") [(Is, Number (u "1"))]] in
  let e' := Other 7 [Compare (name "x") [(Is, name "None")]; Compare (name "y") [(Equal, Number (u "1"))]] in
  fix_run rules e = e' /\ fix_run rules e' = e' /\ forall n, ~ mixed_comparison (is_name "None") (runs (fix_run rules) n e).
Proof.
  cbn zeta. set (rules := [rule_by_equal; rule_by_is (is_name "None")]). set (e := Other 7 _). set (e' := Other 7 _).
  assert (A : fix_run rules e = e') by (vm_compute; reflexivity). assert (B : fix_run rules e' = e') by (vm_compute; reflexivity). split; [exact A|]. split; [exact B|].
  assert (N : forall x, x = e \/ x = e' -> ~ mixed_comparison (is_name "None") x).
  { intros x Hx (l & rest & I & M). destruct Hx as [->| ->]; cbn in I;
      (repeat (destruct I as [I|I]; [first [discriminate I|injection I as <- <-; cbn in M; destruct M as [(_ & [(M & _)|(M & k & E & K)])|[]]; first [discriminate M|discriminate E|injection E as <-; vm_compute in K; discriminate K]]|])); destruct I. }
  assert (G : forall n x, x = e \/ x = e' -> runs (fix_run rules) n x = e \/ runs (fix_run rules) n x = e').
  { induction n as [|n IH]; intros x Hx; [exact Hx|]. cbn [runs]. apply IH. destruct Hx as [->| ->]; auto. }
  intro n. apply N, G. auto.
Qed.
