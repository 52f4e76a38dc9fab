(** * Rules about assertions, literals and comprehensions (C55-C58, C60) *)
From Coq Require Import String List NArith ZArith Bool Arith Lia.
From Verif Require Import Base PyStr Py Rules RulesSpec PyToy RulesProps.
Import ListNotations.

(** ** C55 *)

Lemma on_self_inv : forall n f, on_self n f = true -> f = Attribute (Name (u "self")) (u n).
Proof.
  intros n f H. destruct f; try discriminate. cbn [on_self] in H. apply andb_true_iff in H. destruct H as [H1 H2]. destruct f; try discriminate.
  cbn [is_name] in H1. apply str_eqb_eq in H1, H2. now subst.
Qed.
Lemma is_name_inv : forall n e, is_name n e = true -> e = Name (u n).
Proof. intros n e H. destruct e; try discriminate. cbn [is_name] in H. apply str_eqb_eq in H. now subst. Qed.

Section Asserts.
  Context (P : py) (rho : scope P) (self : value P) (method : string -> value P).
  Context (Hb : honest_bools P) (Ht : test_case_laws P rho self method).

  Lemma call_self : forall n args s, List.In n ["assertTrue"; "assertFalse"; "assertIn"; "assertNotIn"; "assertIsNone"; "assertIsNotNone"; "assertEqual"]%string ->
    eval P rho (Call (Attribute (Name (u "self")) (u n)) args) s = (let* (ps, ks) := arguments P (eval P rho) args in p_call P (method n) ps ks) s.
  Proof.
    intros n args s H.
    change (eval P rho (Call (Attribute (Name (u "self")) (u n)) args)) with
      (let* vf := (let* v := eval P rho (Name (u "self")) in p_attr P v (u n)) in let* (ps, ks) := arguments P (eval P rho) args in p_call P vf ps ks).
    rewrite mbind_assoc. rewrite (mbind_eq _ _ _ _ _ _ _ _ (self_is _ _ _ _ Ht s)). rewrite (mbind_eq _ _ _ _ _ _ _ _ (methods _ _ _ _ Ht n s H)). reflexivity.
  Qed.

  Lemma call_self1 : forall n x s, List.In n ["assertTrue"; "assertFalse"; "assertIn"; "assertNotIn"; "assertIsNone"; "assertIsNotNone"; "assertEqual"]%string ->
    eval P rho (Call (Attribute (Name (u "self")) (u n)) [plain_arg x]) s = (let* v := eval P rho x in p_call P (method n) [v] []) s.
  Proof. intros. rewrite call_self by auto. cbn [arguments plain_arg]. unfold mbind, ret. destruct (eval P rho x s) as [[v|e] s1]; auto. Qed.
  Lemma call_self2 : forall n x y s, List.In n ["assertTrue"; "assertFalse"; "assertIn"; "assertNotIn"; "assertIsNone"; "assertIsNotNone"; "assertEqual"]%string ->
    eval P rho (Call (Attribute (Name (u "self")) (u n)) [plain_arg x; plain_arg y]) s = (let* v := eval P rho x in let* w := eval P rho y in p_call P (method n) [v; w] []) s.
  Proof. intros. rewrite call_self by auto. cbn [arguments plain_arg]. unfold mbind, ret. destruct (eval P rho x s) as [[v|e] s1]; auto. destruct (eval P rho y s1) as [[w|e] s2]; auto. Qed.
End Asserts.

Ltac in_list := cbn; tauto.

(** The assertions assertIn and assertNotIn check what was asserted before. *)
Theorem C55_in : forall P rho self method f x e', honest_bools P -> test_case_laws P rho self method ->
  assert_in (Call f [plain_arg x]) = Some (Some e') -> same_meaning P rho (Call f [plain_arg x]) e'.
Proof.
  intros P rho self method f x e' Hb Ht H s. unfold assert_in, plain_arg in H. destruct (on_self "assertTrue" f) eqn:T.
  - apply on_self_inv in T. subst f. fold (plain_arg x). rewrite (call_self1 _ _ _ _ Ht) by in_list.
    assert (Pos_ : forall a b, x = Compare a [(InOp, b)] -> e' = self_call "assertIn" [plain_arg a; plain_arg b] -> (let* v := eval P rho x in p_call P (method "assertTrue"%string) [v] []) s = eval P rho e' s).
    { intros a b -> ->. unfold self_call. rewrite (call_self2 _ _ _ _ Ht) by in_list. cbn [eval chain]. unfold mbind, ret. destruct (eval P rho a s) as [[v|ex] s1]; auto.
      destruct (eval P rho b s1) as [[w|ex] s2]; auto. rewrite (call_in _ _ _ _ Ht). cbn [compare]. unfold check_that, mbind. destruct (p_compare P InOp v w s2) as [[c|ex] s3]; auto.
      rewrite (call_true _ _ _ _ Ht). reflexivity. }
    assert (Neg1 : forall a b, x = Compare a [(NotInOp, b)] -> e' = self_call "assertNotIn" [plain_arg a; plain_arg b] -> (let* v := eval P rho x in p_call P (method "assertTrue"%string) [v] []) s = eval P rho e' s).
    { intros a b -> ->. unfold self_call. rewrite (call_self2 _ _ _ _ Ht) by in_list. cbn [eval chain]. unfold mbind, ret. destruct (eval P rho a s) as [[v|ex] s1]; auto.
      destruct (eval P rho b s1) as [[w|ex] s2]; auto. rewrite (call_not_in _ _ _ _ Ht). cbn [compare]. unfold check_that, negate, mbind, ret. destruct (p_compare P InOp v w s2) as [[c|ex] s3]; auto.
      destruct (p_truth P c s3) as [[t|ex] s4]; auto. rewrite (call_true _ _ _ _ Ht). unfold check_that, mbind. now rewrite Hb. }
    assert (Neg2 : forall a b, x = Not (Compare a [(InOp, b)]) -> e' = self_call "assertNotIn" [plain_arg a; plain_arg b] -> (let* v := eval P rho x in p_call P (method "assertTrue"%string) [v] []) s = eval P rho e' s).
    { intros a b -> ->. unfold self_call. rewrite (call_self2 _ _ _ _ Ht) by in_list. cbn [eval chain]. unfold mbind, ret. destruct (eval P rho a s) as [[v|ex] s1]; auto.
      destruct (eval P rho b s1) as [[w|ex] s2]; auto. rewrite (call_not_in _ _ _ _ Ht). cbn [compare]. unfold check_that, negate, mbind, ret. destruct (p_compare P InOp v w s2) as [[c|ex] s3]; auto.
      destruct (p_truth P c s3) as [[t|ex] s4]; auto. rewrite (call_true _ _ _ _ Ht). unfold check_that, mbind. now rewrite Hb. }
    destruct x; try discriminate.
    + destruct x; try discriminate. destruct rest as [|[[] b] [|]]; try discriminate. injection H as <-. eapply Neg2; eauto.
    + destruct rest as [|[[] b] [|]]; try discriminate; injection H as <-; [eapply Pos_|eapply Neg1]; eauto.
  - destruct (on_self "assertFalse" f) eqn:F; [|discriminate]. apply on_self_inv in F. subst f. fold (plain_arg x). rewrite (call_self1 _ _ _ _ Ht) by in_list.
    destruct x; try discriminate. destruct rest as [|[[] b] [|]]; try discriminate. injection H as <-. unfold self_call. rewrite (call_self2 _ _ _ _ Ht) by in_list.
    cbn [eval chain]. unfold mbind, ret. destruct (eval P rho x s) as [[v|ex] s1]; auto. destruct (eval P rho b s1) as [[w|ex] s2]; auto.
    rewrite (call_not_in _ _ _ _ Ht). cbn [compare]. unfold check_that, mbind, ret. destruct (p_compare P InOp v w s2) as [[c|ex] s3]; auto. rewrite (call_false _ _ _ _ Ht).
    unfold check_that, mbind, ret. reflexivity.
Qed.

(** ... and so do assertIsNone and assertIsNotNone. *)
Theorem C55_none : forall P rho self method f x e', honest_bools P -> test_case_laws P rho self method ->
  assert_none (Call f [plain_arg x]) = Some (Some e') -> same_meaning P rho (Call f [plain_arg x]) e'.
Proof.
  intros P rho self method f x e' Hb Ht H s. unfold assert_none, plain_arg in H. fold (plain_arg x).
  assert (N : forall s, eval P rho (Name (u "None")) s = (Ok (p_none P), s)) by reflexivity.
  assert (Check : forall a n x, none_check x = Some (a, n) -> forall s, eval P rho x s = (let* v := eval P rho a in ret (p_bool P (xorb n (p_same P v (p_none P))))) s).
  { intros a n y Hy s0. destruct y; try discriminate. unfold none_check in Hy. destruct rest as [|[[] b] [|]]; try discriminate; destruct (is_name "None" b) eqn:B; try discriminate;
      apply is_name_inv in B; subst b; injection Hy as <- <-; cbn [eval chain]; unfold mbind, ret; destruct (eval P rho y s0) as [[v|ex] s1]; auto; unfold compare, ret; cbn; auto; now destruct (p_same P v (p_none P)). }
  set (arg := match x with Not x' => match none_check x' with Some (a, n) => Some (a, n, true) | None => None end | _ => match none_check x with Some (a, n) => Some (a, n, false) | None => None end end) in *.
  assert (Arg : forall a n h, arg = Some (a, n, h) -> forall s, eval P rho x s = (let* v := eval P rho a in ret (p_bool P (xorb h (xorb n (p_same P v (p_none P)))))) s).
  { intros a n h E s0. unfold arg in E.
    assert (Plain : forall y, match none_check y with Some (a, n) => Some (a, n, false) | None => None end = Some (a, n, h) -> forall s0, eval P rho y s0 = (let* v := eval P rho a in ret (p_bool P (xorb h (xorb n (p_same P v (p_none P)))))) s0).
    { intros y Ey s'. destruct (none_check y) as [[a' n']|] eqn:Ny; [|discriminate]. injection Ey as -> -> <-. rewrite (Check _ _ _ Ny). unfold mbind, ret. destruct (eval P rho a s') as [[v|ex] s1]; auto. now destruct (xorb n (p_same P v (p_none P))). }
    destruct x; try (apply Plain; exact E). destruct (none_check x) as [[a' n']|] eqn:Nx; [|discriminate]. injection E as -> -> <-.
    change (eval P rho (Not x)) with (let* v := eval P rho x in negate P (p_truth P v)).
    rewrite (mbind_ext _ _ _ _ _ _ _ _ (Check _ _ _ Nx s0) (fun a s => eq_refl)). unfold mbind, ret. destruct (eval P rho a s0) as [[v|ex] s1]; auto. unfold negate, mbind, ret. rewrite Hb. now destruct (xorb n (p_same P v (p_none P))). }
  clearbody arg. clear Check.
  assert (Fin : forall nm is_false a n h, (nm = "assertTrue"%string /\ is_false = false \/ nm = "assertFalse"%string /\ is_false = true) -> f = Attribute (Name (u "self")) (u nm) -> arg = Some (a, n, h) ->
    e' = self_call (if (((if is_false : bool then 1 else 0) + (if h : bool then 1 else 0) + (if n : bool then 1 else 0)) mod 2 =? 0)%nat then "assertIsNone"%string else "assertIsNotNone"%string) [plain_arg a] ->
    eval P rho (Call f [plain_arg x]) s = eval P rho e' s).
  { intros nm is_false a n h Nm -> Ea ->. unfold self_call. rewrite (call_self1 _ _ _ _ Ht); [|destruct Nm as [[-> _]|[-> _]]; in_list].
    rewrite (call_self1 _ _ _ _ Ht) by (destruct (Nat.eqb _ 0); in_list).
    rewrite (mbind_ext _ _ _ _ _ _ _ _ (Arg _ _ _ Ea s) (fun a s => eq_refl)). unfold mbind at 1 2 3. unfold ret. destruct (eval P rho a s) as [[v|ex] s1]; auto.
    destruct Nm as [[-> ->]|[-> ->]]; [rewrite (call_true _ _ _ _ Ht)|rewrite (call_false _ _ _ _ Ht)]; destruct n, h; cbn [Nat.add Nat.modulo Nat.divmod Nat.sub Nat.eqb fst snd];
      rewrite ?(call_none _ _ _ _ Ht), ?(call_not_none _ _ _ _ Ht); unfold check_that, mbind, ret; rewrite Hb; now destruct (p_same P v (p_none P)). }
  destruct (on_self "assertTrue" f) eqn:T; [|destruct (on_self "assertFalse" f) eqn:F; [|discriminate]].
  - destruct arg as [[[a n] h]|] eqn:Ea; [|discriminate]. apply on_self_inv in T. injection H as <-. eapply (Fin "assertTrue"%string false); eauto.
  - destruct arg as [[[a n] h]|] eqn:Ea; [|discriminate]. apply on_self_inv in F. injection H as <-. eapply (Fin "assertFalse"%string true); eauto.
Qed.

(** What a second argument of assertTrue was meant to say. *)
Definition meant (P : py) (second : expr) (v w : value P) : M (state P) bool :=
  if is_name "True" second then p_truth P v
  else if is_name "False" second then (let* b := p_truth P v in ret (negb b))
  else if is_name "None" second then ret (p_same P v (p_none P))
  else (let* c := p_compare P Equal v w in p_truth P c).

(** The replacement of [assertTrue(a, literal)] compares: same arguments, evaluated in the same order (no
    longer the constants True, False and None, which cannot fail). *)
Theorem C55_comparison : forall P rho self method f a second e', test_case_laws P rho self method ->
  assert_true_comparison (Call f [plain_arg a; plain_arg second]) = Some (Some e') -> forall s,
  eval P rho e' s = (let* v := eval P rho a in let* w := eval P rho second in check_that P (meant P second v w)) s.
Proof.
  intros P rho self method f a second e' Ht H s. unfold assert_true_comparison, plain_arg in H. destruct (on_self "assertTrue" f) eqn:T; [|discriminate]. cbn [andb] in H.
  destruct (literal_second second) eqn:L; [|discriminate]. apply on_self_inv in T. subst f. fold (plain_arg a) in H. fold (plain_arg second) in H. injection H as <-. unfold meant.
  assert (K : forall n c s, List.In n ["True"; "False"; "None"]%string -> is_name n second = true -> keyword_value P (u n) = Some c -> eval P rho second s = (Ok c, s)).
  { intros n c s0 _ E Kc. apply is_name_inv in E. subst second. cbn [eval]. now rewrite Kc. }
  cbn [with_attr]. destruct (is_name "True" second) eqn:E1; [|destruct (is_name "None" second) eqn:E2; [|destruct (is_name "False" second) eqn:E3]].
  - rewrite (call_self1 _ _ _ _ Ht) by in_list. unfold mbind. destruct (eval P rho a s) as [[v|ex] s1]; auto. rewrite (K "True"%string (p_bool P true)) by (auto; in_list). apply (call_true _ _ _ _ Ht).
  - rewrite (call_self1 _ _ _ _ Ht) by in_list. unfold mbind. destruct (eval P rho a s) as [[v|ex] s1]; auto. rewrite (K "None"%string (p_none P)) by (auto; in_list).
    assert (is_name "False" second = false) as -> by (apply is_name_inv in E2; subst; reflexivity). apply (call_none _ _ _ _ Ht).
  - rewrite (call_self1 _ _ _ _ Ht) by in_list. unfold mbind at 1 2. destruct (eval P rho a s) as [[v|ex] s1]; auto. unfold mbind at 1. rewrite (K "False"%string (p_bool P false)) by (auto; in_list). apply (call_false _ _ _ _ Ht).
  - rewrite (call_self2 _ _ _ _ Ht) by in_list. unfold mbind. destruct (eval P rho a s) as [[v|ex] s1]; auto. destruct (eval P rho second s1) as [[w|ex] s2]; auto. apply (call_equal _ _ _ _ Ht).
Qed.

(** This is not what the call did before: it only asked for the truth of the first argument. *)
Theorem C55_comparison_refuted : ~ (forall P rho self method e e', honest_bools P -> test_case_laws P rho self method ->
  assert_true_comparison e = Some (Some e') -> same_meaning P rho e e').
Proof.
  intro H. specialize (H (toy some_globals) [] TSelf (fun n => TFun (u n)) (Call (Attribute (Name (u "self")) (u "assertTrue")) [plain_arg (Name (u "x")); plain_arg (Number (u "3"))]) _ (toy_bools _) (toy_test_case _) eq_refl []).
  vm_compute in H. discriminate.
Qed.

(** The old and the new names of unittest's deprecated aliases. *)
Definition unittest_alias (old new : string) : Prop := List.In (old, new)
  [("assertEquals", "assertEqual"); ("assertNotEquals", "assertNotEqual"); ("assertAlmostEquals", "assertAlmostEqual"); ("assertNotAlmostEquals", "assertNotAlmostEqual");
   ("assertRegexpMatches", "assertRegex"); ("assertNotRegexpMatches", "assertNotRegex"); ("assertRaisesRegexp", "assertRaisesRegex")]%string.

Theorem C55_deprecated : forall P rho e e', (forall old new v s, unittest_alias old new -> p_attr P v (u old) s = p_attr P v (u new) s) ->
  deprecated_assert e = Some (Some e') -> same_meaning P rho e e'.
Proof.
  intros P rho e e' Ha H s. destruct e as [| | | | | | |f args| | | | | | | | | | | | | |]; try discriminate. unfold deprecated_assert in H.
  destruct (find (fun p => on_self (fst p) f) deprecated_asserts) as [[old new]|] eqn:F; [|discriminate]. apply find_some in F. destruct F as [F1 F2]. cbn [fst] in F2.
  apply on_self_inv in F2. subst f. injection H as <-. cbn [with_attr].
  change (mbind (mbind (eval P rho (Name (u "self"))) (fun v => p_attr P v (u old))) (fun vf => let* (ps, ks) := arguments P (eval P rho) args in p_call P vf ps ks) s =
          mbind (mbind (eval P rho (Name (u "self"))) (fun v => p_attr P v (u new))) (fun vf => let* (ps, ks) := arguments P (eval P rho) args in p_call P vf ps ks) s).
  apply mbind_ext; auto. apply mbind_ext; auto.
Qed.
(** Every call of one of them is reported, and its replacement is the same call of the new name. *)
Theorem C55_deprecated_complete : forall old new args, unittest_alias old new ->
  deprecated_assert (Call (Attribute (Name (u "self")) (u old)) args) = Some (Some (Call (Attribute (Name (u "self")) (u new)) args)).
Proof. intros old new args H. repeat (destruct H as [H|H]; [injection H as <- <-; vm_compute; reflexivity|]). destruct H. Qed.

(** No rule reports its own replacement. *)
Theorem C55_once : forall rule e e', List.In rule [assert_in; assert_none; assert_true_comparison; deprecated_assert] -> rule e = Some (Some e') -> rule e' = None.
Proof.
  intros rule e e' [<-|[<-|[<-|[<-|[]]]]] H; destruct e as [| | | | | | |f args| | | | | | | | | | | | | |]; try discriminate.
  - destruct args as [|[[? ?] x] [|]]; try discriminate. unfold assert_in in H.
    destruct (if on_self "assertTrue" f then _ else _) as [[a b]|].
    + injection H as <-. reflexivity.
    + match type of H with match ?m with _ => _ end = _ => destruct m as [[a b]|]; [|discriminate] end. injection H as <-. reflexivity.
  - destruct args as [|[[? ?] x] [|]]; try discriminate. unfold assert_none in H.
    destruct (if on_self "assertTrue" f then _ else _) as [|]; [|discriminate].
    match type of H with match ?m with _ => _ end = _ => destruct m as [[[a n] h]|]; [|discriminate] end. injection H as <-. unfold assert_none, self_call, plain_arg.
    destruct (Nat.eqb _ 0); reflexivity.
  - destruct args as [|a [|[[? ?] x] [|]]]; try discriminate. unfold assert_true_comparison in H. destruct (on_self "assertTrue" f) eqn:T; [|discriminate]. apply on_self_inv in T. subst f.
    destruct (true && literal_second x); [|discriminate]. injection H as <-. destruct (is_name "True" x), (is_name "None" x), (is_name "False" x); cbn [with_attr]; try reflexivity; now destruct a as [[? ?] ?].
  - unfold deprecated_assert in H. destruct (find (fun p => on_self (fst p) f) deprecated_asserts) as [[old new]|] eqn:F; [|discriminate]. injection H as <-. apply find_some in F. destruct F as [F1 F2]. cbn [fst] in F2.
    apply on_self_inv in F2. subst f. cbn [with_attr]. repeat (destruct F1 as [F1|F1]; [injection F1 as <- <-; vm_compute; reflexivity|]). destruct F1.
Qed.

Example C55_examples :
  let self n := Attribute (Name (u "self")) (u n) in let x := Name (u "x") in let y := Name (u "y") in let none := Name (u "None") in
  assert_in (Call (self "assertFalse"%string) [plain_arg (Compare x [(InOp, y)])]) = Some (Some (Call (self "assertNotIn"%string) [plain_arg x; plain_arg y])) /\
  assert_none (Call (self "assertFalse"%string) [plain_arg (Not (Compare x [(IsNot, none)]))]) = Some (Some (Call (self "assertIsNotNone"%string) [plain_arg x])) /\
  assert_true_comparison (Call (self "assertTrue"%string) [plain_arg x; plain_arg none]) = Some (Some (Call (self "assertIsNone"%string) [plain_arg x])) /\
  deprecated_assert (Call (self "assertRaisesRegexp"%string) [plain_arg x; plain_arg y]) = Some (Some (Call (self "assertRaisesRegex"%string) [plain_arg x; plain_arg y])).
Proof. repeat split. Qed.
Example C55_laws : honest_bools (toy some_globals) /\ test_case_laws (toy some_globals) [] TSelf (fun n => TFun (u n)) /\
  forall old new v s, unittest_alias old new -> p_attr (toy some_globals) v (u old) s = p_attr (toy some_globals) v (u new) s.
Proof.
  split; [apply toy_bools|]. split; [apply toy_test_case|]. intros old new v s H. destruct v; try reflexivity.
  repeat (destruct H as [H|H]; [injection H as <- <-; vm_compute; reflexivity|]). destruct H.
Qed.

(** ** C56 *)

Section Displays.
  Context (P : py) (rho : scope P) (tup lst : list (value P) -> value P) (flist ftuple fset fdict : value P).
  Context (D : display_laws P rho tup lst flist ftuple fset fdict).

  Lemma call_name0 : forall n f s, builtin P rho n f -> eval P rho (Call (Name (u n)) []) s = p_call P f [] [] s.
  Proof. intros n f s B. change (mbind (eval P rho (Name (u n))) (fun vf => p_call P vf [] []) s = p_call P f [] [] s). now rewrite (mbind_eq _ _ _ _ _ _ _ _ (B s)). Qed.
  Lemma call_name1 : forall n f x s, builtin P rho n f -> eval P rho (Call (Name (u n)) [plain_arg x]) s = (let* v := eval P rho x in p_call P f [v] []) s.
  Proof.
    intros n f x s B. change (mbind (eval P rho (Name (u n))) (fun vf => let* (ps, ks) := arguments P (eval P rho) [plain_arg x] in p_call P vf ps ks) s = (let* v := eval P rho x in p_call P f [v] []) s).
    rewrite (mbind_eq _ _ _ _ _ _ _ _ (B s)). cbn [arguments plain_arg]. unfold mbind, ret. destruct (eval P rho x s) as [[v|e] s1]; auto.
  Qed.

  Lemma eval_display : forall x es, display x = Some es -> exists mk, (mk = tup \/ mk = lst) /\ forall s, eval P rho x s = (let* vs := elements P (eval P rho) es in ret (mk vs)) s.
  Proof.
    intros x es H. destruct x; try discriminate; injection H as ->; [exists tup|exists lst]; (split; [auto|]); intro s; cbn [eval]; apply mbind_ext; auto; intros; [apply (d_tup _ _ _ _ _ _ _ _ D)|apply (d_lst _ _ _ _ _ _ _ _ D)].
  Qed.

  (** a pair without stars *)
  Definition plain_pair (e : expr) : Prop := match e with Tuple es | List es => forall x, List.In x es -> fst x = false | _ => True end.

  Lemma eval_pair : forall e k v, pair_of e = Some (k, v) -> plain_pair e ->
    exists mk, (mk = tup \/ mk = lst) /\ forall s, eval P rho e s = (let* a := eval P rho k in let* b := eval P rho v in ret (mk [a; b])) s.
  Proof.
    intros e k v H N. destruct e; try discriminate; cbn in H; destruct es as [|[s1 a] [|[s2 b] [|]]]; try discriminate; injection H as -> ->;
      pose proof (N _ (or_introl eq_refl)) as N1; pose proof (N _ (or_intror (or_introl eq_refl))) as N2; cbn in N1, N2; subst; [exists tup|exists lst]; (split; [auto|]); intro s; cbn [eval elements]; unfold mbind, ret;
      (destruct (eval P rho k s) as [[x|ex] s3]; auto); (destruct (eval P rho v s3) as [[y|ex] s4]; auto); [apply (d_tup _ _ _ _ _ _ _ _ D)|apply (d_lst _ _ _ _ _ _ _ _ D)].
  Qed.

  Lemma eval_pairs : forall es ps, pairs_of es = Some ps -> (forall x, List.In x es -> plain_pair (snd x)) -> forall s,
    exists rel : list (value P * value P) -> list (value P) -> Prop,
      (forall kvs vs, rel kvs vs -> Forall2 (fun kv p => p = tup [fst kv; snd kv] \/ p = lst [fst kv; snd kv]) kvs vs) /\
      match mapM (fun kv => let* a := eval P rho (fst kv) in let* b := eval P rho (snd kv) in ret (a, b)) ps s, elements P (eval P rho) es s with
      | (Ok kvs, s1), (Ok vs, s2) => rel kvs vs /\ s1 = s2
      | (Err e1, s1), (Err e2, s2) => e1 = e2 /\ s1 = s2
      | _, _ => False
      end.
  Proof.
    intros es ps H N s. exists (Forall2 (fun kv p => p = tup [fst kv; snd kv] \/ p = lst [fst kv; snd kv])). split; [auto|]. revert ps H N s.
    induction es as [|[st e] es IH]; intros ps H N s; cbn in H; [injection H as <-; cbn; auto|].
    destruct (pair_of e) as [[k v]|] eqn:Pe; [|discriminate]. destruct (pairs_of es) as [ps'|] eqn:Ps; [|discriminate]. destruct st; [discriminate|]. injection H as <-.
    destruct (eval_pair e k v Pe (N _ (or_introl eq_refl))) as (mk & Mk & Ev). cbn [mapM elements fst snd]. unfold mbind, ret. rewrite Ev. unfold mbind, ret.
    destruct (eval P rho k s) as [[a|ex] s1]; auto. destruct (eval P rho v s1) as [[b|ex] s2]; auto.
    specialize (IH ps' eq_refl (fun x X => N x (or_intror X)) s2). unfold mbind, ret in IH.
    destruct (mapM _ ps' s2) as [[kvs|e1] t1], (elements P (eval P rho) es s2) as [[vs|e2] t2]; auto. destruct IH as [IH ->]. split; auto. cbn. constructor; auto. cbn. destruct Mk as [-> | ->]; auto.
  Qed.
End Displays.

(** The literal means the same as the call, for plain arguments and pairs without stars. *)
Theorem C56_literal : forall P rho tup lst flist ftuple fset fdict f args e',
  display_laws P rho tup lst flist ftuple fset fdict ->
  (forall a, List.In a args -> a = plain_arg (snd a)) ->
  (forall a es x, List.In a args -> display (snd a) = Some es -> List.In x es -> f = Name (u "dict") -> plain_pair (snd x)) ->
  to_literal (Call f args) = Some (Some e') -> same_meaning P rho (Call f args) e'.
Proof.
  intros P rho tup lst flist ftuple fset fdict f args e' D Pl Pp H s. unfold to_literal in H. destruct f as [n| | | | | | | | | | | | | | | | | | | | |]; try discriminate.
  destruct args as [|a [|]]; [| |destruct a as [[? ?] ?]; discriminate].
  - destruct (str_eqb n (u "set")) eqn:Es; [discriminate|].
    destruct (str_eqb n (u "tuple")) eqn:Et; [apply str_eqb_eq in Et; subst n; injection H as <-; rewrite (call_name0 P rho _ _ s (d_tuple _ _ _ _ _ _ _ _ D)), (tuple_none _ _ _ _ _ _ _ _ D); symmetry; apply (d_tup _ _ _ _ _ _ _ _ D)|].
    destruct (str_eqb n (u "list")) eqn:El; [apply str_eqb_eq in El; subst n; injection H as <-; rewrite (call_name0 P rho _ _ s (d_list _ _ _ _ _ _ _ _ D)), (list_none _ _ _ _ _ _ _ _ D); symmetry; apply (d_lst _ _ _ _ _ _ _ _ D)|].
    destruct (str_eqb n (u "dict")) eqn:Ed; [|discriminate]. apply str_eqb_eq in Ed; subst n; injection H as <-; rewrite (call_name0 P rho _ _ s (d_dict _ _ _ _ _ _ _ _ D)), (dict_none _ _ _ _ _ _ _ _ D). reflexivity.
  - destruct a as [[st kw] x]. pose proof (Pl _ (or_introl eq_refl)) as E. cbn [snd] in E. injection E as -> ->. change (eval P rho (Call (Name n) [plain_arg x]) s = eval P rho e' s). specialize (Pp (NoStar, None, x)). cbn [snd] in Pp.
    assert (Pp' : forall es x0, display x = Some es -> List.In x0 es -> Name n = Name (u "dict") -> plain_pair (snd x0)) by (intros; eapply Pp; eauto; left; reflexivity).
    destruct (display x) as [es|] eqn:Dx; [|discriminate]. destruct (eval_display P rho tup lst flist ftuple fset fdict D x es Dx) as (mk & Mk & Ev).
    destruct (str_eqb n (u "tuple")) eqn:Et.
    { apply str_eqb_eq in Et; subst n. injection H as <-. rewrite (call_name1 P rho _ _ x s (d_tuple _ _ _ _ _ _ _ _ D)). cbn [eval]. unfold mbind. rewrite Ev. unfold mbind, ret.
      destruct (elements P (eval P rho) es s) as [[vs|ex] s1]; auto. rewrite (d_tup _ _ _ _ _ _ _ _ D). destruct (tuple_of _ _ _ _ _ _ _ _ D vs s1), Mk as [-> | ->]; auto. }
    destruct (str_eqb n (u "list")) eqn:El.
    { apply str_eqb_eq in El; subst n. injection H as <-. rewrite (call_name1 P rho _ _ x s (d_list _ _ _ _ _ _ _ _ D)). cbn [eval]. unfold mbind. rewrite Ev. unfold mbind, ret.
      destruct (elements P (eval P rho) es s) as [[vs|ex] s1]; auto. rewrite (d_lst _ _ _ _ _ _ _ _ D). destruct (list_of _ _ _ _ _ _ _ _ D vs s1), Mk as [-> | ->]; auto. }
    destruct (str_eqb n (u "set")) eqn:Es.
    { apply str_eqb_eq in Es; subst n. rewrite (call_name1 P rho _ _ x s (d_set _ _ _ _ _ _ _ _ D)). unfold mbind. rewrite Ev. unfold mbind, ret. destruct es as [|e0 es]; injection H as <-.
      - cbn [elements]. rewrite (call_name0 P rho _ _ s (d_set _ _ _ _ _ _ _ _ D)), (set_none _ _ _ _ _ _ _ _ D). unfold ret. destruct (set_of _ _ _ _ _ _ _ _ D [] s), Mk as [-> | ->]; auto.
      - change (eval P rho (Set_ (e0 :: es)) s) with ((let* vs := elements P (eval P rho) (e0 :: es) in p_set P vs) s). unfold mbind at 1. destruct (elements P (eval P rho) (e0 :: es) s) as [[vs|ex] s1]; auto.
        destruct (set_of _ _ _ _ _ _ _ _ D vs s1), Mk as [-> | ->]; auto. }
    destruct (str_eqb n (u "dict")) eqn:Ed; [|discriminate]. apply str_eqb_eq in Ed; subst n. destruct (pairs_of es) as [ps|] eqn:Ps; [|discriminate]. injection H as <-.
    rewrite (call_name1 P rho _ _ x s (d_dict _ _ _ _ _ _ _ _ D)). unfold mbind at 1. rewrite Ev. unfold mbind at 1. unfold ret at 1.
    change (eval P rho (Dict ps) s) with ((let* vs := mapM (fun kv => let* a := eval P rho (fst kv) in let* b := eval P rho (snd kv) in ret (a, b)) ps in p_dict P vs) s). unfold mbind at 1.
    destruct (eval_pairs P rho tup lst flist ftuple fset fdict D es ps Ps (fun x X => Pp' _ x eq_refl X eq_refl) s) as (rel & R & E).
    destruct (mapM _ ps s) as [[kvs|e1] t1], (elements P (eval P rho) es s) as [[vs|e2] t2]; try contradiction.
    + destruct E as [E ->]. destruct (dict_of _ _ _ _ _ _ _ _ D kvs vs t2 (R _ _ E)), Mk as [-> | ->]; auto.
    + destruct E as [-> ->]. reflexivity.
Qed.

(** With a keyword argument it need not: [dict(a=[])] is [{'a': []}]. *)
Theorem C56_keyword_refuted : ~ (forall P rho tup lst flist ftuple fset fdict e e',
  display_laws P rho tup lst flist ftuple fset fdict -> to_literal e = Some (Some e') -> same_meaning P rho e e').
Proof.
  intro H. specialize (H _ _ _ _ _ _ _ _ (Call (Name (u "dict")) [(NoStar, Some (u "a"), List [])]) _ (toy_display some_globals) eq_refl []). vm_compute in H. discriminate.
Qed.
(** Nor with a pair whose first element is starred. *)
Theorem C56_starred_pair_refuted : ~ (forall P rho tup lst flist ftuple fset fdict x e',
  display_laws P rho tup lst flist ftuple fset fdict -> to_literal (Call (Name (u "dict")) [plain_arg x]) = Some (Some e') -> same_meaning P rho (Call (Name (u "dict")) [plain_arg x]) e').
Proof.
  intro H. specialize (H _ _ _ _ _ _ _ _ (List [(false, Tuple [(true, Tuple [(false, Number (u "1"))]); (false, Number (u "2"))])]) _ (toy_display some_globals) eq_refl []). vm_compute in H. discriminate.
Qed.
(** A call of set without arguments is left alone, but [set([])] becomes [set()]. A literal is never reported. *)
Theorem C56_once : forall e e', to_literal e = Some (Some e') -> to_literal e' = None.
Proof.
  intros e e' H. destruct e as [| | | | | | |f args| | | | | | | | | | | | | |]; try discriminate. unfold to_literal in H. destruct f as [n| | | | | | | | | | | | | | | | | | | | |]; try discriminate.
  match type of H with match ?m with _ => _ end = _ => destruct m as [es|]; [|discriminate] end.
  destruct (str_eqb n (u "tuple")); [injection H as <-; reflexivity|]. destruct (str_eqb n (u "list")); [injection H as <-; reflexivity|].
  destruct (str_eqb n (u "set")); [destruct es; injection H as <-; reflexivity|]. destruct (str_eqb n (u "dict")); [|discriminate]. destruct (pairs_of es); [|discriminate]. injection H as <-. reflexivity.
Qed.
Example C56_example : let k := Name (u "x") in let v := Name (u "y") in
  to_literal (Call (Name (u "dict")) [plain_arg (List [(false, Tuple [(false, k); (false, v)]); (false, List [(false, v); (false, k)])])]) = Some (Some (Dict [(k, v); (v, k)])).
Proof. reflexivity. Qed.

(** ** C57 *)

(** Two iterators in step: the elements of the second are [f] of those of the first. *)
Section Sim.
  Context {A B S : Type} (f : A -> B).
  Fixpoint sim (g : gen A S) (h : gen B S) : Prop :=
    match g with
    | Gen n => forall s, match n s, next h s with
                         | (Ok (Some (a, g')), s1), (Ok (Some (b, h')), s2) => b = f a /\ s1 = s2 /\ sim g' h'
                         | (Ok None, s1), (Ok None, s2) => s1 = s2
                         | (Err e1, s1), (Err e2, s2) => e1 = e2 /\ s1 = s2
                         | _, _ => False
                         end
    end.
  Lemma sim_next : forall g h, sim g h -> forall s, match next g s, next h s with
                         | (Ok (Some (a, g')), s1), (Ok (Some (b, h')), s2) => b = f a /\ s1 = s2 /\ sim g' h'
                         | (Ok None, s1), (Ok None, s2) => s1 = s2
                         | (Err e1, s1), (Err e2, s2) => e1 = e2 /\ s1 = s2
                         | _, _ => False
                         end.
  Proof. intros [n] h H. exact H. Qed.
  Lemma sim_intro : forall g h, (forall s, match next g s, next h s with
                         | (Ok (Some (a, g')), s1), (Ok (Some (b, h')), s2) => b = f a /\ s1 = s2 /\ sim g' h'
                         | (Ok None, s1), (Ok None, s2) => s1 = s2
                         | (Err e1, s1), (Err e2, s2) => e1 = e2 /\ s1 = s2
                         | _, _ => False
                         end) -> sim g h.
  Proof. intros [n] h H. exact H. Qed.

  Lemma sim_nil : sim gnil gnil.
  Proof. intro s. reflexivity. Qed.
  Lemma sim_one : forall a, sim (gone a) (gone (f a)).
  Proof. intros a s. cbn. repeat split. Qed.

  (** the outcome of a computation is in step *)
  Definition sim_m (m : M S (gen A S)) (m' : M S (gen B S)) : Prop := forall s, match m s, m' s with
    | (Ok g, s1), (Ok h, s2) => s1 = s2 /\ sim g h
    | (Err e1, s1), (Err e2, s2) => e1 = e2 /\ s1 = s2
    | _, _ => False
    end.
  Lemma sim_lift : forall m m', sim_m m m' -> sim (glift m) (glift m').
  Proof.
    intros m m' H. apply sim_intro. intro s. specialize (H s). change (next (glift m) s) with (mbind m next s). change (next (glift m') s) with (mbind m' next s). unfold mbind. destruct (m s) as [[g|e1] s1], (m' s) as [[h|e2] s2]; try contradiction; auto.
    destruct H as [<- H]. exact (sim_next _ _ H s1).
  Qed.

  Lemma sim_app : forall g h g2 h2, sim g h -> sim g2 h2 -> sim (gapp g g2) (gapp h h2).
  Proof.
    fix IH 1. intros [n] [n'] g2 h2 H H2. cbn in H. apply sim_intro. intro s. specialize (H s). cbn. destruct (n s) as [[[[a g']|]|e1] s1], (n' s) as [[[[b h']|]|e2] s2]; try contradiction; auto.
    - destruct H as (-> & <- & H). repeat split; auto.
    - subst. apply sim_next. exact H2.
  Qed.

  Lemma sim_flat : forall C (src : gen C S) k k', (forall c, sim (k c) (k' c)) -> sim (gflat src k) (gflat src k').
  Proof.
    intros C. fix IH 1. intros [n] k k' H. apply sim_intro. intro s. cbn. destruct (n s) as [[[[c g']|]|e] s1]; auto.
    apply sim_next. apply sim_app; auto.
  Qed.

  Lemma sim_drain : forall g h, sim g h -> forall s, drain h s = (let* l := drain g in ret (map f l)) s.
  Proof.
    fix IH 1. intros [n] [n'] H s. cbn in H. specialize (H s). cbn. unfold mbind at 2. destruct (n s) as [[[[a g']|]|e1] s1], (n' s) as [[[[b h']|]|e2] s2]; try contradiction.
    - destruct H as (-> & <- & H). unfold mbind. rewrite (IH g' h' H s1). unfold mbind, ret. destruct (drain g' s1) as [[l|e] s3]; reflexivity.
    - now subst.
    - destruct H as [-> ->]. reflexivity.
  Qed.
End Sim.

Lemma sim_comp_start : forall (P : py) A B (f : A -> B) (k : scope P -> M (state P) A) (k' : scope P -> M (state P) B) ev,
  (forall rho s, k' rho s = (let* a := k rho in ret (f a)) s) -> forall cs rho, sim_m f (comp_start ev k rho cs) (comp_start ev k' rho cs).
Proof.
  intros P A B f k k' ev H. assert (C : forall cs rho, sim f (comp ev k rho cs) (comp ev k' rho cs)).
  { induction cs as [|[[t it] ifs] cs IH]; intro rho; cbn [comp]; apply sim_lift; intro s.
    - unfold mbind, ret. rewrite H. unfold mbind, ret. destruct (k rho s) as [[a|e] s1]; auto. split; auto. apply sim_one.
    - unfold mbind, ret. destruct (ev rho it s) as [[v|e] s1]; auto. destruct (p_iter P v s1) as [[g|e] s2]; auto. split; auto. apply sim_flat. intro c. unfold body_of. apply sim_lift. intro s3.
      unfold mbind, ret. destruct (bind_target P t c s3) as [[bs|e] s4]; auto. destruct (all_true P (ev (bs ++ rho)) ifs s4) as [[ok|e] s5]; auto. split; auto. destruct ok; [apply IH|apply sim_nil]. }
  intros cs rho s. destruct cs as [|[[t it] ifs] cs]; cbn [comp_start]; unfold mbind, ret; [split; auto; apply sim_nil|].
  destruct (ev rho it s) as [[v|e] s1]; auto. destruct (p_iter P v s1) as [[g|e] s2]; auto. split; auto. apply sim_flat. intro c. unfold body_of. apply sim_lift. intro s3.
  unfold mbind, ret. destruct (bind_target P t c s3) as [[bs|e] s4]; auto. destruct (all_true P (ev (bs ++ rho)) ifs s4) as [[ok|e] s5]; auto. split; auto. destruct ok; [apply C|apply sim_nil].
Qed.

(** pairs of exactly two unstarred elements *)
Definition exact_pair (e : expr) : Prop := match e with Tuple [(false, _); (false, _)] | List [(false, _); (false, _)] => True | Tuple _ | List _ => False | _ => True end.
Definition element_of (e : expr) : expr := match e with GeneratorExp elt _ | ListComp elt _ => elt | _ => e end.

(** The comprehension means the same as the call, for a plain argument; for dict the elements must be
    written as pairs. *)
Theorem C57_comprehension : forall P rho tup lst flist ftuple fset fdict f x e',
  display_laws P rho tup lst flist ftuple fset fdict -> generator_laws P tup lst flist fset fdict ->
  (f = Name (u "dict") -> exact_pair (element_of x)) ->
  to_comprehension (Call f [plain_arg x]) = Ok (Some (Some e')) -> same_meaning P rho (Call f [plain_arg x]) e'.
Proof.
  intros P rho tup lst flist ftuple fset fdict f x e' D G Ex H s. unfold to_comprehension, plain_arg in H. destruct f as [n| | | | | | | | | | | | | | | | | | | | |]; try discriminate.
  assert (HH : exists elt cs, (x = GeneratorExp elt cs \/ x = ListComp elt cs) /\
    (if str_eqb n (u "list") then Ok (fix_with (ListComp elt cs)) else if str_eqb n (u "set") then Ok (fix_with (SetComp elt cs)) else if str_eqb n (u "dict") then
        match elt with Tuple es | List es => match es with (_, k) :: (_, v) :: _ => Ok (fix_with (DictComp k v cs)) | _ => Err IndexError end | _ => Ok None end else Ok None) = Ok (Some (Some e'))).
  { destruct x; try discriminate; eauto. }
  clear H. destruct HH as (elt & cs & X & H).
  assert (El : element_of x = elt) by (destruct X as [-> | ->]; reflexivity).
  (* what the argument is *)
  assert (EvG : forall F (fin : list (value P) -> M (state P) (value P)),
    (forall g s, p_call P F [p_generator P g] [] s = (let* vs := drain g in fin vs) s) -> (forall vs s, p_call P F [lst vs] [] s = fin vs s) ->
    forall s, (let* v := eval P rho x in p_call P F [v] []) s = (let* g := comp_start (eval P) (fun rho => eval P rho elt) rho cs in let* vs := drain g in fin vs) s).
  { intros F fin Hg Hl s0. destruct X as [-> | ->]; cbn [eval]; rewrite mbind_assoc; (apply mbind_ext; [reflexivity|]); intros g s1.
    - unfold mbind at 1. unfold ret. apply Hg.
    - rewrite mbind_assoc. apply mbind_ext; auto. intros vs s2. unfold mbind. rewrite (d_lst _ _ _ _ _ _ _ _ D). apply Hl. }
  destruct (str_eqb n (u "list")) eqn:E1.
  { apply str_eqb_eq in E1. subst n. injection H as <-. rewrite (call_name1 P rho _ _ x s (d_list _ _ _ _ _ _ _ _ D)). cbn [eval]. apply EvG; [apply (list_gen _ _ _ _ _ _ G)|].
    intros vs s0. rewrite (d_lst _ _ _ _ _ _ _ _ D). apply (list_of _ _ _ _ _ _ _ _ D). }
  destruct (str_eqb n (u "set")) eqn:E2.
  { apply str_eqb_eq in E2. subst n. injection H as <-. rewrite (call_name1 P rho _ _ x s (d_set _ _ _ _ _ _ _ _ D)). cbn [eval]. apply EvG; [apply (set_gen _ _ _ _ _ _ G)|].
    intros vs s0. apply (set_of _ _ _ _ _ _ _ _ D). }
  destruct (str_eqb n (u "dict")) eqn:E3; [|discriminate]. apply str_eqb_eq in E3. subst n. rewrite (call_name1 P rho _ _ x s (d_dict _ _ _ _ _ _ _ _ D)).
  rewrite (EvG fdict (fun vs => p_call P fdict [lst vs] []) (dict_gen _ _ _ _ _ _ G) (fun _ _ => eq_refl)).
  assert (Fin : forall k v mk, (mk = tup \/ mk = lst) -> (forall rho s, eval P rho elt s = (let* a := eval P rho k in let* b := eval P rho v in ret (mk [a; b])) s) ->
    (let* g := comp_start (eval P) (fun rho => eval P rho elt) rho cs in let* vs := drain g in p_call P fdict [lst vs] []) s = eval P rho (DictComp k v cs) s).
  { intros k v mk Mk Ev. cbn [eval].
    pose proof (sim_comp_start P (value P * value P)%type (value P) (fun ab => mk [fst ab; snd ab]) (fun rho => let* a := eval P rho k in let* b := eval P rho v in ret (a, b)) (fun rho => eval P rho elt) (eval P)) as SC.
    specialize (SC ltac:(intros r s0; cbv beta; rewrite Ev; unfold mbind, ret; destruct (eval P r k s0) as [[a|ex] s1]; auto; destruct (eval P r v s1) as [[b|ex] s2]; auto) cs rho s).
    unfold mbind at 1. unfold mbind at 2. destruct (comp_start (eval P) (fun rho => let* a := eval P rho k in let* b := eval P rho v in ret (a, b)) rho cs s) as [[g|ex1] s1],
      (comp_start (eval P) (fun rho => eval P rho elt) rho cs s) as [[h|ex2] s2]; try contradiction; [|now destruct SC as [-> ->]].
    destruct SC as [<- SC]. unfold mbind at 1. rewrite (sim_drain _ _ _ SC s1). unfold mbind, ret. destruct (drain g s1) as [[kvs|ex] s3]; auto.
    apply (dict_of _ _ _ _ _ _ _ _ D). clear - Mk. induction kvs as [|kv kvs IH]; cbn; constructor; auto. destruct Mk as [-> | ->]; auto. }
  specialize (Ex eq_refl). rewrite El in Ex. destruct elt; try discriminate; cbn in Ex; destruct es as [|[[] k] [|[[] v] [|]]]; try contradiction; injection H as <-.
  - apply Fin with (mk := tup); auto. intros r s0. cbn [eval elements]. unfold mbind, ret. destruct (eval P r k s0) as [[a|ex] s1]; auto. destruct (eval P r v s1) as [[b|ex] s2]; auto. apply (d_tup _ _ _ _ _ _ _ _ D).
  - apply Fin with (mk := lst); auto. intros r s0. cbn [eval elements]. unfold mbind, ret. destruct (eval P r k s0) as [[a|ex] s1]; auto. destruct (eval P r v s1) as [[b|ex] s2]; auto. apply (d_lst _ _ _ _ _ _ _ _ D).
Qed.

(** Elements with more than two items: the call fails, the comprehension does not. *)
Theorem C57_triples_refuted : ~ (forall P rho tup lst flist ftuple fset fdict x e',
  display_laws P rho tup lst flist ftuple fset fdict -> generator_laws P tup lst flist fset fdict ->
  to_comprehension (Call (Name (u "dict")) [plain_arg x]) = Ok (Some (Some e')) -> same_meaning P rho (Call (Name (u "dict")) [plain_arg x]) e').
Proof.
  intro H. set (n := Name (u "n")).
  specialize (H _ _ _ _ _ _ _ _ (GeneratorExp (Tuple [(false, n); (false, n); (false, n)]) [(n, List [(false, Number (u "1"))], [])]) _ (toy_display some_globals) (toy_generator some_globals) eq_refl []).
  vm_compute in H. discriminate.
Qed.
(** Elements with one item make the rule itself fail. *)
Theorem C57_crash_refuted : ~ (forall e, exists r, to_comprehension e = Ok r).
Proof. intro H. destruct (H (Call (Name (u "dict")) [plain_arg (GeneratorExp (Tuple [(false, Name (u "n"))]) [(Name (u "n"), Name (u "x"), [])])])) as [r R]. discriminate. Qed.

Theorem C57_once : forall e e', to_comprehension e = Ok (Some (Some e')) -> to_comprehension e' = Ok None.
Proof.
  intros e e' H. destruct e as [| | | | | | |f args| | | | | | | | | | | | | |]; try discriminate. unfold to_comprehension in H. destruct f as [n| | | | | | | | | | | | | | | | | | | | |]; try discriminate.
  destruct args as [|[[? ?] x] [|]]; try discriminate; destruct x; try discriminate;
    (destruct (str_eqb n (u "list")); [injection H as <-; reflexivity|]; destruct (str_eqb n (u "set")); [injection H as <-; reflexivity|]; destruct (str_eqb n (u "dict")); [|discriminate];
     destruct x; try discriminate; destruct es as [|[? ?] [|[? ?] ?]]; try discriminate; injection H as <-; reflexivity).
Qed.
Example C57_example : let n := Name (u "n") in let cs := [(n, Name (u "x"), [Name (u "y")])] in
  to_comprehension (Call (Name (u "dict")) [plain_arg (ListComp (Tuple [(false, n); (false, Number (u "1"))]) cs)]) = Ok (Some (Some (DictComp n (Number (u "1")) cs))) /\
  exact_pair (Tuple [(false, n); (false, Number (u "1"))]).
Proof. split; [reflexivity|exact I]. Qed.

(** ** C58 *)

Lemma quiet_drain : forall A S (s : S) (g : gen A S) l, quiet s g l -> drain g s = (Ok l, s).
Proof. intros A S s g l Q. induction Q as [[n] H|[n] a g' l H Q IH]; cbn in *; rewrite H; auto. unfold mbind, ret. now rewrite IH. Qed.
Lemma quiet_search : forall (P : py) stop (s : state P) g l, quiet s g l -> (forall v, List.In v l -> exists b, p_truth P v s = (Ok b, s)) -> search stop g s = search stop (of_list l) s.
Proof.
  intros P stop s g l Q. induction Q as [[n] H|[n] a g' l H Q IH]; intro T; cbn in *; rewrite H; auto. unfold mbind. destruct (T a (or_introl eq_refl)) as [b Hb]. rewrite Hb.
  destruct (Bool.eqb b stop); auto.
Qed.

(** any and all give the same for a list and for a generator if going through the elements has no effect
    and fails nowhere. *)
Theorem C58_any_all : forall P rho lst fany fall f elt cs e' s s1 g l, search_laws P rho lst fany fall ->
  list_comprehension (Call f [plain_arg (ListComp elt cs)]) = Some (Some e') ->
  comp_start (eval P) (fun rho => eval P rho elt) rho cs s = (Ok g, s1) ->
  quiet s1 g l -> (forall v, List.In v l -> exists b, p_truth P v s1 = (Ok b, s1)) ->
  eval P rho (Call f [plain_arg (ListComp elt cs)]) s = eval P rho e' s.
Proof.
  intros P rho lst fany fall f elt cs e' s s1 g l L H C Q T. unfold list_comprehension, plain_arg in H. destruct f as [n| | | | | | | | | | | | | | | | | | | | |]; try discriminate.
  destruct (str_eqb n (u "all") || str_eqb n (u "any")) eqn:E; [|discriminate]. injection H as <-. fold (plain_arg (GeneratorExp elt cs)).
  assert (K : forall F stop, (forall v s, p_call P F [v] [] s = (let* g := p_iter P v in search stop g) s) ->
    (let* v := eval P rho (ListComp elt cs) in p_call P F [v] []) s = (let* v := eval P rho (GeneratorExp elt cs) in p_call P F [v] []) s).
  { intros F stop HF. cbn [eval]. unfold mbind. rewrite C. unfold ret. rewrite HF, (quiet_drain _ _ _ _ _ Q), (s_lst _ _ _ _ _ L), HF. unfold mbind. rewrite (iter_list _ _ _ _ _ L), (iter_gen _ _ _ _ _ L).
    symmetry. now apply quiet_search. }
  change (eval P rho (Call (Name n) [plain_arg (ListComp elt cs)]) s = eval P rho (Call (Name n) [plain_arg (GeneratorExp elt cs)]) s).
  apply orb_true_iff in E. destruct E as [E|E]; apply str_eqb_eq in E; subst n.
  - rewrite !(call_name1 P rho _ _ _ s (s_all _ _ _ _ _ L)). apply (K _ false). apply (all_of _ _ _ _ _ L).
  - rewrite !(call_name1 P rho _ _ _ s (s_any _ _ _ _ _ L)). apply (K _ true). apply (any_of _ _ _ _ _ L).
Qed.
(** In general it is not the same: an element after the first true one that fails no longer does. *)
Theorem C58_failure_refuted : ~ (forall P rho lst fany fall e e', search_laws P rho lst fany fall -> list_comprehension e = Some (Some e') -> same_meaning P rho e e').
Proof.
  intro H. set (n := Name (u "n")).
  specialize (H _ _ _ _ _ (Call (Name (u "any")) [plain_arg (ListComp (BoolOp n Or (Call (Name (u "boom")) [plain_arg n])) [(n, List [(false, Number (u "1")); (false, Number (u "0"))], [])])]) _ (toy_search some_globals) eq_refl []).
  vm_compute in H. discriminate.
Qed.
Theorem C58_once : forall e e', list_comprehension e = Some (Some e') -> list_comprehension e' = None.
Proof.
  intros e e' H. destruct e as [| | | | | | |f args| | | | | | | | | | | | | |]; try discriminate. destruct f as [n| | | | | | | | | | | | | | | | | | | | |]; try discriminate.
  destruct args as [|[[? ?] x] [|]]; try discriminate; destruct x; try discriminate. unfold list_comprehension in H. destruct (str_eqb n (u "all") || str_eqb n (u "any")); [|discriminate]. injection H as <-. reflexivity.
Qed.
Example C58_example : let n := Name (u "n") in let cs := [(n, List [(false, Number (u "0")); (false, Number (u "1"))], [])] in
  list_comprehension (Call (Name (u "any")) [plain_arg (ListComp n cs)]) = Some (Some (Call (Name (u "any")) [plain_arg (GeneratorExp n cs)])) /\
  exists g, comp_start (eval (toy some_globals)) (fun rho => eval (toy some_globals) rho n) [] cs [] = (Ok g, []) /\ quiet ([] : state (toy some_globals)) g [TInt 0; TInt 1].
Proof.
  split; [reflexivity|]. eexists. split; [reflexivity|]. eapply Q_cons; [reflexivity|]. eapply Q_cons; [reflexivity|]. apply Q_nil. reflexivity.
Qed.

(** ** C60 *)

Lemma unbrace_2 : forall c d s, unbrace (c :: d :: s) = if (((c =? 123) || (c =? 125)) && (c =? d))%N then c :: unbrace s else c :: unbrace (d :: s).
Proof. reflexivity. Qed.
Lemma replace2_2 : forall a b new c d s, replace2 a b new (c :: d :: s) = if ((c =? a) && (d =? b))%N then new ++ replace2 a b new s else c :: replace2 a b new (d :: s).
Proof. reflexivity. Qed.

Lemma two_induction : forall A (Q : list A -> Prop), Q [] -> (forall a, Q [a]) -> (forall a b l, Q l -> Q (b :: l) -> Q (a :: b :: l)) -> forall l, Q l.
Proof.
  intros A Q H0 H1 H2 l. assert (K : Q l /\ forall a, Q (a :: l)). { induction l as [|x l [I1 I2]]; [split; auto|]. split; auto. } tauto.
Qed.

(** Replacing {{ first and }} then is what Python does from left to right. *)
Lemma replace_first : forall a new d s, new = [a] -> exists r, replace2 a a new (d :: s) = d :: r.
Proof.
  intros a new d s ->. destruct s as [|e s]; [cbn; eauto|]. rewrite replace2_2. destruct ((d =? a) && (e =? a))%N eqn:E; [|eauto].
  apply andb_true_iff in E. destruct E as [E _]. apply N.eqb_eq in E. subst. cbn [app]. eauto.
Qed.
Theorem C60_text : forall s, unbrace s = replace2 125 125 [125%N] (replace2 123 123 [123%N] s).
Proof.
  apply two_induction; [reflexivity|reflexivity|]. intros c d s I1 I2. rewrite unbrace_2, replace2_2.
  destruct (N.eqb_spec c 123) as [->|Nc].
  - destruct (N.eqb_spec d 123) as [->|Nd].
    + cbn [andb orb N.eqb Pos.eqb app]. rewrite I1. destruct (replace2 123 123 [123%N] s) as [|e r]; [reflexivity|]. rewrite replace2_2. reflexivity.
    + rewrite (N.eqb_sym 123 d). apply N.eqb_neq in Nd. rewrite Nd, andb_false_r. cbn [andb]. rewrite I2. destruct (replace_first 123 [123%N] d s eq_refl) as [r ->]. rewrite replace2_2. reflexivity.
  - cbn [orb andb]. destruct (N.eqb_spec c 125) as [->|Nc2].
    + destruct (N.eqb_spec 125 d) as [<-|Nd].
      * cbn [andb]. rewrite I1. destruct s as [|e s].
        { reflexivity. }
        rewrite (replace2_2 123 123 [123%N] 125 e s). change (replace2 125 125 [125%N] (125%N :: ?x)) with (replace2 125 125 [125%N] (125%N :: x)).
        cbn [N.eqb Pos.eqb andb]. rewrite replace2_2. cbn [N.eqb Pos.eqb andb app]. reflexivity.
      * cbn [andb]. rewrite I2. destruct (replace_first 123 [123%N] d s eq_refl) as [r ->]. rewrite replace2_2. rewrite (N.eqb_sym d 125). apply N.eqb_neq in Nd. rewrite Nd, andb_false_r. reflexivity.
    + cbn [andb]. rewrite I2. destruct (replace_first 123 [123%N] d s eq_refl) as [r ->]. rewrite (replace2_2 125 125 [125%N] c d r). apply N.eqb_neq in Nc2. rewrite Nc2. reflexivity.
Qed.

(** Without doubled braces there is nothing to replace. *)
Lemma split2_one : forall a b s, has2 a b s = false -> split2 a b s = [s].
Proof.
  intros a b. apply (two_induction _ (fun s => has2 a b s = false -> split2 a b s = [s])); [reflexivity|reflexivity|].
  intros c d s I1 I2 H. unfold has2 in *. change (split2 a b (c :: d :: s)) with (if ((c =? a) && (d =? b))%N then [] :: split2 a b s else match split2 a b (d :: s) with t :: ts => (c :: t) :: ts | [] => [[c]] end) in *.
  assert (Ne : forall s, split2 a b s <> []).
  { clear. apply (two_induction _ (fun s => split2 a b s <> [])); try (cbn; discriminate). intros c d s I1 I2.
    change (split2 a b (c :: d :: s)) with (if ((c =? a) && (d =? b))%N then [] :: split2 a b s else match split2 a b (d :: s) with t :: ts => (c :: t) :: ts | [] => [[c]] end).
    destruct ((c =? a) && (d =? b))%N; [discriminate|]. destruct (split2 a b (d :: s)); discriminate. }
  destruct ((c =? a) && (d =? b))%N.
  - specialize (Ne s). destruct (split2 a b s); [congruence|]. discriminate.
  - destruct (split2 a b (d :: s)) as [|t ts] eqn:E; [now apply Ne in E|]. assert (t :: ts = [d :: s]) as X by (apply I2; exact H). injection X as -> ->. reflexivity.
Qed.
Lemma replace2_none : forall a b new s, has2 a b s = false -> replace2 a b new s = s.
Proof.
  intros a b new. apply (two_induction _ (fun s => has2 a b s = false -> replace2 a b new s = s)); [reflexivity|reflexivity|]. intros c d s I1 I2 H. rewrite replace2_2.
  apply split2_one in H. change (split2 a b (c :: d :: s)) with (if ((c =? a) && (d =? b))%N then [] :: split2 a b s else match split2 a b (d :: s) with t :: ts => (c :: t) :: ts | [] => [[c]] end) in H.
  destruct ((c =? a) && (d =? b))%N; [discriminate|]. f_equal. apply I2. unfold has2. destruct (split2 a b (d :: s)) as [|t ts]; [discriminate|]. injection H as -> ->. reflexivity.
Qed.

Lemma lower_has_without_f : forall c p, c = 98%N \/ c = 114%N -> lower_has c (without_f p) = lower_has c p.
Proof.
  intros c p H. unfold lower_has, without_f. induction p as [|x p IH]; [reflexivity|]. cbn [filter existsb]. destruct ((x =? 102) || (x =? 70))%N eqn:E; cbn [negb existsb].
  - rewrite IH. assert (((x =? c) || (x + 32 =? c))%N = false) as ->; [|reflexivity]. apply orb_true_iff in E. destruct E as [E|E]; apply N.eqb_eq in E; subst x; destruct H as [-> | ->]; reflexivity.
  - now rewrite IH.
Qed.

(** The string without the prefix f is the same text, whatever its braces. *)
Theorem C60_same : forall P rho e e', redundant_fstring e = Some (Some e') -> (forall p q ps, e = FString p q ps -> is_bytes p = false) -> same_meaning P rho e e'.
Proof.
  intros P rho e e' H B s. destruct e as [| | | |p q parts| | | | | | | | | | | | | | | | |]; try discriminate. specialize (B p q parts eq_refl). destruct parts as [|[t|x] [|]]; try discriminate.
  cbn [redundant_fstring] in H. injection H as <-. cbn [eval mapM]. unfold is_bytes, is_raw in *. rewrite !lower_has_without_f by auto. rewrite B.
  assert (E : (if has2 123 123 t || has2 125 125 t then replace2 125 125 [125%N] (replace2 123 123 [123%N] t) else t) = unbrace t).
  { rewrite C60_text. destruct (has2 123 123 t) eqn:H1; [reflexivity|]. rewrite (replace2_none 123 123 _ t H1). destruct (has2 125 125 t) eqn:H2; [reflexivity|]. now rewrite replace2_none. }
  rewrite E. unfold mbind, ret. destruct (p_text P (lower_has 114 p) (unbrace t) s) as [[x|ex] s1]; auto. cbn [concat]. now rewrite app_nil_r.
Qed.
(** Only strings without expressions are reported, and no replacement is reported again. *)
Theorem C60_reported : forall e, redundant_fstring e <> None <-> exists p q t, e = FString p q [inl t].
Proof.
  intro e. split.
  - intro H. destruct e as [| | | |p q parts| | | | | | | | | | | | | | | | |]; try (exfalso; apply H; reflexivity). destruct parts as [|[t|x] [|]]; try (exfalso; apply H; reflexivity). eauto.
  - intros (p & q & t & ->). discriminate.
Qed.
Theorem C60_once : forall e e', redundant_fstring e = Some (Some e') -> redundant_fstring e' = None.
Proof.
  intros e e' H. destruct e as [| | | |p q parts| | | | | | | | | | | | | | | | |]; try discriminate. destruct parts as [|[t|x] [|]]; try discriminate. injection H as <-. reflexivity.
Qed.
Example C60_example : redundant_fstring (FString (u "rF") [39%N] [inl (u "a{{b}}c}}}}")]) = Some (Some (SimpleString (u "r") [39%N] (u "a{b}c}}"))).
Proof. vm_compute. reflexivity. Qed.
