(** * Test cases of rules (C45) and rule classes (C46) *)
From Coq Require Import String Ascii List NArith ZArith Bool Arith Lia.
From Coq Require Import Decimal DecimalString DecimalZ.
From Verif Require Import Base PyStr Ftypes Suppress Cst Engine EngineProps Cli Testing TestingSpec.
Import ListNotations.

(** ** Names *)
Lemma u_inj : forall a b, u a = u b -> a = b.
Proof.
  induction a as [|x a IH]; intros [|y b] H; try discriminate; auto. unfold u in H. cbn [list_ascii_of_string map] in H. injection H as H1 H2.
  f_equal; [|now apply IH]. apply (f_equal ascii_of_N) in H1. now rewrite !ascii_N_embedding in H1.
Qed.

Lemma dec_inj : forall a b, dec a = dec b -> a = b.
Proof.
  intros a b H. unfold dec in H. apply u_inj in H.
  assert (K : forall z, Z.to_int z <> Decimal.Pos Nil /\ Z.to_int z <> Decimal.Neg Nil).
  { intros [|p|p]; cbn; split; try discriminate; intro X; injection X as X.
    - apply (DecimalPos.Unsigned.to_uint_nonnil p X).
    - apply (DecimalPos.Unsigned.to_uint_nonnil p X). }
  apply (f_equal NilZero.int_of_string) in H. destruct (K a), (K b). rewrite !NilZero.isi in H by auto. injection H as H.
  apply (f_equal Z.of_int) in H. now rewrite !DecimalZ.of_to in H.
Qed.

Lemma name_inj : forall k i j, name_of k i = name_of k j -> i = j.
Proof. intros k i j H. unfold name_of in H. repeat apply app_inv_head in H. apply dec_inj in H. lia. Qed.
Lemma name_kind : forall i j, name_of (u "VALID") i <> name_of (u "INVALID") j.
Proof. intros i j H. discriminate H. Qed.

(** ** Dictionaries built from new keys *)
Lemma dset_new : forall V k (v : V) d, ~ In k (dkeys d) -> dset k v d = d ++ [(k, v)].
Proof.
  induction d as [|[k' v'] d IH]; intro N; [reflexivity|]. cbn in *. destruct (str_eqb k k') eqn:E.
  - apply str_eqb_eq in E. subst. exfalso. auto.
  - rewrite IH; auto.
Qed.

Lemma dupdate_new : forall V (b a : dict V), NoDup (dkeys a ++ dkeys b) -> dupdate a b = a ++ b.
Proof.
  unfold dupdate. induction b as [|[k v] b IH]; intros a N; [now rewrite app_nil_r|]. cbn [fold_left fst snd].
  assert (K : ~ In k (dkeys a)). { intro I. cbn in N. apply NoDup_remove_2 in N. apply N. apply in_app_iff. auto. }
  rewrite dset_new by auto. rewrite IH.
  - now rewrite <- app_assoc.
  - unfold dkeys in *. rewrite map_app. cbn in *. rewrite <- app_assoc. exact N.
Qed.

Definition named {C} (kind : str) (f : C -> tcase) (i : nat) (cs : list C) : dict tcase :=
  map (fun ic => (name_of kind (fst ic), f (snd ic))) (enum i cs).

Lemma named_keys : forall C kind (f : C -> tcase) cs i x, In x (dkeys (named kind f i cs)) -> exists j, i <= j /\ x = name_of kind j.
Proof.
  induction cs as [|c cs IH]; intros i x H; [contradiction|]. destruct H as [<-|H]; [exists i; auto|].
  destruct (IH (S i) x H) as (j & A & B). exists j. split; auto. lia.
Qed.
Lemma named_nodup : forall C kind (f : C -> tcase) cs i, NoDup (dkeys (named kind f i cs)).
Proof.
  induction cs as [|c cs IH]; intro i; [constructor|]. cbn. constructor; [|apply IH]. intro H. apply named_keys in H.
  destruct H as (j & A & B). apply name_inj in B. lia.
Qed.
Lemma named_length : forall C kind (f : C -> tcase) cs i, List.length (named kind f i cs) = List.length cs.
Proof. induction cs as [|c cs IH]; intro i; cbn; auto. f_equal. apply IH. Qed.
Lemma named_get : forall C kind (f : C -> tcase) cs i n c, nth_error cs n = Some c -> In (name_of kind (i + n), f c) (named kind f i cs).
Proof.
  induction cs as [|x cs IH]; intros i [|n] c H; try discriminate; cbn in *.
  - injection H as <-. rewrite Nat.add_0_r. auto.
  - right. replace (i + S n) with (S i + n) by lia. now apply IH.
Qed.
Lemma named_snd : forall C kind (f : C -> tcase) cs i, map snd (named kind f i cs) = map f cs.
Proof. induction cs as [|c cs IH]; intro i; cbn; auto. f_equal. apply IH. Qed.

Lemma add_cases_named : forall C kind (f : C -> tcase) cs, add_cases kind f cs = named kind f 0 cs.
Proof.
  intros C kind f cs. unfold add_cases.
  transitivity (dupdate [] (named kind f 0 cs)).
  - unfold dupdate, named. generalize (@nil (str * tcase)). induction (enum 0 cs) as [|x l IH]; intro d; cbn; auto.
  - rewrite dupdate_new; auto. cbn. apply named_nodup.
Qed.

(** One test per case, named by kind and index, all names different. *)
Theorem C45_methods : forall k vs is, k_valid k = Some vs -> k_invalid k = Some is ->
  exists d, gen_test_methods k = Ok d /\ NoDup (dkeys d) /\ map snd d = map of_vcase vs ++ map of_icase is /\
    (forall i c, nth_error vs i = Some c -> dget (u "test_VALID_" ++ dec (Z.of_nat i)) d = Some (of_vcase c)) /\
    (forall i c, nth_error is i = Some c -> dget (u "test_INVALID_" ++ dec (Z.of_nat i)) d = Some (of_icase c)).
Proof.
  intros k vs is V I. unfold gen_test_methods. rewrite V, I. eexists. split; [reflexivity|].
  rewrite !add_cases_named. set (a := named (u "VALID") of_vcase 0 vs). set (b := named (u "INVALID") of_icase 0 is).
  assert (N : NoDup (dkeys a ++ dkeys b)).
  { assert (Na := named_nodup _ (u "VALID") of_vcase vs 0). assert (Nb := named_nodup _ (u "INVALID") of_icase is 0). fold a in Na. fold b in Nb.
    assert (Di : forall x, In x (dkeys a) -> ~ In x (dkeys b)).
    { intros x A B. apply named_keys in A, B. destruct A as (i & _ & ->), B as (j & _ & B). now apply name_kind in B. }
    clear - Na Nb Di. induction (dkeys a) as [|x l IH]; cbn; auto. inversion Na; subst. constructor.
    - rewrite in_app_iff. intros [X|X]; auto. apply (Di x); simpl; auto.
    - apply IH; auto. intros y Y. apply Di. simpl. auto. }
  rewrite dupdate_new by exact N. assert (Nd : NoDup (dkeys (a ++ b))) by (unfold dkeys in *; now rewrite map_app).
  split; [exact Nd|]. split; [rewrite map_app; unfold a, b; now rewrite !named_snd|].
  split; intros i c H; apply dget_in_nodup; auto; apply in_app_iff.
  - left. change (u "test_VALID_" ++ dec (Z.of_nat i)) with (name_of (u "VALID") (0 + i)). now apply named_get.
  - right. change (u "test_INVALID_" ++ dec (Z.of_nat i)) with (name_of (u "INVALID") (0 + i)). now apply named_get.
Qed.

(** A rule without one of the lists cannot be tested, nor can the rules tested with it. *)
Theorem C45_no_lists : forall st rules r i, In r rules -> nth_error st r = Some i ->
  k_valid (i_class i) = None \/ k_invalid (i_class i) = None -> generate st rules = Err AttributeError.
Proof.
  intros st rules r i I N H.
  assert (K : forall rules e, generate st rules = Err e -> e = AttributeError).
  { clear. induction rules as [|x rules IH]; intros e E; cbn [generate] in E; [discriminate|]. destruct (nth_error st x) as [ix|]; [|congruence].
    unfold gen_test_methods in E. destruct (k_valid (i_class ix)); [|cbn in E; congruence]. destruct (k_invalid (i_class ix)); [|cbn in E; congruence].
    cbn [bind] in E. destruct (generate st rules) as [cs|e']; [discriminate|]. cbn in E. injection E as <-. auto. }
  cut (exists e, generate st rules = Err e); [intros (e & E); rewrite E; f_equal; eauto|]. clear K. revert I N H.
  induction rules as [|x rules IH]; intros I N H; [contradiction|]. cbn [generate].
  destruct (nth_error st x) as [ix|] eqn:E; [|eauto]. destruct (Nat.eq_dec x r) as [->|Nx].
  - rewrite N in E. injection E as <-. unfold gen_test_methods. destruct H as [H|H].
    + rewrite H. cbn. eauto.
    + rewrite H. destruct (k_valid (i_class i)); cbn; eauto.
  - destruct I as [I|I]; [contradiction|]. destruct (IH I N H) as (e & ->). destruct (gen_test_methods (i_class ix)); cbn; eauto.
Qed.

(** ** Whether a test passes *)
Lemma read_as_iff : forall L src code, read_as L src code <-> code = dedent L src.
Proof.
  intros L src code. unfold read_as, dedent. destruct src as [|c s].
  - split; [intros [(s & X & _)|[_ X]]; [discriminate|exact X]|]. intro X. right. split; auto. intros s Y. discriminate.
  - destruct (N.eqb_spec c 10) as [->|N].
    + split; [intros [(s' & X & Y)|[X _]]; [injection X as <-; exact Y|exfalso; exact (X s eq_refl)]|]. intro X. left. eauto.
    + split; [intros [(s' & X & _)|[_ X]]; [congruence|exact X]|]. intro X. right. split; auto. intros s' Y. congruence.
Qed.

Lemma yield_all_ok : forall udiff md name vs m c, (forall v, In v vs -> applicable md v) ->
  exists evs m' c', yield_all udiff md name vs m c = (evs, Ok (m', c')).
Proof.
  intros udiff md name. induction vs as [|v vs IH]; intros m c A; cbn [yield_all]; [eauto|].
  assert (A' : forall w, In w vs -> applicable md w) by (intros; apply A; simpl; auto).
  assert (Go : forall v m, exists evs m' c', (let (evs, r) := yield_all udiff md name vs m (S c) in (Yield v :: evs, r)) = (evs, Ok (m', c'))).
  { intros v' m1. destruct (IH m1 (S c) A') as (evs & m' & c' & ->). eauto. }
  destruct (v_replacement v) as [r|] eqn:R; [|apply Go]. destruct (truthy_repl (Some r)) eqn:T; [|apply Go].
  destruct (A v (or_introl eq_refl)) as (md' & E); [unfold autofixable; now rewrite R|].
  assert (D : diff_violation udiff md (v_node v) r = Ok (udiff (code md) (code md'))).
  { unfold diff_violation, deep_replace. unfold apply_replacements in E. rewrite (replacements_one v r R T) in E. rewrite E. reflexivity. }
  rewrite D. apply Go.
Qed.

Lemma collect_one : forall udiff md (r : rule), (forall v, In v (r_violations r) -> applicable md v) ->
  exists evs n, collect_violations udiff md (Ok ([r], [])) false = (evs, Ok n).
Proof.
  intros udiff md r A. unfold collect_violations. cbn [yield_rules]. destruct (yield_all_ok udiff md (r_name r) (r_violations r)
    (dset (fix_key (r_name r)) 0 (dset (count_key (r_name r)) (List.length (r_violations r)) [])) 0 A) as (evs & m' & c' & ->). eauto.
Qed.

Lemma delivered_same : forall udiff md vs rs, Forall2 (delivered udiff md) vs rs ->
  replacements rs = replacements vs /\ map (@v_range BinNums.N repl) rs = map (@v_range BinNums.N repl) vs /\ map (@v_message BinNums.N repl) rs = map (@v_message BinNums.N repl) vs /\
  List.length rs = List.length vs.
Proof.
  intros udiff md vs rs F.
  assert (K : Forall2 (fun v w => v_replacement w = v_replacement v /\ v_node w = v_node v /\ v_range w = v_range v /\ v_message w = v_message v) vs rs).
  { induction F as [|v w vs rs D F IH]; constructor; auto. unfold delivered in D. destruct (autofixable v); [destruct D as (md' & _ & ->)|subst w]; cbn; auto. }
  split; [|split; [|split]].
  - unfold replacements. generalize (fun _ : N => @None repl). clear F. induction K as [|v w vs rs (A & B & _) K IH]; intro d; [reflexivity|]. cbn [fold_left].
    replace (set_repl d w) with (set_repl d v); [apply IH|]. unfold set_repl, autofixable. now rewrite A, B.
  - clear F. induction K as [|v w vs rs (_ & _ & A & _) K IH]; cbn; congruence.
  - clear F. induction K as [|v w vs rs (_ & _ & _ & A) K IH]; cbn; congruence.
  - now apply Forall2_length in K.
Qed.

Lemma range_eqb_eq : forall a b, range_eqb a b = true <-> a = b.
Proof.
  intros [[a b] [c d]] [[a' b'] [c' d']]. unfold range_eqb. cbn. rewrite !andb_true_iff, !Z.eqb_eq. split; [intros [[[-> ->] ->] ->]; auto|].
  intro H. injection H. auto.
Qed.

Lemma expected_iff : forall i v, expected i v = true <->
  (forall r, n_range i = Some r -> v_range v = r) /\ (forall m, n_message i = Some m -> v_message v = m).
Proof.
  intros i v. unfold expected. rewrite andb_true_iff. split.
  - intros [A B]. split; intros x E; rewrite E in *; [apply range_eqb_eq in A|apply str_eqb_eq in B]; auto.
  - intros [A B]. split; [destruct (n_range i)|destruct (n_message i)]; auto; [apply range_eqb_eq|apply str_eqb_eq]; symmetry; auto.
Qed.

(** The checks on the delivered reports. *)
Lemma check_iff : forall L md t vs rs, Forall2 (delivered (l_udiff L (is_valid t)) md) vs rs ->
  (forall i e v, t = TInvalid i -> n_replacement i = Some e -> vs = [v] -> autofixable v = true) ->
  (check L md t rs = Pass <-> as_expected L md t vs).
Proof.
  intros L md t vs rs F Si. destruct (delivered_same _ _ _ _ F) as (Er & Rg & Ms & Ln). unfold check, as_expected. destruct t as [c|i].
  - destruct vs, rs; try discriminate; split; auto; discriminate.
  - destruct rs as [|w rs].
    { destruct vs; [|discriminate]. split; [discriminate|]. intros [X _]. congruence. }
    assert (Nv : vs <> []) by (intros ->; discriminate).
    assert (Ex : forallb (expected i) (w :: rs) = true <-> forall v, In v vs -> (forall r, n_range i = Some r -> v_range v = r) /\ (forall m, n_message i = Some m -> v_message v = m)).
    { rewrite forallb_forall. split.
      - intros H v I. destruct (In_nth_error _ _ I) as (n & N).
        assert (Ew : exists x, nth_error (w :: rs) n = Some x). { destruct (nth_error (w :: rs) n) eqn:Q; eauto. apply nth_error_None in Q. assert (n < List.length vs) by (apply nth_error_Some; congruence). lia. }
        destruct Ew as (x & Ex). pose proof (map_nth_error (@v_range BinNums.N repl) _ _ Ex) as R1. rewrite Rg, (map_nth_error _ _ _ N) in R1. injection R1 as R1.
        pose proof (map_nth_error (@v_message BinNums.N repl) _ _ Ex) as R2. rewrite Ms, (map_nth_error _ _ _ N) in R2. injection R2 as R2.
        rewrite R1, R2. apply expected_iff. apply H. eapply nth_error_In; eauto.
      - intros H x I. destruct (In_nth_error _ _ I) as (n & N).
        assert (Ew : exists v, nth_error vs n = Some v). { destruct (nth_error vs n) eqn:Q; eauto. apply nth_error_None in Q. assert (n < List.length (w :: rs)) by (apply nth_error_Some; congruence). lia. }
        destruct Ew as (v & Ev). pose proof (map_nth_error (@v_range BinNums.N repl) _ _ N) as R1. rewrite Rg, (map_nth_error _ _ _ Ev) in R1. injection R1 as R1.
        pose proof (map_nth_error (@v_message BinNums.N repl) _ _ N) as R2. rewrite Ms, (map_nth_error _ _ _ Ev) in R2. injection R2 as R2.
        apply expected_iff. rewrite <- R1, <- R2. apply H. eapply nth_error_In; eauto. }
    assert (Ap : apply_replacements md (w :: rs) = apply_replacements md vs) by (unfold apply_replacements; now rewrite Er).
    assert (Cr : check_replacement L md i (w :: rs) = Pass <-> forall e, n_replacement i = Some e -> e <> [] ->
       exists md' b code, apply_replacements md vs = Ok (Some md') /\ l_bytes L md' = Ok b /\ l_decode L b = Ok code /\ read_as L e code).
    { unfold check_replacement. destruct (n_replacement i) as [[|c e]|] eqn:Nr.
      - split; auto. intros _ e X. injection X as <-. congruence.
      - rewrite Ap. assert (Di : check_diff L md (w :: rs) = Pass).
        { unfold check_diff. destruct rs as [|w2 rs]; auto. destruct vs as [|v [|v2 vs]]; try discriminate. clear Er Rg Ms Ln Nv Ex Ap. inversion F as [|? ? ? ? D _]; subst.
          pose proof (Si i _ v eq_refl Nr eq_refl) as Af. unfold delivered in D. rewrite Af in D. destruct D as (md' & E & ->). cbn [with_diff v_replacement v_node v_diff].
          unfold autofixable in Af. destruct (v_replacement v) as [r|] eqn:R; [|discriminate].
          unfold diff_violation, deep_replace. unfold apply_replacements in E. rewrite (replacements_one v r R Af) in E. rewrite E. cbn. now rewrite str_eqb_refl. }
        split.
        + intros H e' X _. injection X as <-. destruct (apply_replacements md vs) as [[md'|]|]; try discriminate. cbn in H.
          destruct (l_bytes L md') as [b|] eqn:Eb; try discriminate. cbn in H. destruct (l_decode L b) as [m|] eqn:Em; try discriminate. cbn in H.
          destruct (str_eqb (dedent L (c :: e)) m) eqn:Es; [|discriminate]. apply str_eqb_eq in Es. exists md', b, m. rewrite read_as_iff. auto.
        + intro H. destruct (H _ eq_refl) as (md' & b & code & E1 & E2 & E3 & E4); [discriminate|]. apply read_as_iff in E4. subst code. rewrite E1. cbn [or_error]. rewrite E2. cbn [or_error]. rewrite E3. cbn [or_error]. now rewrite str_eqb_refl.
      - split; auto. intros _ e X. discriminate. }
    destruct (forallb (expected i) (w :: rs)).
    + rewrite Cr. intuition.
    + split; [discriminate|]. intros (_ & X & _). apply Ex in X. discriminate.
Qed.

Lemma set_last : forall A (l : list A) x f, set_nth (List.length l) f (l ++ [x]) = l ++ [f x].
Proof. intros A l x f. unfold set_nth. rewrite firstn_app, Nat.sub_diag, firstn_all, skipn_app, Nat.sub_diag, skipn_all. cbn. now rewrite app_nil_r. Qed.

(** The outcome of a test depends on the class of the rule and the case only, and no instance that
    existed before is touched. *)
Lemma test_fresh : forall L st st' r r' i i' t, nth_error st r = Some i -> nth_error st' r' = Some i' -> i_class i = i_class i' ->
  fst (test_method L st t r) = fst (test_method L st' t r') /\ exists x, snd (test_method L st t r) = st ++ [x].
Proof.
  intros L st st' r r' i i' t N N' E. unfold test_method. rewrite N, N', <- E. unfold test_case.
  assert (Nn : forall s : store, nth_error (s ++ [Inst (i_class i) []]) (List.length s) = Some (Inst (i_class i) [])).
  { intro s. rewrite nth_error_app2, Nat.sub_diag by auto. reflexivity. }
  destruct (bind _ _) as [md|e]; cbn [fst snd]; [|eauto]. rewrite !Nn. cbn [i_class i_violations app].
  destruct (l_visit L (i_class i) md) as [vs|e]; cbn [fst snd]; [|eauto]. rewrite !set_last.
  destruct (collect_violations _ _ _ _) as [evs [n|e]]; cbn [fst snd]; eauto.
Qed.

(** A test passes exactly if a fresh rule reports what the case says. *)
Theorem C45_passes : forall L st r i t, nth_error st r = Some i -> single_fix L (i_class i) t ->
  (fst (test_method L st t r) = Pass <-> passes L (i_class i) t).
Proof.
  intros L st r i t N Si. unfold test_method. rewrite N. unfold test_case.
  assert (Nn : nth_error (st ++ [Inst (i_class i) []]) (List.length st) = Some (Inst (i_class i) [])).
  { rewrite nth_error_app2, Nat.sub_diag by auto. reflexivity. }
  assert (Cm : forall md, case_module L t md <-> bind (l_encode L (dedent L (case_code t))) (l_parse L) = Ok md).
  { intro md. unfold case_module. split.
    - intros (c0 & c & E0 & E1 & E2). apply read_as_iff in E0. subst c0. rewrite E1. exact E2.
    - intro H. apply bind_ok in H. destruct H as (c & E1 & E2). exists (dedent L (case_code t)), c. rewrite read_as_iff. auto. }
  destruct (bind _ _) as [md|e] eqn:B.
  2: { split; [discriminate|]. intros (md & vs & X & _). apply Cm in X. discriminate. }
  rewrite Nn. cbn [i_class i_violations app]. destruct (l_visit L (i_class i) md) as [vs|e] eqn:V.
  2: { split; [discriminate|]. intros (md' & vs & X & Y & _). apply Cm in X. injection X as <-. congruence. }
  cbv zeta. change ([] ++ vs) with vs. set (ri := RuleInst (trim_rule (k_name (i_class i))) (k_message (i_class i)) vs).
  assert (Md : case_module L t md) by (now apply Cm).
  destruct (collect_violations (l_udiff L (is_valid t)) md (Ok ([ri], [])) false) as [evs [n|e]] eqn:C.
  - pose proof (C25_complete _ _ _ _ _ _ _ C) as (F & _). unfold reported in F. cbn [flat_map ri r_violations] in F. rewrite app_nil_r in F.
    assert (Ye : yielded evs = yields evs) by (clear; induction evs as [|[v|m] evs IH]; cbn; auto; now f_equal). cbn [fst]. rewrite Ye. rewrite (check_iff L md t vs _ F).
    + split.
      * intro H. exists md, vs. split; auto. split; auto. split; auto. intros v I Af. destruct (In_nth_error _ _ I) as (k & Nk).
        clear - F Nk Af. revert k Nk. induction F as [|a b vs rs D F IH]; intros [|k] Nk; try discriminate; eauto. injection Nk as ->. unfold delivered in D. rewrite Af in D.
        destruct D as (md' & D & _). eauto.
      * intros (md' & vs' & X & Y & _ & Z). apply Cm in X. injection X as <-. rewrite V in Y. injection Y as <-. exact Z.
    + intros i0 e v -> Nr ->. eapply Si; eauto.
  - split; [discriminate|]. intros (md' & vs' & X & Y & A & _). apply Cm in X. injection X as <-. rewrite V in Y. injection Y as <-.
    destruct (collect_one (l_udiff L (is_valid t)) md ri A) as (evs' & n & C'). congruence.
Qed.

(** Every test gets a new instance: running tests one after the other gives what each gives alone. *)
Theorem C45_fresh : forall L st ts, (forall t r, In (t, r) ts -> r < List.length st) ->
  fst (run_tests L st ts) = map (fun tr => fst (test_method L st (fst tr) (snd tr))) ts /\
  firstn (List.length st) (snd (run_tests L st ts)) = st.
Proof.
  intros L st ts H.
  assert (K : forall ts more, (forall t r, In (t, r) ts -> r < List.length st) ->
    fst (run_tests L (st ++ more) ts) = map (fun tr => fst (test_method L st (fst tr) (snd tr))) ts /\
    firstn (List.length st) (snd (run_tests L (st ++ more) ts)) = st).
  { clear. induction ts as [|[t r] ts IH]; intros more H; cbn [run_tests].
    - split; auto. cbn. rewrite firstn_app, Nat.sub_diag, firstn_all. cbn. apply app_nil_r.
    - assert (L0 : r < List.length st) by (apply (H t r); simpl; auto). destruct (nth_error st r) as [i|] eqn:N; [|apply nth_error_None in N; lia].
      assert (N2 : nth_error (st ++ more) r = Some i) by (rewrite nth_error_app1; auto).
      destruct (test_fresh L (st ++ more) st r r i i t N2 N eq_refl) as [E (x & S)]. destruct (test_method L (st ++ more) t r) as [o st1]. cbn [fst snd] in *. subst st1 o.
      rewrite <- app_assoc. destruct (IH (more ++ [x])) as [I1 I2]; [intros; eapply H; simpl; eauto|].
      destruct (run_tests L (st ++ more ++ [x]) ts) as [os st2]. cbn [fst snd map] in *. split; [now rewrite I1|exact I2]. }
  specialize (K ts [] H). now rewrite app_nil_r in K.
Qed.

(** ** The test command *)
From Coq Require Import Permutation.

Lemma generate_ok : forall st rules cs, generate st rules = Ok cs ->
  Forall2 (fun r c => tc_rule c = r /\ exists i vs is, nth_error st r = Some i /\ k_valid (i_class i) = Some vs /\ k_invalid (i_class i) = Some is /\
    tc_name c = k_name (i_class i) /\ map snd (tc_tests c) = map of_vcase vs ++ map of_icase is) rules cs.
Proof.
  intros st. induction rules as [|r rules IH]; cbn [generate]; intros cs H; [injection H as <-; constructor|].
  destruct (nth_error st r) as [i|] eqn:E; [|discriminate]. apply bind_ok in H. destruct H as (d & D & H). apply bind_ok in H. destruct H as (rest & R & H). injection H as <-.
  constructor; [|auto]. split; [reflexivity|]. destruct (k_valid (i_class i)) as [vs|] eqn:V; [|unfold gen_test_methods in D; rewrite V in D; discriminate].
  destruct (k_invalid (i_class i)) as [is|] eqn:I; [|unfold gen_test_methods in D; rewrite V, I in D; discriminate].
  exists i, vs, is. destruct (C45_methods _ _ _ V I) as (d' & D' & _ & S & _). rewrite D in D'. injection D' as <-. auto.
Qed.

Lemma generate_total : forall st rules, (forall r, In r rules -> exists i vs is, nth_error st r = Some i /\ k_valid (i_class i) = Some vs /\ k_invalid (i_class i) = Some is) ->
  exists cs, generate st rules = Ok cs.
Proof.
  intros st. induction rules as [|r rules IH]; cbn [generate]; intro H; [eauto|]. destruct (H r) as (i & vs & is & N & V & I); [simpl; auto|]. rewrite N.
  destruct (C45_methods _ _ _ V I) as (d & -> & _). destruct IH as (rest & ->); [intros; apply H; simpl; auto|]. cbn. eauto.
Qed.

Lemma tests_of_in : forall st rules cs t r, generate st rules = Ok cs ->
  (In (t, r) (tests_of cs) <-> In r rules /\ exists i vs is, nth_error st r = Some i /\ k_valid (i_class i) = Some vs /\ k_invalid (i_class i) = Some is /\ In t (map of_vcase vs ++ map of_icase is)).
Proof.
  intros st rules cs t r G. apply generate_ok in G. unfold tests_of. induction G as [|r0 c rules cs (R & i & vs & is & N & V & I & _ & S) G IH]; cbn [flat_map].
  { split; [contradiction|]. intros [[] _]. }
  rewrite in_app_iff, IH. split.
  - intros [X|[X Y]].
    + apply in_map_iff in X. destruct X as ([n t'] & E & X). cbn in E. rewrite R in E. injection E as -> ->. split; [simpl; auto|]. exists i, vs, is. repeat (split; auto).
      rewrite <- S. apply (in_map snd) in X. exact X.
    + split; [simpl; auto|exact Y].
  - intros [X (i' & vs' & is' & N' & V' & I' & Y)]. destruct X as [<-|X]; [|right; split; eauto 9].
    left. rewrite N in N'. injection N' as <-. rewrite V in V'. injection V' as <-. rewrite I in I'. injection I' as <-. rewrite <- S in Y. apply in_map_iff in Y.
    destruct Y as (kv & <- & Y). rewrite R. apply (in_map (fun kv => (snd kv, r0))) in Y. exact Y.
Qed.

(** The command exits with 0 exactly if the rules can be found, each has both lists of cases, and
    every case passes, whatever the order of the tests. *)
Theorem C45_exit : forall L parse collect order names,
  (forall l, Permutation (order l) l) ->
  (forall qs ks k t, map_res parse names = Ok qs -> collect qs = Ok ks -> In k ks -> single_fix L k t) ->
  (test_command L parse collect order names = 0%Z <->
   exists qs ks, map_res parse names = Ok qs /\ collect qs = Ok ks /\
     forall k, In k ks -> exists vs is, k_valid k = Some vs /\ k_invalid k = Some is /\
       forall t, In t (map of_vcase vs ++ map of_icase is) -> passes L k t).
Proof.
  intros L parse collect order names Or Si. unfold test_command.
  destruct (map_res parse names) as [qs|e] eqn:Eq; cbn [bind]; [|split; [discriminate|]; intros (qs & ks & X & _); discriminate].
  destruct (collect qs) as [ks|e] eqn:Ec; cbn [bind].
  2: { split; [discriminate|]. intros (qs' & ks & X & Y & _). injection X as <-. congruence. }
  set (st := map (fun k => Inst k []) ks).
  assert (Nth : forall r, r < List.length ks -> exists k, nth_error ks r = Some k /\ nth_error st r = Some (Inst k [])).
  { intros r Lr. destruct (nth_error ks r) as [k|] eqn:N; [|apply nth_error_None in N; lia]. exists k. split; auto. unfold st. now apply map_nth_error with (f := fun k => Inst k []) in N. }
  assert (Main : (match generate st (seq 0 (List.length ks)) with Err _ => 1%Z | Ok cs => if forallb passed (fst (run_tests L st (order (tests_of cs)))) then 0%Z else 1%Z end = 0%Z) <->
    forall k, In k ks -> exists vs is, k_valid k = Some vs /\ k_invalid k = Some is /\ forall t, In t (map of_vcase vs ++ map of_icase is) -> passes L k t).
  { destruct (generate st (seq 0 (List.length ks))) as [cs|e] eqn:G.
    - assert (Ra : forall t r, In (t, r) (order (tests_of cs)) -> r < List.length st).
      { intros t r I. apply (Permutation_in _ (Or _)) in I. apply (tests_of_in _ _ _ _ _ G) in I. destruct I as [I _]. apply in_seq in I. unfold st. rewrite map_length. lia. }
      destruct (C45_fresh L st _ Ra) as [E _]. rewrite E. clear E.
      assert (Fb : forallb passed (map (fun tr => fst (test_method L st (fst tr) (snd tr))) (order (tests_of cs))) = true <->
                   forall t r, In (t, r) (tests_of cs) -> fst (test_method L st t r) = Pass).
      { rewrite forallb_forall. split.
        - intros H t r I. assert (X : In (t, r) (order (tests_of cs))) by (eapply Permutation_in; [apply Permutation_sym, Or|exact I]).
          apply (in_map (fun tr => fst (test_method L st (fst tr) (snd tr)))) in X. cbn [fst snd] in X. apply H in X.
          destruct (fst (test_method L st t r)); auto; discriminate.
        - intros H x X. apply in_map_iff in X. destruct X as ([t r] & <- & X). cbn [fst snd]. rewrite H; auto. eapply Permutation_in; [apply Or|exact X]. }
      assert (Fc : (forall t r, In (t, r) (tests_of cs) -> fst (test_method L st t r) = Pass) <->
        forall k, In k ks -> exists vs is, k_valid k = Some vs /\ k_invalid k = Some is /\ forall t, In t (map of_vcase vs ++ map of_icase is) -> passes L k t).
      { split.
        - intros H k I. destruct (In_nth_error _ _ I) as (r & N).
          assert (Lr : r < List.length ks) by (apply nth_error_Some; congruence). destruct (Nth r Lr) as (k' & N' & Ns). rewrite N in N'. injection N' as <-.
          pose proof (generate_ok _ _ _ G) as F.
          assert (Ir : In r (seq 0 (List.length ks))) by (apply in_seq; lia).
          assert (X : exists vs is, k_valid k = Some vs /\ k_invalid k = Some is).
          { clear - F Ir Ns. induction F as [|a c l l' (_ & i & vs & is & N & V & I & _) F IH]; [contradiction|]. destruct Ir as [->|Ir]; auto.
            rewrite Ns in N. injection N as <-. eauto. }
          destruct X as (vs & is & V & Iv). exists vs, is. split; auto. split; auto. intros t It. apply (C45_passes L st r _ t Ns); cbn [i_class]; [now apply (Si qs ks)|].
          apply H. apply (tests_of_in _ _ _ _ _ G). split; auto. exists (Inst k []), vs, is. auto.
        - intros H t r I. apply (tests_of_in _ _ _ _ _ G) in I. destruct I as (Ir & i & vs & is & N & V & Iv & It). apply in_seq in Ir.
          destruct (Nth r) as (k & Nk & Ns); [lia|]. rewrite N in Ns. injection Ns as ->. cbn [i_class] in *. apply nth_error_In in Nk.
          apply (C45_passes L st r _ t N); cbn [i_class]; [now apply (Si qs ks)|]. destruct (H k Nk) as (vs' & is' & V' & Iv' & P). apply P. congruence. }
      rewrite <- Fc, <- Fb. destruct (forallb _ _); split; auto; discriminate.
    - split; [discriminate|]. intro H. destruct (generate_total st (seq 0 (List.length ks))) as (cs & X); [|congruence].
      intros r I. apply in_seq in I. destruct (Nth r) as (k & Nk & Ns); [lia|]. apply nth_error_In in Nk. destruct (H k Nk) as (vs & is & V & Iv & _).
      exists (Inst k []), vs, is. auto. }
  rewrite Main. split.
  - intro H. exists qs, ks. auto.
  - intros (qs' & ks' & X & Y & H). injection X as <-. rewrite Ec in Y. injection Y as <-. exact H.
Qed.

(** ** Rule classes *)
Lemma lookup_seen : forall P A (f : attrs P -> option A) mro x, lookup f mro = Some x <-> seen f mro x.
Proof.
  intros P A f. induction mro as [|a mro IH]; intro x; cbn [lookup].
  - split; [discriminate|]. intros (b & a & c & E & _). destruct b; discriminate.
  - split.
    + destruct (f a) as [y|] eqn:Fa.
      * intro H. injection H as ->. exists [], a, mro. split; auto. split; auto. intros b [].
      * intro H. apply IH in H. destruct H as (b & a' & c & -> & Fx & Hb). exists (a :: b), a', c. split; auto. split; auto. intros y [<-|I]; auto.
    + intros (b & a' & c & E & Fx & Hb). destruct b as [|b0 b]; cbn in E; injection E as -> E.
      * now rewrite Fx.
      * rewrite (Hb b0) by (simpl; auto). apply IH. exists b, a', c. split; auto. split; auto. intros y I. apply Hb. simpl. auto.
Qed.

Lemma fixes_iff : forall cs, existsb fixes cs = true <-> shows_fix cs.
Proof.
  intro cs. rewrite existsb_exists. unfold shows_fix. split.
  - intros ([s|i] & I & F); [discriminate|]. cbn in F. destruct (n_replacement i) as [[|c e]|] eqn:R; try discriminate. exists i, (c :: e). repeat (split; auto). discriminate.
  - intros (i & e & I & R & N). exists (ICase i). split; auto. cbn. rewrite R. destruct e; [congruence|auto].
Qed.

(** A class has AUTOFIX if the INVALID cases it has, of its own or inherited, show a fix, and
    otherwise what its definition and its base classes say. *)
Theorem C46_autofix : forall P (eqb : P -> P -> bool) parent body mro,
  seen (@a_autofix P) (init_subclass eqb parent body mro :: mro) true <->
  (exists cs, seen (@a_invalid P) (body :: mro) cs /\ shows_fix cs) \/ seen (@a_autofix P) (body :: mro) true.
Proof.
  intros P eqb parent body mro. rewrite <- !lookup_seen. unfold init_subclass.
  set (deps := match lookup (@a_deps P) (body :: mro) with Some d => d | None => [] end).
  set (body' := if existsb (eqb parent) deps then body else Attrs (a_invalid body) (a_autofix body) (Some (deps ++ [parent]))).
  assert (Ei : a_invalid body' = a_invalid body) by (unfold body'; destruct (existsb _ _); auto).
  assert (Ea : a_autofix body' = a_autofix body) by (unfold body'; destruct (existsb _ _); auto).
  assert (El : lookup (@a_invalid P) (body' :: mro) = lookup (@a_invalid P) (body :: mro)) by (cbn; now rewrite Ei).
  rewrite El. destruct (existsb fixes _) eqn:F.
  - split; [|reflexivity]. intros _. left. destruct (lookup (@a_invalid P) (body :: mro)) as [cs|] eqn:L; [|discriminate].
    exists cs. split; [now apply lookup_seen|now apply fixes_iff].
  - assert (La : lookup (@a_autofix P) (body' :: mro) = lookup (@a_autofix P) (body :: mro)) by (cbn; now rewrite Ea). rewrite La. split; auto.
    intros [(cs & S & Sf)|H]; auto. apply lookup_seen in S. rewrite S in F. apply fixes_iff in Sf. congruence.
Qed.

(** If no class says AUTOFIX itself: a rule has AUTOFIX exactly if it, or a rule it inherits from,
    lists an INVALID case that shows a fix. *)
Theorem C46_hierarchy : forall P (eqb : P -> P -> bool) parent base bodies mro, hierarchy eqb parent base bodies mro ->
  a_invalid base = None -> a_autofix base = Some false -> (forall b, In b bodies -> a_autofix b = None) ->
  (seen (@a_autofix P) mro true <-> exists b cs, In b bodies /\ a_invalid b = Some cs /\ shows_fix cs).
Proof.
  intros P eqb parent base bodies mro H Bi Ba.
  assert (Inv : lookup (@a_invalid P) mro = lookup (@a_invalid P) bodies).
  { induction H as [|body bodies mro H IH]; cbn; [now rewrite Bi|]. unfold init_subclass. destruct (existsb fixes _), (existsb _ _); cbn; now rewrite IH. }
  revert Inv. induction H as [|body bodies mro H IH]; intros Inv Nb.
  - split; [|intros (b & _ & [] & _)]. intro X. apply lookup_seen in X. cbn in X. rewrite Ba in X. discriminate.
  - rewrite C46_autofix. rewrite <- !lookup_seen.
    assert (Inv' : lookup (@a_invalid P) mro = lookup (@a_invalid P) bodies).
    { clear - H Bi. induction H as [|b bodies mro H IH]; cbn; [now rewrite Bi|]. unfold init_subclass. destruct (existsb fixes _), (existsb _ _); cbn; now rewrite IH. }
    specialize (IH Inv'). cbn [lookup]. rewrite (Nb body) by (simpl; auto). rewrite lookup_seen, IH by (intros; apply Nb; simpl; auto). split.
    + intros [(cs & S & Sf)|(b & cs & I & E)]; [|exists b, cs; simpl; tauto]. apply lookup_seen in S. cbn [lookup] in S. destruct (a_invalid body) as [cs'|] eqn:E.
      * injection S as ->. exists body, cs. simpl. auto.
      * rewrite Inv' in S. apply lookup_seen in S. destruct S as (pre & a & post & -> & S & _). exists a, cs. split; auto. simpl. right. apply in_app_iff. simpl. auto.
    + intros (b & cs & [->|I] & E & Sf); [|right; eauto]. left. exists cs. split; auto. apply lookup_seen. cbn. now rewrite E.
Qed.

(** Every rule class depends on the parent node provider, and on what it would have depended on. *)
Theorem C46_dependencies : forall P (eqb : P -> P -> bool) parent body mro ds,
  (forall a b, eqb a b = true <-> a = b) -> seen (@a_deps P) (body :: mro) ds ->
  exists ds', seen (@a_deps P) (init_subclass eqb parent body mro :: mro) ds' /\ In parent ds' /\ (forall d, In d ds -> In d ds') /\ (forall d, In d ds' -> In d ds \/ d = parent).
Proof.
  intros P eqb parent body mro ds Eq S. apply lookup_seen in S. unfold init_subclass. rewrite S.
  destruct (existsb (eqb parent) ds) eqn:E.
  - exists ds. split; [|split; [|split; auto]].
    + apply lookup_seen. destruct (existsb fixes _); [|exact S]. cbn in *. exact S.
    + apply existsb_exists in E. destruct E as (x & I & E). apply Eq in E. now subst.
  - exists (ds ++ [parent]). split; [|split; [|split]].
    + apply lookup_seen. destruct (existsb fixes _); reflexivity.
    + apply in_app_iff. simpl. auto.
    + intros d I. apply in_app_iff. auto.
    + intros d I. apply in_app_iff in I. destruct I as [I|[I|[]]]; auto.
Qed.

(** No dependency any class of the hierarchy declares is lost: LibCST uses those of all classes. *)
Theorem C46_all_dependencies : forall P (eqb : P -> P -> bool) parent base bodies mro, (forall a b, eqb a b = true <-> a = b) ->
  hierarchy eqb parent base bodies mro -> bodies <> [] ->
  forall ds0, a_deps base = Some ds0 ->
  forall d, In d (inherited_dependencies mro) <-> d = parent \/ exists b ds, In b (base :: bodies) /\ a_deps b = Some ds /\ In d ds.
Proof.
  intros P eqb parent base bodies mro Eq H Ne ds0 B0 d.
  assert (Hs : forall bodies mro, hierarchy eqb parent base bodies mro -> exists ds, lookup (@a_deps P) mro = Some ds /\
            (forall x, In x ds -> x = parent \/ exists b ds, In b (base :: bodies) /\ a_deps b = Some ds /\ In x ds)).
  { clear - Eq B0. intros bodies mro H. induction H as [|body bodies mro H (ds & L & K)].
    - exists ds0. cbn. rewrite B0. split; auto. intros x I. right. exists base, ds0. simpl. auto.
    - assert (L' : exists ds', seen (@a_deps P) (body :: mro) ds' /\ forall x, In x ds' -> x = parent \/ exists b ds, In b (base :: body :: bodies) /\ a_deps b = Some ds /\ In x ds).
      { destruct (a_deps body) as [ds'|] eqn:Eb.
        - exists ds'. split; [apply lookup_seen; cbn; now rewrite Eb|]. intros x I. right. exists body, ds'. simpl. auto.
        - exists ds. split; [apply lookup_seen; cbn; now rewrite Eb|]. intros x I. destruct (K x I) as [->|(b & d' & Ib & Rest)]; auto. right. exists b, d'. split; auto. simpl in *. tauto. }
      destruct L' as (ds' & S & K'). destruct (C46_dependencies _ _ parent _ _ _ Eq S) as (ds2 & S2 & _ & _ & Back). exists ds2. split; [now apply lookup_seen|].
      intros x I. destruct (Back x I) as [J| ->]; auto. }
  assert (Main : forall bodies mro, hierarchy eqb parent base bodies mro -> forall x, In x (inherited_dependencies mro) ->
            x = parent \/ exists b ds, In b (base :: bodies) /\ a_deps b = Some ds /\ In x ds).
  { clear - Hs. intros bodies mro H. induction H as [|body bodies mro H IH]; intros x I; unfold inherited_dependencies in I; cbn [flat_map] in I; apply in_app_iff in I.
    - destruct I as [I|[]]. destruct (a_deps base) as [ds|] eqn:E; [|contradiction]. right. exists base, ds. simpl. auto.
    - destruct I as [I|I].
      + destruct (Hs _ _ (H_sub _ _ _ body _ _ H)) as (ds & L & K). cbn [lookup] in L. destruct (a_deps (init_subclass eqb parent body mro)) as [ds'|]; [|contradiction].
        injection L as ->. auto.
      + destruct (IH x I) as [->|(b & ds & Ib & Rest)]; auto. right. exists b, ds. split; auto. simpl in *. tauto. }
  assert (Back : forall bodies mro, hierarchy eqb parent base bodies mro -> forall b ds x, In b (base :: bodies) -> a_deps b = Some ds -> In x ds -> In x (inherited_dependencies mro)).
  { clear - Hs Eq. intros bodies mro H. induction H as [|body bodies mro H IH]; intros b ds x Ib Eb Ix; unfold inherited_dependencies; cbn [flat_map]; apply in_app_iff.
    - destruct Ib as [->|[]]. rewrite Eb. auto.
    - destruct Ib as [->|[->|Ib]]; [right; eapply IH; simpl; eauto| |right; eapply IH; simpl; eauto].
      left. assert (S : seen (@a_deps P) (b :: mro) ds) by (apply lookup_seen; cbn; now rewrite Eb).
      destruct (C46_dependencies _ _ parent _ _ _ Eq S) as (ds2 & S2 & _ & Sub & _). apply lookup_seen in S2. cbn [lookup] in S2.
      assert (X : exists y, a_deps (init_subclass eqb parent b mro) = Some y).
      { unfold init_subclass. cbn [lookup]. rewrite Eb. destruct (existsb fixes _), (existsb _ _); cbn; eauto. }
      destruct X as (y & Ey). rewrite Ey in *. injection S2 as ->. auto. }
  split; [now apply Main|]. intros [->|(b & ds & Ib & Eb & Ix)]; [|eapply Back; eauto].
  destruct H as [|body bodies mro H]; [congruence|]. unfold inherited_dependencies. cbn [flat_map]. apply in_app_iff.
  destruct (Hs _ _ H) as (dm & Lm & _).
  assert (S : exists ds, seen (@a_deps P) (body :: mro) ds). { destruct (a_deps body) as [ds|] eqn:Eb; [exists ds|exists dm]; apply lookup_seen; cbn; now rewrite Eb. }
  destruct S as (ds & S). destruct (C46_dependencies _ _ parent _ _ _ Eq S) as (ds2 & S2 & Ip & _). apply lookup_seen in S2. cbn [lookup] in S2.
  destruct (a_deps (init_subclass eqb parent body mro)) as [y|] eqn:Ey; [injection S2 as ->; auto|]. right.
  (* the class takes its dependencies from the rules it inherits from *)
  clear - S2 Ip. apply lookup_seen in S2. destruct S2 as (pre & a & post & -> & E & _). apply in_flat_map. exists a. split; [apply in_app_iff; simpl; auto|]. now rewrite E.
Qed.

(** ** Concrete rules *)

(** Every text is the module of Engine's example, but for "ok" a rule with an M in its name reports nothing. *)
Definition lab0 : lab :=
  Lab (fun s => s) Ok Ok (fun s => if str_eqb s (u "ok") then Ok (Mod (Node 9 false [Txt (u "ok")]) true nl) else Ok ex_module)
      (fun m => Ok (code m)) (fun _ a b => b)
      (fun k m => if (k_id k =? 1)%N then Ok (if (node_id (m_tree m) =? 9)%N then [] else [v_gone; v_arg])
                  else if (k_id k =? 2)%N then Ok [v_arg] else Ok [v_none]).
Definition fixed : str := u "x = f(99, 2)" ++ nl.
Definition good : klass := Klass 1 (u "GoodRule") None (Some [VStr (u "ok"); VCase (u "ok")])
  (Some [IStr (u "a"); ICase (Invalid (u "b") (Some ex_range) (Some (u "m")) (Some fixed))]).
Definition bad : klass := Klass 2 (u "GoodRule") None (Some [VStr (u "ok")]) (Some [ICase (Invalid (u "b") None (Some (u "other")) None)]).

Example C45_example_methods : match gen_test_methods good with Ok d => dkeys d | Err _ => [] end =
  [u "test_VALID_0"; u "test_VALID_1"; u "test_INVALID_0"; u "test_INVALID_1"].
Proof. vm_compute. reflexivity. Qed.

Lemma lab0_single : forall k t, In k [good; bad] -> single_fix lab0 k t.
Proof.
  intros k t I i e md v _ _ _ V. destruct I as [<-|[<-|[]]]; cbn in V; [|injection V as <-; reflexivity].
  destruct (N.eqb _ _); discriminate.
Qed.

Example C45_example_exit : forall order, (forall l, Permutation (order l) l) ->
  test_command lab0 (fun s => parse_rule s []) (fun _ => Ok [good]) order [u "x"] = 0%Z /\
  test_command lab0 (fun s => parse_rule s []) (fun _ => Ok [good; bad]) order [u "x"] = 1%Z.
Proof.
  intros order Or.
  assert (G : test_command lab0 (fun s => parse_rule s []) (fun _ => Ok [good]) order [u "x"] = 0%Z).
  { apply C45_exit; auto.
    - intros qs ks k t _ E I. injection E as <-. apply lab0_single. destruct I as [<-|[]]. simpl. auto.
    - eexists _, [good]. split; [vm_compute; reflexivity|]. split; auto. intros k [<-|[]].
      exists [VStr (u "ok"); VCase (u "ok")], [IStr (u "a"); ICase (Invalid (u "b") (Some ex_range) (Some (u "m")) (Some fixed))].
      split; auto. split; auto. intros t I.
      assert (P : forall t, In t (map of_vcase [VStr (u "ok"); VCase (u "ok")] ++ map of_icase [IStr (u "a"); ICase (Invalid (u "b") (Some ex_range) (Some (u "m")) (Some fixed))]) ->
        fst (test_method lab0 [Inst good []] t 0) = Pass).
      { intros t' [<-|[<-|[<-|[<-|[]]]]]; vm_compute; reflexivity. }
      apply P in I. apply (C45_passes lab0 [Inst good []] 0 (Inst good []) t eq_refl) in I; [exact I|apply lab0_single; simpl; auto]. }
  split; [exact G|].
  assert (Nz : test_command lab0 (fun s => parse_rule s []) (fun _ => Ok [good; bad]) order [u "x"] <> 0%Z).
  { intro H. apply C45_exit in H; auto.
    - destruct H as (qs & ks & _ & E & H). injection E as <-. destruct (H bad) as (vs & is & V & I & P); [simpl; auto|]. injection V as <-. injection I as <-.
      specialize (P (TValid (u "ok")) (or_introl eq_refl)). apply (C45_passes lab0 [Inst bad []] 0 (Inst bad []) _ eq_refl) in P; [|apply lab0_single; simpl; auto].
      revert P. vm_compute. discriminate.
    - intros qs ks k t _ E I. injection E as <-. apply lab0_single. exact I. }
  revert Nz. unfold test_command. destruct (let! qs := _ in _) as [ks|]; [|congruence]. destruct (generate _ _); [|congruence]. destruct (forallb _ _); congruence.
Qed.

(** An expected replacement that is empty is not checked: a case that says the fix leaves nothing
    passes whatever the fix leaves. *)
Theorem C45_empty_refuted : ~ (forall L st r i t, nth_error st r = Some i -> single_fix L (i_class i) t ->
  fst (test_method L st t r) = Pass -> forall n e md vs, t = TInvalid n -> n_replacement n = Some e -> case_module L t md -> l_visit L (i_class i) md = Ok vs ->
  exists md', apply_replacements md vs = Ok (Some md') /\ l_bytes L md' = Ok e).
Proof.
  intro H. set (t := TInvalid (Invalid (u "a") None None (Some []))).
  destruct (H lab0 [Inst good []] 0 (Inst good []) t eq_refl) with (n := Invalid (u "a") None None (Some [])) (e := @nil BinNums.N) (md := ex_module) (vs := [v_gone; v_arg]) as (md' & A & B).
  - apply lab0_single. simpl. auto.
  - vm_compute. reflexivity.
  - reflexivity.
  - reflexivity.
  - exists (u "a"), (u "a"). split; [now apply read_as_iff|]. split; reflexivity.
  - reflexivity.
  - assert (X : match apply_replacements ex_module [v_gone; v_arg] with Ok (Some m) => l_bytes lab0 m | _ => Err KeyError end = Ok fixed) by (vm_compute; reflexivity).
    rewrite A in X. rewrite B in X. discriminate.
Qed.

(** Added to a module, the tests of a rule are lost if another rule has the same class name. *)
Theorem C45_module_refuted : ~ (forall st rules cs c, generate st rules = Ok cs -> In c cs -> exists n, dget n (add_to_module [] cs) = Some c).
Proof.
  intro H. set (st := [Inst good []; Inst bad []]).
  assert (E : exists a b, generate st [0; 1] = Ok [a; b] /\ tc_name a = tc_name b /\ tc_rule a <> tc_rule b) by (eexists _, _; split; [vm_compute; reflexivity|split; [reflexivity|discriminate]]).
  destruct E as (a & b & G & E & Nr). destruct (H _ _ _ a G) as (n & X); [simpl; auto|]. unfold add_to_module in X. cbn [fold_left dset] in X. rewrite <- E in X. rewrite str_eqb_refl in X.
  cbn [dget] in X. destruct (str_eqb n (tc_name a)); [|discriminate]. injection X as X. congruence.
Qed.

(** Rules with different names keep theirs. *)
Theorem C45_module : forall st rules cs c, generate st rules = Ok cs -> NoDup (map tc_name cs) -> In c cs -> forall attrs, dget (tc_name c) (add_to_module attrs cs) = Some c.
Proof.
  intros st rules cs c _ N I. unfold add_to_module. induction cs as [|x cs IH]; [contradiction|]. intro attrs. cbn [fold_left]. inversion N; subst.
  destruct I as [->|I]; [|now apply IH].
  assert (K : forall d, dget (tc_name c) d = Some c -> dget (tc_name c) (fold_left (fun d c => dset (tc_name c) c d) cs d) = Some c).
  { clear - H1. induction cs as [|y cs IH]; intros d D; auto. cbn [fold_left]. apply IH; [intro X; apply H1; simpl; auto|].
    rewrite dget_dset_neq; auto. intro X. apply H1. simpl. auto. }
  apply K. apply dget_dset_eq.
Qed.

(** Providers as numbers; 0 is the parent node provider. *)
Definition base0 : attrs nat := Attrs None (Some false) (Some [5]).
Example C46_example : exists mro, hierarchy Nat.eqb 0 base0
    [Attrs None None (Some [7]); Attrs (Some []) None None; Attrs (Some [IStr (u "a"); ICase (Invalid (u "b") None None (Some fixed))]) None (Some [6])] mro /\
  seen (@a_autofix nat) mro true /\ seen (@a_deps nat) mro [7; 0] /\ inherited_dependencies mro = [7; 0; 6; 0; 5].
Proof.
  eexists. split; [repeat constructor|]. split; [apply lookup_seen; vm_compute; reflexivity|]. split; [apply lookup_seen; vm_compute; reflexivity|]. vm_compute. reflexivity.
Qed.
Example C46_example_not : exists mro, hierarchy Nat.eqb 0 base0 [Attrs (Some [IStr (u "a"); ICase (Invalid (u "b") None None (Some []))]) None None] mro /\ ~ seen (@a_autofix nat) mro true.
Proof. eexists. split; [repeat constructor|]. rewrite <- lookup_seen. vm_compute. discriminate. Qed.

(** Why a new instance is needed for each test: an instance keeps what it has reported, so that with the same instance a
    valid case after an invalid one fails. *)
Theorem C45_shared_refuted : ~ (forall L st r i t1 t2, nth_error st r = Some i ->
  fst (test_case L (snd (test_case L st t1 r)) t2 r) = fst (test_case L st t2 r)).
Proof.
  intro H. specialize (H lab0 [Inst good []] 0 (Inst good []) (TInvalid (Invalid (u "a") None None None)) (TValid (u "ok")) eq_refl).
  vm_compute in H. discriminate.
Qed.
