(** * C90: rules that pass their tests do on files what their cases say *)
From Coq Require Import String List NArith ZArith Bool Arith Lia Permutation Cantor.
From Verif Require Import Base PyStr Ftypes Paths Config Collect CollectSpec CollectProps Suppress Cst Engine EngineProps Batch BatchProps
  Api ApiSpec ApiFacts ApiProps System SystemSpec SystemProps Testing TestingSpec TestingProps TestRun TestRunSpec.
Import ListNotations.

Lemma class_of_id : forall k, class_of (class_id k) = k.
Proof.
  intros [a g]. unfold class_of, class_id. cbn [fst snd]. rewrite Nnat.Nat2N.id, Cantor.cancel_of_to, Nnat.N2Nat.id. now destruct g.
Qed.

(** ** A test that passes says what the case says, whatever the reports are *)

Lemma check_pass : forall L md t vs rs, Forall2 (delivered (l_udiff L (is_valid t)) md) vs rs ->
  check L md t rs = Pass -> as_expected L md t vs.
Proof.
  intros L md t vs rs F P. destruct t as [c|i]; unfold check in P.
  - destruct rs; [|discriminate]. inversion F; subst. reflexivity.
  - destruct (delivered_same _ _ _ _ F) as (Er & _). destruct rs as [|w rs]; [discriminate|].
    destruct (forallb (expected i) (w :: rs)) eqn:Fb; [|discriminate].
    (* without the replacement there is nothing to say about single reports *)
    set (i' := Invalid (n_code i) (n_range i) (n_message i) None).
    assert (P' : check L md (TInvalid i') (w :: rs) = Pass) by (unfold check; change (forallb (expected i')) with (forallb (expected i)); rewrite Fb; reflexivity).
    apply (check_iff L md (TInvalid i') vs (w :: rs) F) in P'; [|intros i0 e v0 X Y _; injection X as <-; discriminate].
    cbn [as_expected] in *. destruct P' as (A & B & _). split; auto. split; [exact B|]. intros e Nr Ne.
    unfold check_replacement in P. rewrite Nr in P. destruct e as [|c e]; [congruence|].
    replace (apply_replacements md (w :: rs)) with (apply_replacements md vs) in P by (unfold apply_replacements; now rewrite Er).
    destruct (apply_replacements md vs) as [[md'|]|]; try discriminate. cbn [or_error] in P.
    destruct (l_bytes L md') as [b|] eqn:Eb; try discriminate. cbn [or_error] in P. destruct (l_decode L b) as [m|] eqn:Em; try discriminate. cbn [or_error] in P.
    destruct (str_eqb _ _) eqn:Es; [|discriminate]. apply str_eqb_eq in Es. exists md', b, m. rewrite read_as_iff. auto.
Qed.

Lemma method_pass : forall L st r i t, nth_error st r = Some i -> fst (test_method L st t r) = Pass -> passes L (i_class i) t.
Proof.
  intros L st r i t N P. unfold test_method in P. rewrite N in P. unfold test_case in P.
  assert (Nn : nth_error (st ++ [Inst (i_class i) []]) (List.length st) = Some (Inst (i_class i) [])) by (rewrite nth_error_app2, Nat.sub_diag by auto; reflexivity).
  destruct (l_encode L (dedent L (case_code t))) as [c|] eqn:E1; [|discriminate]. cbn [bind] in P.
  destruct (l_parse L c) as [md|] eqn:E2; [|discriminate]. rewrite Nn in P. cbn [i_class i_violations app] in P.
  destruct (l_visit L (i_class i) md) as [vs|] eqn:V; [|discriminate]. cbv zeta in P. change ([] ++ vs) with vs in P.
  destruct (collect_violations _ _ _ _) as [evs [n|e]] eqn:C; [|discriminate]. cbn [fst] in P.
  pose proof (C25_complete _ _ _ _ _ _ _ C) as (F & _). unfold reported in F. cbn [flat_map r_violations] in F. rewrite app_nil_r in F.
  assert (Ye : yielded evs = yields evs) by (clear; induction evs as [|[v|m] evs IH]; cbn; auto; now f_equal). rewrite Ye in P.
  exists md, vs. split; [|split; [exact V|split]].
  - exists (dedent L (case_code t)), c. rewrite read_as_iff. auto.
  - intros v I Af. destruct (In_nth_error _ _ I) as (k & Nk). clear - F Nk Af. revert k Nk.
    induction F as [|a b vs rs D F IH]; intros [|k] Nk; try discriminate; eauto. injection Nk as ->. unfold delivered in D. rewrite Af in D. destruct D as (md' & D & _). eauto.
  - eapply check_pass; eauto.
Qed.

(** If the test command succeeds then every case of every rule it is about holds. *)
Theorem C45_success : forall L parse collect order names, (forall l, Permutation (order l) l) -> test_command L parse collect order names = 0%Z ->
  exists qs ks, map_res parse names = Ok qs /\ collect qs = Ok ks /\
    forall k, In k ks -> exists vs is, k_valid k = Some vs /\ k_invalid k = Some is /\
      forall t, In t (map of_vcase vs ++ map of_icase is) -> passes L k t.
Proof.
  intros L parse collect order names Or H. unfold test_command in H.
  destruct (map_res parse names) as [qs|e] eqn:Eq; cbn [bind] in H; [|discriminate].
  destruct (collect qs) as [ks|e] eqn:Ec; cbn [bind] in H; [|discriminate]. exists qs, ks. split; auto. split; auto.
  set (st := map (fun k => Inst k []) ks) in *. destruct (generate st (seq 0 (List.length ks))) as [cs|e] eqn:G; [|discriminate].
  assert (Ra : forall t r, In (t, r) (order (tests_of cs)) -> r < List.length st).
  { intros t r I. apply (Permutation_in _ (Or _)) in I. apply (tests_of_in _ _ _ _ _ G) in I. destruct I as [I _]. apply in_seq in I. unfold st. rewrite map_length. lia. }
  destruct (C45_fresh L st _ Ra) as [E _]. rewrite E in H. clear E.
  destruct (forallb _ _) eqn:Fb; [|discriminate]. rewrite forallb_forall in Fb.
  intros k I. destruct (In_nth_error _ _ I) as (r & N).
  assert (Ns : nth_error st r = Some (Inst k [])) by (apply map_nth_error with (f := fun k => Inst k []) in N; exact N).
  assert (Lr : r < List.length ks) by (apply nth_error_Some; congruence).
  pose proof (generate_ok _ _ _ G) as F. assert (Ir : In r (seq 0 (List.length ks))) by (apply in_seq; lia).
  assert (X : exists vs is, k_valid k = Some vs /\ k_invalid k = Some is).
  { clear - F Ir Ns. induction F as [|a c l l' (_ & i & vs & is & N & V & I & _) F IH]; [contradiction|]. destruct Ir as [->|Ir]; auto. rewrite Ns in N. injection N as <-. eauto. }
  destruct X as (vs & is & V & Iv). exists vs, is. split; auto. split; auto. intros t It.
  apply (method_pass L st r _ t Ns). assert (X : In (t, r) (tests_of cs)).
  { apply (tests_of_in _ _ _ _ _ G). split; auto. exists (Inst k []), vs, is. auto. }
  assert (Y : In (t, r) (order (tests_of cs))) by (eapply Permutation_in; [apply Permutation_sym, Or|exact X]).
  apply (in_map (fun tr => fst (test_method L st (fst tr) (snd tr)))) in Y. cbn [fst snd] in Y. apply Fb in Y.
  destruct (fst (test_method L st t r)); auto; discriminate.
Qed.

(** ** One case, on a file *)

Lemma written_iff : forall Y H F src text, written_as H src text <-> read_as (lab_of Y H F) src text.
Proof. reflexivity. Qed.

Lemma case_of_in : forall Y H F k t, case_of H F k t -> forall vs is, k_valid (described Y H F k) = Some vs -> k_invalid (described Y H F k) = Some is ->
  In t (map of_vcase vs ++ map of_icase is).
Proof.
  intros Y H F k t C vs is V I. cbn in V, I. apply in_app_iff. destruct C as [(cs & c & E & Ic & ->)|(cs & c & E & Ic & ->)].
  - left. rewrite V in E. injection E as <-. apply in_map_iff. exists c. split; auto. now destruct c.
  - right. rewrite I in E. injection E as <-. apply in_map_iff. exists c. split; auto. now destruct c.
Qed.

(** What the tests have shown about the code of a class. *)
Definition shown (Y : system) (H : harness) (C : rule_code) (t : tcase) (content : str) : Prop :=
  exists md M r m, y_parse Y content = Ok md /\ y_wrap Y md = Ok M /\
    visit_batched (y_took Y) (d_tree M) [fresh (y_unicode Y) M md C] = Ok ([r], m) /\
    (forall v, In v (r_violations r) -> applicable md v) /\
    promised t (r_violations r) /\
    (forall i e, t = TInvalid i -> n_replacement i = Some e -> e <> [] ->
       exists md' b text, apply_replacements md (r_violations r) = Ok (Some md') /\ y_bytes Y md' = Ok b /\ h_decode H b = Ok text /\ written_as H e text).

Lemma tested_shown : forall Y H F names k t content,
  (forall l, Permutation (h_order H l) l) -> (forall F, fair_sets (y_world Y F)) -> test_of Y H F names = 0%Z ->
  under_test Y H F names k -> case_of H F k t -> holds_case H t content -> shown Y H (y_code Y F k) t content.
Proof.
  intros Y H F names k t content Or Fa T (qs & Eq & Se) Ca (text & Wr & En). unfold test_of in T. apply C45_success in T; [|exact Or].
  destruct T as (qs' & ks & Eq' & Ec & K). assert (qs' = qs) as -> by congruence.
  destruct (collect_rules (y_world Y F) (test_config (h_cwd H) qs) (y_py Y)) as [[[ks0 d]|e] s] eqn:Ek; [|discriminate]. cbn in Ec. injection Ec as <-.
  destruct (selected_in _ _ _ _ _ _ (Fa F) Ek) as [_ Sel]. apply Sel in Se. destruct (K _ (in_map _ _ _ Se)) as (vs & is & V & Iv & P).
  specialize (P t (case_of_in _ _ _ _ _ Ca _ _ V Iv)). destruct P as (md & rs & (text' & c & Rd & Ec & Ep) & Vi & Ap & Ex).
  apply read_as_iff in Rd. apply (written_iff Y H F), read_as_iff in Wr. assert (text' = text) as -> by congruence.
  cbn [lab_of l_encode l_parse l_visit described k_id] in *. assert (c = content) as -> by congruence. rewrite class_of_id in Vi.
  destruct (y_wrap Y md) as [M|] eqn:Ew; [|discriminate]. cbn [bind] in Vi. destruct (visit_batched _ _ _) as [[l m]|] eqn:Ev; [|discriminate]. cbn [bind] in Vi. injection Vi as <-.
  assert (exists r, l = [r]) as (r & ->).
  { unfold visit_batched in Ev. destruct (run_calls _ _ _ _ _) as [[[out m0] n0]|e] eqn:R; [|discriminate]. cbn [bind] in Ev. injection Ev as <- <-.
    apply run_calls_ok in R. inversion R as [|? b ? out' _ R']; subst. inversion R'; subst. cbn [map]. eauto. }
  unfold reported in *. cbn [flat_map] in *. rewrite app_nil_r in *. exists md, M, r, m. split; [auto|]. split; [auto|]. split; [auto|]. split; [auto|]. split.
  - destruct t as [c|i]; cbn [as_expected promised] in *; auto. destruct Ex as (A & B & _). split; auto. apply Forall_forall. exact B.
  - intros i e -> Nr Ne. cbn [as_expected] in Ex. destruct Ex as (_ & _ & X). destruct (X e Nr Ne) as (md' & b & code & A & B & D & R). exists md', b, code. auto.
Qed.

Lemma shown_other : forall Y Y' H C t content, same_language Y Y' -> shown Y H C t content -> shown Y' H C t content.
Proof.
  intros Y Y' H C t content (Eu & Es & Ew & Eb) (md & M & r & m & A & B & V & Ap & Pr & Rp).
  unfold visit_batched in V. destruct (run_calls _ _ _ _ _) as [[[out m0] n0]|e] eqn:R; [|discriminate]. cbn [bind] in V. injection V as V <-.
  apply run_calls_ok in R. destruct (@run_calls_total (y_took Y') _ _ _ R [] 0) as (m' & n' & R').
  exists md, M, r, m'. rewrite Es, Ew, Eu. unfold visit_batched. rewrite R'. cbn [bind]. rewrite V. repeat (split; [auto; fail|]).
  intros i e Et Nr Ne. destruct (Rp i e Et Nr Ne) as (md' & b & text & X). exists md', b, text. rewrite Eb. exact X.
Qed.

Lemma collect_any : forall udiff md (r : rule) m hook, (forall v, In v (r_violations r) -> applicable md v) ->
  exists evs n, collect_violations udiff md (Ok ([r], m)) hook = (evs, Ok n).
Proof.
  intros udiff md r m hook A. unfold collect_violations. cbn [yield_rules]. destruct (yield_all_ok udiff md (r_name r) (r_violations r)
    (dset (fix_key (r_name r)) 0 (dset (count_key (r_name r)) (List.length (r_violations r)) m)) 0 A) as (evs & m' & c' & ->). eauto.
Qed.

Lemma promised_same : forall udiff md vs rs t, Forall2 (delivered udiff md) vs rs -> promised t vs -> promised t rs.
Proof.
  intros udiff md vs rs [c|i] F P; cbn [promised] in *; [subst; inversion F; auto|]. destruct P as [Ne P]. split.
  - inversion F; subst; congruence.
  - clear Ne. induction F as [|v w vs rs D F IH]; constructor; inversion P; subst; auto.
    unfold delivered in D. destruct (autofixable v); [destruct D as (md' & _ & ->)|subst w]; auto.
Qed.

(** Linting the file with this rule alone. *)
Lemma shown_lint : forall Y H F k t content p cfg, shown Y H (y_code Y F k) t content -> runs_rules Y F cfg [k] ->
  exists vs, lint_of (tool_of Y) F p content cfg = (vs, None) /\ promised t vs /\
    (forall i e, t = TInvalid i -> n_replacement i = Some e -> e <> [] ->
       exists md md' b text, y_parse Y content = Ok md /\ apply_replacements md vs = Ok (Some md') /\ y_bytes Y md' = Ok b /\ h_decode H b = Ok text /\ written_as H e text).
Proof.
  intros Y H F k t content p cfg (md & M & r & m & Ep & Ew & Ev & Ap & Pr & Rp) (d & s & Ec).
  unfold lint_of, tool_of. cbn [t_collect t_parse t_visit t_udiff]. rewrite Ec. cbn [fst bind]. rewrite Ep, Ew. cbn [bind map]. rewrite Ev.
  destruct (collect_any (y_udiff Y p) md r m false Ap) as (evs & n & C). rewrite C. eexists. split; [reflexivity|].
  pose proof (C25_complete _ _ _ _ _ _ _ C) as (D & _). unfold reported in D. cbn [flat_map] in D. rewrite app_nil_r in D.
  assert (Yd : flat_map (fun e => match e with Yield v => [v] | Hook _ => [] end) evs = yields evs).
  { clear. induction evs as [|[v|x] evs IH]; cbn [flat_map yields app]; [reflexivity|now f_equal|auto]. }
  rewrite Yd. split; [eapply promised_same; eauto|]. intros i e Et Nr Ne. destruct (Rp i e Et Nr Ne) as (md' & b & text & A & B).
  exists md, md', b, text. split; auto. split; auto. destruct (delivered_same _ _ _ _ D) as (Er & _). unfold apply_replacements in *. now rewrite Er.
Qed.

(** ** Complete runs of fixit_file *)

Lemma file_complete : forall T p autofix opts hook F0 F1 es content cfg,
  run (fixit_file T p autofix opts hook) (ELook F0 :: ELook F1 :: es) (Returned tt) ->
  f_file F0 p = Some content -> generate_config (t_env T) F1 p None opts = Ok cfg ->
  exists es1 es2 r, es = es1 ++ es2 /\ run (fixit_bytes T p content cfg autofix hook) es1 (Returned r) /\
    match r with
    | Some ((_ :: _) as c) => (c = content /\ es2 = []) \/
        (c <> content /\ (es2 = [EWrite p c (Ok tt)] \/ exists e a, es2 = [EWrite p c (Err e); EGive (error_result p e) a]))
    | _ => es2 = []
    end.
Proof.
  intros T p autofix opts hook F0 F1 es content cfg R Ef Eg. unfold fixit_file in R. apply run_catch in R.
  assert (B : forall es o,
    run (pbind (fixit_bytes T p content cfg autofix hook) (fun updated =>
         match updated with
         | Some ((_ :: _) as c) => if negb (str_eqb c content) then Write p c (fun o => lift o (fun _ => Ret tt)) else Ret tt
         | _ => Ret tt
         end)) es o -> o <> Stopped ->
    exists es1 es2 r, es = es1 ++ es2 /\ run (fixit_bytes T p content cfg autofix hook) es1 (Returned r) /\
      match r with
      | Some ((_ :: _) as c) => (c = content /\ es2 = [] /\ o = Returned tt) \/
          (c <> content /\ ((es2 = [EWrite p c (Ok tt)] /\ o = Returned tt) \/ exists e, es2 = [EWrite p c (Err e)] /\ o = Raised e))
      | _ => es2 = [] /\ o = Returned tt
      end).
  { clear. intros es o H No. apply run_pbind in H. destruct H as [[X _]|[(e & X & H1)|(es1 & es2 & r & -> & H2 & H3)]]; [congruence| |].
    - exfalso. subst o. eapply C29_never_raises; eauto.
    - exists es1, es2, r. split; auto. split; auto. destruct r as [[|c r]|]; try (inversion H3; subst; auto; congruence).
      destruct (str_eqb (c :: r) content) eqn:Es; cbn [negb] in H3.
      + apply str_eqb_eq in Es. inversion H3; subst; [congruence|auto].
      + apply str_eqb_neq in Es. right. split; auto. inversion H3 as [| | | | |? ? ? w es4 ? H4| | |]; subst; [congruence|].
        destruct w as [[]|e].
        * cbn [lift] in H4. inversion H4; subst; [congruence|]. left. auto.
        * cbn [lift] in H4. inversion H4; subst; [congruence|]. right. exists e. auto. }
  destruct R as [[X _]|[(r & Er & R)|(es1 & es2 & e & E & R1 & R2)]]; [discriminate| |].
  - inversion R as [| | | |? ? ? ? R'| | | |]; subst. rewrite Ef in R'. inversion R' as [| | | |? ? ? ? R2| | | |]; subst. rewrite Eg in R2. cbn [lift] in R2.
    destruct (B _ _ R2) as (a & b & r0 & -> & Ra & K); [discriminate|]. exists a, b, r0. split; auto. split; auto.
    destruct r0 as [[|c r0]|]; try tauto. destruct K as [(? & ? & _)|(? & [[? _]|(e & _ & X)])]; auto. discriminate.
  - inversion R1 as [| | | |? ? ? ? R'| | | |]; subst. cbn [app] in E. injection E as <- E. rewrite Ef in R'. inversion R' as [| | | |? ? ? ? R3| | | |]; subst. cbn [app] in E. injection E as <- ->. rewrite Eg in R3. cbn [lift] in R3.
    destruct (B _ _ R3) as (a & b & r0 & -> & Ra & K); [discriminate|]. exists a, (b ++ es2), r0. split; [now rewrite app_assoc|]. split; auto.
    destruct r0 as [[|c r0]|]; try (destruct K; discriminate). destruct K as [(_ & _ & X)|(Nc & [[_ X]|(e' & -> & X)])]; try discriminate.
    injection X as <-. right. split; auto. right. inversion R2 as [| | |? ? x es3 ? R4| | | | |]; subst. inversion R4; subst. exists e, x. reflexivity.
Qed.

Lemma violations_report : forall p vs err, violations (report_of p vs err) = vs.
Proof.
  intros p vs err. unfold report_of, violations. rewrite flat_map_app. replace (flat_map _ (match err with Some _ => _ | None => _ end)) with (@nil viol) by (destruct err, vs; reflexivity).
  rewrite app_nil_r. induction vs as [|v vs IH]; [reflexivity|]. cbn [map flat_map x_violation app]. now f_equal.
Qed.

Lemma accepts_all_all : forall autofix es p vs, accepts_all autofix es -> results es = report_of p vs None -> accepted autofix (given es) = vs.
Proof.
  intros autofix es p vs A R. unfold results in R. rewrite <- (violations_report p vs None), <- R. clear R.
  assert (K : forall l, (autofix = true \/ forall x a, In (x, a) l -> a = Some true) -> accepted autofix l = violations (map fst l)).
  { clear. induction l as [|[x a] l IH]; intro A; [reflexivity|]. unfold accepted, violations in *. cbn [flat_map map fst snd]. rewrite IH.
    - destruct (x_violation x); auto. destruct A as [->|A]; [now destruct a as [[|]|]|]. now rewrite (A x a (or_introl eq_refl)).
    - destruct A as [A|A]; [auto|right; intros; apply (A x0 a0); simpl; auto]. }
  now apply K.
Qed.

Lemma accepts_none_none : forall autofix es, accepts_none autofix es -> accepted autofix (given es) = [].
Proof.
  intros autofix es [-> A]. induction (given es) as [|[x a] l IH]; [reflexivity|]. unfold accepted in *. cbn [flat_map fst snd]. rewrite IH by (intros; eapply A; simpl; eauto).
  destruct (x_violation x); auto. destruct a as [[|]|]; auto. exfalso. apply (A x (Some true)); simpl; auto.
Qed.

(** The shape of such a run. *)
Lemma linted_run : forall Y p autofix opts hook es content cfg F ks, linted Y p autofix opts hook es content cfg F ks ->
  exists F0 F1 es1 es2 r, es = ELook F0 :: ELook F1 :: es1 ++ es2 /\ quiet es1 /\
    (exists es', es1 = ELook F :: es') /\
    run (fixit_bytes (tool_of Y) p content cfg autofix hook) es1 (Returned r) /\
    match r with
    | Some ((_ :: _) as c) => (c = content /\ es2 = []) \/
        (c <> content /\ (es2 = [EWrite p c (Ok tt)] \/ exists e a, es2 = [EWrite p c (Err e); EGive (error_result p e) a]))
    | _ => es2 = []
    end.
Proof.
  intros Y p autofix opts hook es content cfg F ks (R & (F0 & F1 & es' & -> & Ef & Eg) & _ & _).
  destruct (file_complete _ _ _ _ _ _ _ _ _ _ R Ef Eg) as (es1 & es2 & r & E & Rb & K).
  exists F0, F1, es1, es2, r. rewrite <- E. split; auto. pose proof Rb as Rb0. apply bytes_run in Rb0. destruct Rb0 as [Q [[_ X]|(F2 & es3 & -> & _)]]; [discriminate|].
  cbn [app] in E. injection E as <- _. eauto.
Qed.

Opaque fixit_bytes.

(** A file that holds the code of a VALID case of a rule that passed its tests, linted with this rule: one clean result, whether
    fixes are to be applied or not, and nothing is written. *)
Theorem C90_valid : forall Y Y2 H F names k code content p autofix opts hook es cfg F2 k2,
  (forall l, Permutation (h_order H l) l) -> (forall F, fair_sets (y_world Y F)) -> same_language Y Y2 ->
  test_of Y H F names = 0%Z -> under_test Y H F names k -> case_of H F k (TValid code) -> holds_case H (TValid code) content ->
  linted Y2 p autofix opts hook es content cfg F2 [k2] -> y_code Y2 F2 k2 = y_code Y F k ->
  results es = [Result p None None] /\ written es = [].
Proof.
  intros Y Y2 H F names k code content p autofix opts hook es cfg F2 k2 Or Fa Sl T U Ca Ho Li Ek.
  pose proof (shown_other _ _ _ _ _ _ Sl (tested_shown _ _ _ _ _ _ _ Or Fa T U Ca Ho)) as Sh. rewrite <- Ek in Sh.
  destruct (shown_lint _ _ _ _ _ _ p cfg Sh (proj1 (proj2 (proj2 Li)))) as (vs & L & P & _). cbn [promised] in P. subst vs.
  destruct (linted_run _ _ _ _ _ _ _ _ _ _ Li) as (F0 & F1 & es1 & es2 & r & -> & Q & (es' & ->) & Rb & K).
  destruct Li as (_ & _ & _ & Nh). apply bytes_run in Rb. destruct Rb as [_ [[_ X]|(F3 & es3 & E & Rb)]]; [discriminate|]. injection E as <- <-. rewrite L in Rb.
  destruct Rb as (err' & Rr & Rb).
  assert (Ac : accepted autofix (given (ELook F2 :: es')) = []).
  { destruct (accepted autofix (given (ELook F2 :: es'))) as [|v l] eqn:E; auto. exfalso.
    assert (I : In v (accepted autofix (given (ELook F2 :: es')))) by (rewrite E; simpl; auto). unfold accepted in I. apply in_flat_map in I. destruct I as ([x a] & Ix & I).
    cbn [fst snd] in I. destruct (x_violation x) as [v'|] eqn:Ex; [|contradiction].
    assert (Ir : In x (report_of p [] err')) by (rewrite <- Rr; unfold results; apply in_map_iff; exists (x, a); auto).
    unfold report_of in Ir. cbn [map app] in Ir. destruct err'; destruct Ir as [<-|[]]; discriminate. }
  assert (err' = None) as ->.
  { destruct err' as [e|]; auto. exfalso. destruct Rb as (_ & [X|[(_ & _ & m & I)|(_ & X & _)]]); [discriminate| |congruence].
    apply (Nh m e). right. right. apply in_or_app. auto. }
  destruct Rb as (_ & Rb). rewrite Ac in Rb. subst r. subst es2. rewrite app_nil_r. split; [exact Rr|].
  cbn [written]. apply quiet_written in Q. exact Q.
Qed.

(** The code of an INVALID case: at least one violation, each with the range and the message of the case if it gives them; and
    nothing else, no error and nothing written, if no fix is accepted. *)
Theorem C90_invalid : forall Y Y2 H F names k i content p autofix opts hook es cfg F2 k2,
  (forall l, Permutation (h_order H l) l) -> (forall F, fair_sets (y_world Y F)) -> same_language Y Y2 ->
  test_of Y H F names = 0%Z -> under_test Y H F names k -> case_of H F k (TInvalid i) -> holds_case H (TInvalid i) content ->
  linted Y2 p autofix opts hook es content cfg F2 [k2] -> y_code Y2 F2 k2 = y_code Y F k ->
  exists vs, vs <> [] /\ Forall (meets i) vs /\ violations (results es) = vs /\
    (accepts_none autofix es -> results es = map (fun v => Result p (Some v) None) vs /\ written es = []).
Proof.
  intros Y Y2 H F names k i content p autofix opts hook es cfg F2 k2 Or Fa Sl T U Ca Ho Li Ek.
  pose proof (shown_other _ _ _ _ _ _ Sl (tested_shown _ _ _ _ _ _ _ Or Fa T U Ca Ho)) as Sh. rewrite <- Ek in Sh.
  destruct (shown_lint _ _ _ _ _ _ p cfg Sh (proj1 (proj2 (proj2 Li)))) as (vs & L & (Ne & Me) & _).
  destruct (linted_run _ _ _ _ _ _ _ _ _ _ Li) as (F0 & F1 & es1 & es2 & r & -> & Q & (es' & ->) & Rb & K).
  destruct Li as (_ & _ & _ & Nh). apply bytes_run in Rb. destruct Rb as [_ [[_ X]|(F3 & es3 & E & Rb)]]; [discriminate|]. injection E as <- <-. rewrite L in Rb.
  destruct Rb as (err' & Rr & Rb). exists vs. split; auto. split; auto.
  assert (Rs : results (ELook F0 :: ELook F1 :: (ELook F2 :: es') ++ es2) = report_of p vs err' ++ results es2).
  { rewrite <- Rr. change (results (ELook F0 :: ELook F1 :: ?a)) with (results a). now rewrite results_app. }
  split.
  - rewrite Rs. unfold violations. rewrite flat_map_app. fold (violations (report_of p vs err')). fold (violations (results es2)). rewrite violations_report.
    replace (violations (results es2)) with (@nil viol); [now rewrite app_nil_r|]. clear - K.
    destruct r as [[|c r]|]; try (subst; reflexivity). destruct K as [[_ ->]|[_ [->|(e & a & ->)]]]; reflexivity.
  - intros An. assert (Ac : accepted autofix (given (ELook F2 :: es')) = []).
    { apply accepts_none_none. destruct An as [-> An]. split; auto. intros x a I. apply (An x a). change (given (ELook F0 :: ELook F1 :: ?l)) with (given l). clear - I.
      induction ((ELook F2 :: es')) as [|e l IH]; [contradiction|]. destruct e; cbn [given app] in *; auto. destruct I; simpl; auto. }
    assert (err' = None) as ->.
    { destruct err' as [e|]; auto. exfalso. destruct Rb as (_ & [X|[(_ & _ & m & I)|(_ & X & _)]]); [discriminate| |congruence].
      apply (Nh m e). right. right. apply in_or_app. auto. }
    destruct Rb as (_ & Rb). rewrite Ac in Rb. subst r. subst es2. rewrite app_nil_r in *. split.
    + rewrite Rs. unfold report_of. destruct vs; [congruence|]. cbn [results given map]. rewrite !app_nil_r. reflexivity.
    + cbn [written]. apply quiet_written in Q. exact Q.
Qed.

(** An INVALID case with a replacement: if all fixes are accepted and no formatter is configured, the file is written with the
    replacement (unless that is empty or what the file holds already), and nothing goes wrong unless writing does. *)
Theorem C90_fix : forall Y Y2 H F names k i e content p autofix opts hook es cfg F2 k2,
  (forall l, Permutation (h_order H l) l) -> (forall F, fair_sets (y_world Y F)) -> same_language Y Y2 ->
  test_of Y H F names = 0%Z -> under_test Y H F names k -> case_of H F k (TInvalid i) -> holds_case H (TInvalid i) content ->
  n_replacement i = Some e -> e <> [] ->
  linted Y2 p autofix opts hook es content cfg F2 [k2] -> y_code Y2 F2 k2 = y_code Y F k ->
  c_formatter cfg = None -> accepts_all autofix es ->
  exists b text, h_decode H b = Ok text /\ written_as H e text /\ stored p content b (written es) /\
    forall x err, In x (results es) -> x_error x = Some err -> In (EWrite p b (Err err)) es.
Proof.
  intros Y Y2 H F names k i e content p autofix opts hook es cfg F2 k2 Or Fa Sl T U Ca Ho Nr Ne Li Ek Fo Aa.
  pose proof (shown_other _ _ _ _ _ _ Sl (tested_shown _ _ _ _ _ _ _ Or Fa T U Ca Ho)) as Sh. rewrite <- Ek in Sh.
  destruct (shown_lint _ _ _ _ _ _ p cfg Sh (proj1 (proj2 (proj2 Li)))) as (vs & L & (Nv & Me) & Rp).
  destruct (Rp i e eq_refl Nr Ne) as (md & md' & b & text & Ep & Ea & Eb & Ed & Wr).
  destruct (linted_run _ _ _ _ _ _ _ _ _ _ Li) as (F0 & F1 & es1 & es2 & r & -> & Q & (es' & ->) & Rb & K).
  destruct Li as (_ & _ & _ & Nh). apply bytes_run in Rb. destruct Rb as [_ [[_ X]|(F3 & es3 & E & Rb)]]; [discriminate|]. injection E as <- <-. rewrite L in Rb.
  destruct Rb as (err' & Rr & Rb).
  assert (Aa' : accepts_all autofix (ELook F2 :: es')).
  { destruct Aa as [A|A]; [left; auto|right]. intros x a I. apply (A x a). change (given (ELook F0 :: ELook F1 :: ?l)) with (given l). clear - I.
    induction ((ELook F2 :: es')) as [|e l IH]; [contradiction|]. destruct e; cbn [given app] in *; auto. destruct I; simpl; auto. }
  assert (Fc : forall F', fixed_content (tool_of Y2) F' p content cfg vs = Ok b).
  { intro F'. unfold fixed_content. cbn [tool_of t_parse t_bytes]. rewrite Ep. cbn [bind]. rewrite Ea. cbn [bind]. rewrite Fo. exact Eb. }
  assert (err' = None) as ->.
  { destruct err' as [x|]; auto. exfalso.
    assert (Ac : accepted autofix (given (ELook F2 :: es')) = vs).
    { assert (Rr' : violations (results (ELook F2 :: es')) = vs) by (rewrite Rr; apply violations_report). rewrite <- Rr'. unfold results. clear - Aa'.
      assert (Z : forall l, (autofix = true \/ forall x a, In (x, a) l -> a = Some true) -> accepted autofix l = violations (map fst l)).
      { induction l as [|[x a] l IH]; intro A; [reflexivity|]. unfold accepted, violations in *. cbn [flat_map map fst snd]. rewrite IH.
        - destruct (x_violation x); auto. destruct A as [->|A]; [now destruct a as [[|]|]|]. now rewrite (A x a (or_introl eq_refl)).
        - destruct A as [A|A]; [auto|right; intros; apply (A x0 a0); simpl; auto]. }
      now apply Z. }
    destruct Rb as (_ & [X|[(_ & _ & m & I)|(_ & _ & F' & X)]]); [discriminate| |rewrite Ac, Fc in X; discriminate].
    apply (Nh m x). right. right. apply in_or_app. auto. }
  destruct Rb as (_ & Rb). rewrite (accepts_all_all _ _ _ _ Aa' Rr) in Rb. destruct vs as [|v vs]; [congruence|]. destruct Rb as (F' & c & _ & Ec & ->).
  rewrite Fc in Ec. injection Ec as <-. exists b, text. split; auto. split; auto.
  assert (Wn : written (ELook F0 :: ELook F1 :: (ELook F2 :: es') ++ es2) = written es2).
  { change (written (ELook F0 :: ELook F1 :: ?l)) with (written l). rewrite written_app, (quiet_written _ Q). reflexivity. }
  rewrite Wn.
  assert (Rs : results (ELook F0 :: ELook F1 :: (ELook F2 :: es') ++ es2) = report_of p (v :: vs) None ++ results es2).
  { rewrite <- Rr. change (results (ELook F0 :: ELook F1 :: ?a)) with (results a). now rewrite results_app. }
  assert (Rv : forall x err, In x (report_of p (v :: vs) None) -> x_error x = Some err -> False).
  { intros x err I X. unfold report_of in I. rewrite app_nil_r in I. apply in_map_iff in I. destruct I as (w & <- & _). discriminate. }
  split.
  - unfold stored. destruct b as [|c b]; [subst es2; auto|]. destruct K as [[-> ->]|[Nc [->|(err & a & ->)]]]; auto; left; repeat split; auto; discriminate.
  - intros x err I X. rewrite Rs in I. apply in_app_iff in I. destruct I as [I|I]; [exfalso; eauto|].
    destruct b as [|c b]; [subst es2; contradiction|]. destruct K as [[-> ->]|[Nc [->|(err' & a & ->)]]]; try contradiction. destruct I as [<-|[]]. injection X as <-.
    right. right. apply in_or_app. right. simpl. auto.
Qed.

(** ** Among other rules *)

Lemma filter_delivered : forall udiff md name vs rs, Forall2 (delivered udiff md) vs rs ->
  Forall2 (delivered udiff md) (filter (fun v : viol => str_eqb name (v_rule v)) vs) (filter (fun v : viol => str_eqb name (v_rule v)) rs).
Proof.
  intros udiff md name vs rs F. induction F as [|v w vs rs D F IH]; cbn [filter]; [constructor|].
  assert (E : v_rule w = v_rule v) by (unfold delivered in D; destruct (autofixable v); [destruct D as (md' & _ & ->)|subst w]; reflexivity).
  rewrite E. destruct (str_eqb name (v_rule v)); auto.
Qed.

Lemma heard_called : forall U M C xs vs v, heard U M C xs vs -> In v vs -> called C (v_rule v).
Proof. intros U M C xs vs v H I. destruct (heard_in _ _ _ _ _ _ H I) as (x & _ & _ & T & _). exact T. Qed.

Lemma visit_single : forall took t a rs m, visit_batched took t [a] = Ok (rs, m) -> exists b, after a (calls t) = Ok b /\ rs = [rule_of b].
Proof.
  intros took t a rs m H. unfold visit_batched in H. destruct (run_calls _ _ _ _ _) as [[[out m0] n0]|e] eqn:R; [|discriminate]. cbn [bind] in H. injection H as <- <-.
  apply run_calls_ok in R. inversion R as [|? b ? out' A R']; subst. inversion R'; subst. exists b. auto.
Qed.

Lemma visit_each : forall took t actors rs m, visit_batched took t actors = Ok (rs, m) -> Forall2 (fun a r => exists b, after a (calls t) = Ok b /\ r = rule_of b) actors rs.
Proof.
  intros took t actors rs m H. unfold visit_batched in H. destruct (run_calls _ _ _ _ _) as [[[out m0] n0]|e] eqn:R; [|discriminate]. cbn [bind] in H. injection H as <- <-.
  apply run_calls_ok in R. induction R as [|a b l l' A R IH]; cbn [map]; constructor; eauto.
Qed.

(** With other rules selected as well, if the run ends without an error: the violations that carry the name of the rule are those of
    the case, none if it is VALID. *)
Theorem C90_among : forall Y Y2 H F names k t content p autofix opts hook es cfg F2 k2 ks name,
  (forall l, Permutation (h_order H l) l) -> (forall F, fair_sets (y_world Y F)) -> (forall F, fair_sets (y_world Y2 F)) -> same_language Y Y2 ->
  test_of Y H F names = 0%Z -> under_test Y H F names k -> case_of H F k t -> holds_case H t content ->
  linted Y2 p autofix opts hook es content cfg F2 ks -> (forall x, In x (results es) -> x_error x = None) ->
  In k2 ks -> y_code Y2 F2 k2 = y_code Y F k ->
  called (y_code Y2 F2 k2) name -> (forall k', In k' ks -> k' <> k2 -> ~ called (y_code Y2 F2 k') name) ->
  promised t (filter (fun v => str_eqb name (v_rule v)) (violations (results es))).
Proof.
  intros Y Y2 H F names k t content p autofix opts hook es cfg F2 k2 ks name Or Fa Fa2 Sl T U Ca Ho Li Nx Ik Ek Cn Ot.
  pose proof (shown_other _ _ _ _ _ _ Sl (tested_shown _ _ _ _ _ _ _ Or Fa T U Ca Ho)) as (md & M & r & m & Ep & Ew & Ev & Ap & Pr & _). rewrite <- Ek in Ev.
  destruct (linted_run _ _ _ _ _ _ _ _ _ _ Li) as (F0 & F1 & es1 & es2 & r0 & -> & Q & (es' & ->) & Rb & K).
  destruct Li as (_ & _ & (d & s & Ec) & _). apply bytes_run in Rb. destruct Rb as [_ [[_ X]|(F3 & es3 & E & Rb)]]; [discriminate|]. injection E as <- <-.
  destruct (lint_of (tool_of Y2) F2 p content cfg) as [vs err] eqn:L. destruct Rb as (err' & Rr & Rb).
  assert (Rs : results (ELook F0 :: ELook F1 :: (ELook F2 :: es') ++ es2) = report_of p vs err' ++ results es2).
  { rewrite <- Rr. change (results (ELook F0 :: ELook F1 :: ?a)) with (results a). now rewrite results_app. }
  assert (E2 : violations (results es2) = []).
  { clear - K. destruct r0 as [[|c r]|]; try (subst; reflexivity). destruct K as [[_ ->]|[_ [->|(e & a & ->)]]]; reflexivity. }
  rewrite Rs in Nx |- *. destruct err' as [e|].
  { exfalso. enough (x_error (Result p None (Some e)) = None) by discriminate. apply Nx, in_or_app. left. unfold report_of. apply in_or_app. right. simpl. auto. }
  destruct Rb as (-> & _). unfold violations. rewrite flat_map_app. fold (violations (report_of p vs None)). fold (violations (results es2)). rewrite violations_report, E2, app_nil_r.
  (* linting *)
  unfold lint_of, tool_of in L. cbn [t_collect t_parse t_visit t_udiff] in L. rewrite Ec in L. cbn [fst bind] in L.
  destruct (selected_in _ _ _ _ _ _ (Fa2 F2) Ec) as [Nd _]. destruct ks as [|k0 ks0]; [contradiction|]. set (ks := k0 :: ks0) in *. rewrite Ep, Ew in L. cbn [bind] in L.
  destruct (visit_batched (y_took Y2) (d_tree M) (map (fun k => fresh (y_unicode Y2) M md (y_code Y2 F2 k)) ks)) as [[rs m']|e] eqn:Eb; [|cbn in L; discriminate].
  destruct (collect_violations _ _ _ _) as [evs [n|e]] eqn:Er; [|discriminate]. injection L as <-.
  destruct (C25_complete _ _ _ _ _ _ _ Er) as (D & _).
  assert (Yd : flat_map (fun e => match e with Yield v => [v] | Hook _ => [] end) evs = yields evs).
  { clear. induction evs as [|[v|x] evs IH]; cbn [flat_map yields app]; [reflexivity|now f_equal|auto]. }
  rewrite Yd. apply (filter_delivered _ _ name) in D. eapply promised_same; [exact D|].
  enough (Fq : filter (fun v : viol => str_eqb name (v_rule v)) (reported rs) = r_violations r) by (rewrite Fq; exact Pr).
  apply called_trim in Cn. pose proof (visit_heard _ _ _ _ _ _ _ Eb) as Hd. apply visit_each in Eb.
  destruct (visit_single _ _ _ _ _ Ev) as (b0 & Ab & Eb0). injection Eb0 as ->.
  assert (Hr : Forall (fun v : viol => v_rule v = name) (r_violations (rule_of b0))).
  { apply Forall_forall. intros v Iv. destruct (after_says (y_unicode Y2) M md (y_code Y2 F2 k2) _ _ (new_rule (System.k_name (y_code Y2 F2 k2)) (k_MESSAGE (y_code Y2 F2 k2))) b0 eq_refl eq_refl Ab) as (vs & V & Hh).
    cbn [new_rule r_violations app] in V. rewrite V in Iv. apply (heard_called _ _ _ _ _ _ Hh), called_trim in Iv. congruence. }
  clearbody ks. clear - Eb Hd Ik Nd Ot Ab Cn Hr. unfold reported.
  assert (Out : forall ks rs, Forall2 (fun k r => heard_from Y2 F2 md M k (r_violations r)) ks rs -> (forall k', In k' ks -> ~ called (y_code Y2 F2 k') name) ->
    filter (fun v : viol => str_eqb name (v_rule v)) (flat_map (@r_violations N repl) rs) = []).
  { clear. intros ks rs Hd N. induction Hd as [|k r ks rs Hk _ IH]; [reflexivity|]. cbn [flat_map]. rewrite filter_app, IH by (intros; apply N; simpl; auto). rewrite app_nil_r.
    assert (Z : forall v, In v (r_violations r) -> str_eqb name (v_rule v) = false).
    { intros v I. apply str_eqb_neq. intros E. apply (heard_called _ _ _ _ _ _ Hk) in I. rewrite <- E in I. apply (N k); simpl; auto. }
    clear - Z. induction (r_violations r) as [|v l IH]; [reflexivity|]. cbn [filter]. rewrite (Z v) by (simpl; auto). apply IH. intros; apply Z; simpl; auto. }
  revert rs Eb Hd. induction ks as [|k ks IH]; [contradiction|]. intros rs Eb Hd. inversion Hd as [|? r ? rs' Hk Hd']; subst. cbn [map] in Eb. inversion Eb as [|? ? ? ? (b & Ab' & Er) Eb']; subst.
  cbn [flat_map]. rewrite filter_app. inversion Nd; subst. destruct Ik as [->|Ik].
  - rewrite Ab' in Ab. injection Ab as ->. rewrite (Out _ _ Hd').
    + rewrite app_nil_r. clear - Hr. induction Hr as [|v l E Hr IH]; [reflexivity|]. cbn [filter]. rewrite E, str_eqb_refl. f_equal. exact IH.
    + intros k' Ik' Ck. apply (Ot k'); simpl; auto. intros ->. contradiction.
  - rewrite IH; auto.
    + replace (filter _ (r_violations (rule_of b))) with (@nil viol); [reflexivity|]. symmetry.
      assert (O : filter (fun v : viol => str_eqb (trim_rule (System.k_name (y_code Y2 F2 k2))) (v_rule v)) (flat_map (@r_violations N repl) [rule_of b]) = []) by (apply (Out [k]); [constructor; [exact Hk|constructor]|intros k' [<-|[]] Ck; apply (Ot k); simpl; auto; intros ->; contradiction]). cbn [flat_map] in O. rewrite app_nil_r in O. exact O.
    + intros k' I' N' C'. apply (Ot k'); simpl; auto.
Qed.
