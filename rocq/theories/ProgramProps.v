(** * C87: fixing files that hold programs, again and again *)
From Coq Require Import String List NArith ZArith Bool Arith Lia Permutation.
From Verif Require Import Base PyStr Py Rules RulesSpec Whole WholeSpec WholeFacts WholeProps Ftypes Paths Config Collect CollectSpec CollectFacts CollectSelect
  Suppress SuppressSpec Cst EngineSpec EditFacts Engine EngineProps Batch BatchProps Api ApiSpec ApiFacts ApiProps ApiPaths System SystemSpec SystemProps SystemSame
  Session SessionSpec SessionProps Cli CliSpec CliFacts CliProps Commands CommandsSpec CommandsProps FixSpec FixProps DiskSpec DiskProps ProgramSpec ProgramFacts.
From Verif Require Import EditorSpec.
From Verif Require EditorProps.
Import ListNotations.

Opaque fixit_bytes.

(** If linting a file ends without an error, every rule has gone through it. *)
Lemma file_works : forall Y p autofix opts hook es, (forall F, fair_sets (y_world Y F)) ->
  run (fixit_file (tool_of Y) p autofix opts hook) es (Returned tt) -> no_errors es ->
  exists F content F1 cfg F2 es', es = ELook F :: ELook F1 :: ELook F2 :: es' /\ f_file F p = Some content /\ generate_config (y_env Y) F1 p None opts = Ok cfg /\
    workable Y F2 cfg p content.
Proof.
  intros Y p autofix opts hook es Fa H Ne. destruct (file_run _ _ _ _ _ _ H Ne) as (F & content & F1 & cfg & es1 & es2 & r & -> & Ef & Eg & R & E2).
  apply bytes_run in R. destruct R as [_ [[_ X]|(F2 & es' & -> & R)]]; [discriminate|].
  destruct (lint_of (tool_of Y) F2 p content cfg) as [vs err] eqn:L. cbv zeta in R. destruct R as (err' & Rr & R).
  assert (Rs : results (ELook F :: ELook F1 :: (ELook F2 :: es') ++ es2) = report_of p vs err').
  { rewrite <- Rr. change (results (ELook F :: ELook F1 :: (ELook F2 :: es') ++ es2)) with (results ((ELook F2 :: es') ++ es2)). rewrite results_app, E2. apply app_nil_r. }
  unfold no_errors in Ne. rewrite Rs in Ne.
  destruct err' as [e|].
  { exfalso. enough (x_error (Result p None (Some e)) = None) by discriminate. apply Ne. unfold report_of. apply in_or_app. right. simpl. auto. }
  destruct R as [-> _]. exists F, content, F1, cfg, F2, (es' ++ es2). split; [reflexivity|]. split; auto. split; auto. apply EditorProps.workable_lint; auto. now rewrite L.
Qed.

Lemma matches_heard : forall U M C xs vs, (forall s, ~ silenced U M C s) -> heard U M C xs vs -> Forall2 matches vs xs.
Proof.
  intros U M C xs vs N H. induction H as [|x xs vs S H IH|x v xs vs S T H IH]; [constructor|now apply N in S|]. constructor; auto.
  destruct T as (_ & A & B & _). split; auto.
Qed.

Lemma perm_rules : forall (A B : Type) (R : A -> B -> Prop) l1 l2 m1, Permutation l1 l2 -> Forall2 R l1 m1 -> exists m2, Permutation m1 m2 /\ Forall2 R l2 m2.
Proof.
  intros A B R l1 l2 m1 P. revert m1. induction P as [|x l l' P IH|x y l|l l' l'' P1 IH1 P2 IH2]; intros m1 F.
  - inversion F; subst. exists []. auto.
  - inversion F as [|? b ? m' F1 F2]; subst. destruct (IH _ F2) as (m2 & Pm & Fm). exists (b :: m2). auto.
  - inversion F as [|? b ? m' F1 F2]; subst. inversion F2 as [|? b' ? m'' F3 F4]; subst. exists (b' :: b :: m''). split; [apply perm_swap|auto].
  - destruct (IH1 _ F) as (m2 & Pm & Fm). destruct (IH2 _ Fm) as (m3 & Pm' & Fm'). exists m3. split; auto. eapply perm_trans; eauto.
Qed.

Section Program.
  Context (node : N -> bool) (form : expr -> tree -> Prop) (Law : form_law form).
  Notation laid := (laid node form).
  Notation reads := (reads node form).
  Notation runs_with := (runs_with node form).
  Notation readable := (readable node form).
  Notation one_fix := (one_fix node form).
  Notation fixes_again := (fixes_again node form).

  Lemma crash_none : forall rules e, (forall r x err, In r rules -> In x (subnodes e) -> r x <> Err err) -> crashes rules e = false.
  Proof.
    intros rules e H. apply not_true_is_false. rewrite crashes_iff. intros (x & r & err & Ix & Ir & E). eapply H; eauto.
  Qed.

  (** One file: what comes from a program is the program after one run. *)
  Lemma program_step : forall Y F p opts vs old new e rules, comes_from Y F p opts vs vs old new -> reads Y old e -> runs_with Y F p opts rules e ->
    (forall cfg, generate_config (y_env Y) F p None opts = Ok cfg -> workable Y F cfg p old) ->
    (forall rules', Permutation rules' rules -> readable Y p opts (Whole.fix_run rules' e)) ->
    ~ raises rules e /\ exists rules', Permutation rules' rules /\ reads Y new (Whole.fix_run rules' e) /\
      (finished rules e -> forall v, In v vs -> v_replacement v = None).
  Proof.
    intros Y F p opts vs old new e rules (cfg & Eg & Cf) (md & M & Ep & Hd) Rw Wk Rd. destruct (Rw cfg Eg) as (ks & Nk & Sel & Ob).
    destruct (Wk cfg Eg) as (_ & Wk').
    assert (Obk : (forall k, In k ks -> completes Y F p md M k) -> Forall2 (fun k r => (forall x err, In x (subnodes e) -> r x <> Err err) /\
      let C := y_code Y F k in speaks node form r (m_tree md) e (says C md (calls (d_tree M)) (k_first C))) ks rules).
    { intro Cp. clear - Ob Ep Hd Cp. induction Ob as [|k r ks rules O1 O2 IH]; constructor; [eapply O1; eauto; apply Cp; simpl; auto|apply IH; intros k' I; apply Cp; simpl; auto]. }
    destruct Hd as (Ew & L & Nd & Ns).
    destruct Cf as [(No & -> & ->)|(md0 & M0 & Ep0 & Ew0 & Ac & Cf)].
    - assert (ks = []) as -> by (destruct ks as [|k ks]; auto; exfalso; apply (No k), Sel; simpl; auto). inversion Ob; subst.
      assert (Cr : crashes [] e = false) by (apply crash_none; intros r x err []).
      assert (Fe : Whole.fix_run [] e = e). { apply settled. right. intros x r e' _ []. }
      split; [intros (x & r & err & _ & [] & _)|]. exists []. split; auto. rewrite Fe. split; [exists md, M; split; [exact Ep|split; auto]|]. intros _ v Iv. destruct Iv.
    - assert (md0 = md) as -> by congruence. assert (M0 = M) as -> by congruence. clear Ep0 Ew0.
      destruct Ac as (ks' & parts & Nk' & Sel' & Hh & -> & Sf).
      assert (Pk : Permutation ks ks') by (apply NoDup_Permutation; auto; intro k; rewrite Sel, Sel'; reflexivity).
      assert (Cp : forall k, In k ks -> completes Y F p md M k).
      { intros k I. destruct Wk' as [Wk'|(md1 & M1 & Ep1 & Ew1 & Wk')]; [exfalso; apply (Wk' k), Sel; auto|].
        assert (md1 = md) as -> by congruence. assert (M1 = M) as -> by congruence. apply Wk', Sel. auto. }
      specialize (Obk Cp). destruct (perm_rules _ _ _ _ _ _ Pk Obk) as (rules' & Pr & Ob'). apply Permutation_sym in Pr.
      assert (Nr : forall r x err, In r rules' -> In x (subnodes e) -> r x <> Err err).
      { clear - Ob'. induction Ob' as [|k r ks rules' (O1 & _) O2 IH]; intros r' x err I Ix; [contradiction|]. destruct I as [->|I]; eauto. }
      assert (Sp : Forall2 (fun r l => exists xs, speaks node form r (m_tree md) e xs /\ Forall2 matches l xs) rules' parts).
      { clear - Ob' Hh Ns. revert parts Hh. induction Ob' as [|k r ks rules' (_ & O1) O2 IH]; intros parts Hh; inversion Hh as [|? l ? parts' H1 H2]; subst; constructor; auto.
        eexists. split; [exact O1|]. eapply matches_heard; eauto. }
      destruct (apply_program node form Law md e rules' parts L Nd Sp) as (md1 & Ea & L1).
      assert (Cr : crashes rules' e = false) by (now apply crash_none).
      assert (Fr : Whole.fix_run rules' e = pass (Whole.replacements rules') e) by (unfold Whole.fix_run; now rewrite Cr).
      split; [intros (x & r & err & Ix & Ir & E); eapply Nr; eauto; apply Permutation_in with rules; auto; now apply Permutation_sym|].
      exists rules'. split; auto. split.
      + destruct Cf as [(E0 & ->)|(Nn & md' & c & Ea' & Fm & Cc)].
        * rewrite E0 in Ea. rewrite C26_nothing_accepted in Ea by (intros v []). injection Ea as <-. exists md, M. split; auto. split; auto. rewrite Fr. auto.
        * assert (md' = md1) as -> by congruence. assert (L2 : laid (m_tree md1) (Whole.fix_run rules' e)) by (rewrite Fr; exact L1).
          destruct (Rd rules' Pr F cfg md1 c Eg L2 Fm) as (Nc & Rc). destruct Cc as [(Z & _)|(_ & ->)]; [contradiction|exact Rc].
      + intros Fi v Iv. clear - Sp Fi Iv Pr Nd.
        assert (Fi' : forall x r e', In x (subnodes e) -> In r rules' -> r x <> Ok (Some (Some e'))) by (intros; apply Fi; auto; now apply Permutation_in with rules').
        clear Fi Pr. induction Sp as [|r l rules' parts (xs & (S1 & _) & Mx) Sp IH]; [contradiction|]. cbn [concat] in Iv. apply in_app_iff in Iv. destruct Iv as [Iv|Iv].
        * assert (exists s, In s xs /\ matches v s) as (s & Is & (M1 & M2')).
          { clear - Mx Iv. induction Mx as [|w s l xs M F IH]; [contradiction|]. destruct Iv as [->|I]; [exists s; simpl; auto|]. destruct (IH I) as (s' & I' & M'). exists s'. simpl. auto. }
          destruct (S1 s Is) as (x & o & A & Rx & Q). rewrite M2'. destruct o as [e'|]; [|destruct (s_replacement s); [contradiction|auto]].
          exfalso. eapply Fi'; [eapply reached_sub; exact A|left; reflexivity|exact Rx].
        * apply IH; auto. intros x r' e' Ix Ir. apply Fi'; simpl; auto.
  Qed.

  Lemma file_program : forall Y p opts hook es F F' old e rules, (forall G, fair_sets (y_world Y G)) ->
    run (fixit_file (tool_of Y) p true opts hook) es (Returned tt) -> no_errors es -> leads F es F' -> f_file F p = Some old ->
    reads Y old e -> runs_with Y F p opts rules e -> (forall rules', Permutation rules' rules -> readable Y p opts (Whole.fix_run rules' e)) ->
    ~ raises rules e /\
    (exists rules' new, Permutation rules' rules /\ f_file F' p = Some new /\ reads Y new (Whole.fix_run rules' e)) /\
    (finished rules e -> (forall v, In v (violations (results es)) -> v_replacement v = None) /\
       ((forall cfg md c, generate_config (y_env Y) F p None opts = Ok cfg -> y_parse Y old = Ok md -> formatted Y F cfg p md c -> c = old) -> f_file F' p = Some old)).
  Proof.
    intros Y p opts hook es F F' old e rules Fa R Ne L Eo Re Rw Rd.
    destruct (told_from _ _ _ _ _ _ _ _ _ Fa R Ne L Eo (or_introl eq_refl)) as (new & En & Cf). cbn iota in Cf.
    destruct (file_leads _ _ _ _ _ _ _ _ _ R L) as [Lk _].
    destruct (file_works _ _ _ _ _ _ Fa R Ne) as (F0 & content & F1 & cfg0 & F2 & es' & Ees & Ef & Eg & Wk).
    assert (F0 = F) as -> by (apply Lk; rewrite Ees; simpl; auto). assert (F1 = F) as -> by (apply Lk; rewrite Ees; simpl; auto). assert (F2 = F) as -> by (apply Lk; rewrite Ees; simpl; auto).
    assert (content = old) as -> by congruence.
    destruct (program_step Y F p opts _ old new e rules Cf Re Rw) as (Nr & rules' & Pr & Rn & Fi); auto.
    { intros cfg E. assert (cfg = cfg0) as -> by congruence. exact Wk. }
    split; auto. split; [exists rules', new; auto|]. intro Fin. split; auto. intro St.
    destruct Cf as (cfg & Eg' & [(_ & _ & ->)|(md & M & Ep & Ew & _ & [(_ & ->)|(_ & md' & c & Ea & Fm & Cc)])]); auto.
    rewrite C26_nothing_accepted in Ea by (intros v Iv; unfold autofixable; now rewrite (Fi Fin v Iv)). injection Ea as <-.
    destruct Cc as [(_ & ->)|(_ & ->)]; auto. rewrite <- (St cfg md c Eg' Ep Fm). exact En.
  Qed.

  (** A rule that raises in the program does not get through the file. *)
  Lemma raises_fails : forall Y F p opts cfg old e rules, generate_config (y_env Y) F p None opts = Ok cfg -> reads Y old e -> runs_with Y F p opts rules e -> raises rules e ->
    ~ workable Y F cfg p old.
  Proof.
    intros Y F p opts cfg old e rules Eg (md & M & Ep & Hd) Rw (x & r & err & Ix & Ir & Er) (_ & Wk). destruct (Rw cfg Eg) as (ks & Nk & Sel & Ob).
    assert (exists k, In k ks /\ obeys node form Y F p k r e) as (k & Ik & Ok_).
    { clear - Ob Ir. induction Ob as [|k r' ks rules O1 O2 IH]; [contradiction|]. destruct Ir as [->|Ir]; [exists k; simpl; auto|]. destruct (IH Ir) as (k' & I & O). exists k'. simpl. auto. }
    destruct Wk as [Wk|(md1 & M1 & Ep1 & Ew1 & Wk)]; [apply (Wk k), Sel, Ik|]. assert (md1 = md) as -> by congruence. pose proof (proj1 Hd) as Ew. assert (M1 = M) as -> by congruence.
    destruct (Ok_ old md M Ep Hd) as (Nr & _); [apply Wk, Sel, Ik|]. eapply Nr; eauto.
  Qed.

  Lemma file_raises : forall Y p opts hook es F F' old e rules, (forall G, fair_sets (y_world Y G)) ->
    run (fixit_file (tool_of Y) p true opts hook) es (Returned tt) -> leads F es F' -> f_file F p = Some old ->
    reads Y old e -> runs_with Y F p opts rules e -> raises rules e -> ~ no_errors es /\ f_file F' p = Some old.
  Proof.
    intros Y p opts hook es F F' old e rules Fa R L Eo Re Rw Rs. destruct (file_leads _ _ _ _ _ _ _ _ _ R L) as [Lk Wr]. split.
    - intro Ne. destruct (file_works _ _ _ _ _ _ Fa R Ne) as (F0 & content & F1 & cfg0 & F2 & es' & Ees & Ef & Eg & Wk).
      assert (F0 = F) as -> by (apply Lk; rewrite Ees; simpl; auto). assert (F1 = F) as -> by (apply Lk; rewrite Ees; simpl; auto). assert (F2 = F) as -> by (apply Lk; rewrite Ees; simpl; auto).
      assert (content = old) as -> by congruence. eapply raises_fails; eauto.
    - destruct (C31_writes _ _ _ _ _ _ _ R) as (_ & _ & [W|W]).
      + destruct Wr as [[_ ->]|(c & w & W' & _)]; [exact Eo|congruence].
      + exfalso. destruct W as (F0 & content & F1 & cfg & es1 & c & w & es2 & acc & Ees & Ef & _ & _ & Eg & Rb & Ne & _).
        apply bytes_run in Rb. destruct Rb as [_ [[_ X]|(F2 & es' & -> & Rb)]]; [discriminate|].
        assert (F0 = F) as -> by (apply Lk; rewrite Ees; simpl; auto). assert (F1 = F) as -> by (apply Lk; rewrite Ees; simpl; auto). assert (F2 = F) as -> by (apply Lk; rewrite Ees; simpl; auto).
        assert (content = old) as -> by congruence. cbn [tool_of t_env] in Eg.
        destruct (lint_of (tool_of Y) F p old cfg) as [vs err] eqn:Li. cbv zeta in Rb. destruct Rb as (err' & Rr & Rb).
        destruct err' as [er|].
        { enough (x_error (Result p None (Some er)) = None) by discriminate. apply Ne. rewrite Rr. unfold report_of. apply in_or_app. right. simpl. auto. }
        destruct Rb as [-> _]. eapply raises_fails; eauto. apply EditorProps.workable_lint; auto. now rewrite Li.
  Qed.
End Program.

Lemma auto_quit : forall K Y d opts m diff paths z vs o, crun (whole_fix K Y d opts m false diff paths z) vs o -> ~ In (Some Quit) (asked vs).
Proof.
  intros K Y d opts m diff paths z vs o H. unfold whole_fix in H. cbv zeta in H. cbn [andb negb] in H. inversion H as [| | | | |? F0 vs' ? H'| | |]; subst; [intros []|].
  cbn [asked flat_map app]. fold (asked vs'). destruct (generate_config _ _ _ _ _) as [cfg|e]; [|inversion H'; intros []]. rewrite (auto_asked K diff (first_is_dash (or_cwd K paths)) cfg (whole_paths Y d (or_cwd K paths) true (Some opts) m z) no_tally vs' o H'). intros [].
Qed.

(** C87, one command: a file with a program, for which no error is reported, holds afterwards the program that one run of its rules (in some order)
    makes of it; no rule raises anywhere in it. *)
Theorem C87_fix : forall node form K Y d opts m diff paths z vs code F F', form_law form ->
  (forall G, fair_sets (y_world Y G)) -> first_is_dash paths = false ->
  crun (whole_fix K Y d opts m false diff paths z) vs (Returned code) -> leads F (effects vs) F' ->
  exists ps l,
    make_plan (y_walk Y F) d false (match paths with [] => [PathArg (k_cwd K)] | _ => paths end) = Ok (Some (Serial ps)) /\
    visits Y true (Some opts) m z ps l /\ effects vs = ELook F :: ELook F :: api_effects (concat (map snd l)) /\
    (NoDup ps -> forall p zp es, In (p, (zp, es)) (combine ps l) -> no_errors es ->
       forall old e rules, f_file F p = Some old -> reads node form Y old e ->
         (forall G, (forall q, f_file G q <> f_file F q -> In q ps /\ q <> p) -> (forall q, f_isdir G q = f_isdir F q) -> runs_with node form (system_at Y zp) G p (Some opts) rules e) ->
         (forall rules', Permutation rules' rules -> readable node form Y p (Some opts) (Whole.fix_run rules' e)) ->
         ~ raises rules e /\ exists rules' new, Permutation rules' rules /\ f_file F' p = Some new /\ reads node form Y new (Whole.fix_run rules' e)).
Proof.
  intros node form K Y d opts m diff paths z vs code F F' Law Fa Da H L.
  pose proof (auto_quit _ _ _ _ _ _ _ _ _ _ H) as Q.
  destruct (fix_visits _ _ _ _ _ _ _ _ _ _ _ Da H Q) as (F0 & F1 & ps & l & P & Vi & Ef & _). rewrite Ef in L. apply leads_two in L. destruct L as (-> & -> & L).
  apply (proj1 (leads_effects _ _ _)) in L. exists ps, l. split; auto. split; auto. split; auto.
  intros Nd p zp es I Ne old e rules Eo Re Rw Rd. destruct (visits_disk _ _ _ _ _ _ _ Vi _ _ L Nd _ _ _ I) as (G & G' & A1 & A2 & A3 & A4 & A5).
  destruct (visits_part _ _ _ _ _ _ _ Vi _ _ _ I) as (R & _).
  destruct (file_program node form Law (system_at Y zp) p (Some opts) m es G G' old e rules) as (Nr & (rules' & new & Pr & En & Rn) & _); auto; [congruence|].
  split; auto. exists rules', new. split; auto. split; [congruence|exact Rn].
Qed.

(** C87, a rule that raises somewhere in the program: an error is reported and the file stays as it is. *)
Theorem C87_raises : forall node form K Y d opts m diff paths z vs code F F',
  (forall G, fair_sets (y_world Y G)) -> first_is_dash paths = false ->
  crun (whole_fix K Y d opts m false diff paths z) vs (Returned code) -> leads F (effects vs) F' ->
  exists ps l,
    make_plan (y_walk Y F) d false (match paths with [] => [PathArg (k_cwd K)] | _ => paths end) = Ok (Some (Serial ps)) /\
    visits Y true (Some opts) m z ps l /\ effects vs = ELook F :: ELook F :: api_effects (concat (map snd l)) /\
    (NoDup ps -> forall p zp es, In (p, (zp, es)) (combine ps l) ->
       forall old e rules, f_file F p = Some old -> reads node form Y old e ->
         (forall G, (forall q, f_file G q <> f_file F q -> In q ps /\ q <> p) -> (forall q, f_isdir G q = f_isdir F q) -> runs_with node form (system_at Y zp) G p (Some opts) rules e) ->
         raises rules e -> ~ no_errors es /\ f_file F' p = Some old).
Proof.
  intros node form K Y d opts m diff paths z vs code F F' Fa Da H L.
  pose proof (auto_quit _ _ _ _ _ _ _ _ _ _ H) as Q.
  destruct (fix_visits _ _ _ _ _ _ _ _ _ _ _ Da H Q) as (F0 & F1 & ps & l & P & Vi & Ef & _). rewrite Ef in L. apply leads_two in L. destruct L as (-> & -> & L).
  apply (proj1 (leads_effects _ _ _)) in L. exists ps, l. split; auto. split; auto. split; auto.
  intros Nd p zp es I old e rules Eo Re Rw Rs. destruct (visits_disk _ _ _ _ _ _ _ Vi _ _ L Nd _ _ _ I) as (G & G' & A1 & A2 & A3 & A4 & A5).
  destruct (visits_part _ _ _ _ _ _ _ Vi _ _ _ I) as (R & _).
  destruct (file_raises node form (system_at Y zp) p (Some opts) m es G G' old e rules) as (Ne & E); [exact Fa|exact R|exact A1|congruence|exact Re|now apply Rw|exact Rs|].
  split; auto. congruence.
Qed.

Section Again.
  Context (node : N -> bool) (form : expr -> tree -> Prop) (Law : form_law form).
  Notation reads := (reads node form).
  Notation readable := (readable node form).
  Notation one_fix := (one_fix node form).
  Notation fixes_again := (fixes_again node form).

  Lemma becomes_snoc : forall rules e e1 rules', becomes rules e e1 -> Permutation rules' rules -> becomes rules e (Whole.fix_run rules' e1).
  Proof. intros rules e e1 rules' B P. induction B as [e|e r1 e' P1 B IH]; [apply (bc_run rules e rules'); [exact P|constructor]|apply (bc_run rules e r1); [exact P1|auto]]. Qed.

  Lemma one_step : forall Y opts p rules e0 e F es F' old, (forall G, fair_sets (y_world Y G)) ->
    one_fix Y opts p rules e0 F es F' -> becomes rules e0 e -> f_file F p = Some old -> reads Y old e -> (forall e', becomes rules e0 e' -> readable Y p (Some opts) e') ->
    ~ raises rules e /\
    (exists rules' new, Permutation rules' rules /\ f_file F' p = Some new /\ reads Y new (Whole.fix_run rules' e)) /\
    (finished rules e -> (forall v, In v (violations (results es)) -> v_replacement v = None) /\
       ((forall G cfg md c, generate_config (y_env Y) G p None (Some opts) = Ok cfg -> y_parse Y old = Ok md -> formatted Y G cfg p md c -> c = old) -> f_file F' p = Some old)).
  Proof.
    intros Y opts p rules e0 e F es F' old Fa (K & d & m & diff & paths & z & vs & code & ps & l & zp & Da & H & L & P & Nd & Vi & Ef & I & Ne & Rw) Be Eo Re Rd.
    rewrite Ef in L. apply leads_two in L. destruct L as (_ & _ & L). apply (proj1 (leads_effects _ _ _)) in L.
    destruct (visits_disk _ _ _ _ _ _ _ Vi _ _ L Nd _ _ _ I) as (G & G' & A1 & A2 & A3 & A4 & A5).
    destruct (visits_part _ _ _ _ _ _ _ Vi _ _ _ I) as (R & _).
    assert (Bt : forall rules', Permutation rules' rules -> becomes rules e0 (Whole.fix_run rules' e)).
    { intros rules' Pr. now apply becomes_snoc. }
    destruct (file_program node form Law (system_at Y zp) p (Some opts) m es G G' old e rules) as (Nr & (rules' & new & Pr & En & Rn) & Fi); [exact Fa|exact R|exact Ne|exact A1|congruence|exact Re|now apply Rw|intros rules' Pr; apply Rd, Bt, Pr|].
    split; auto. split; [exists rules', new; split; auto; split; [congruence|exact Rn]|]. intro Fin. destruct (Fi Fin) as (V & St). split; auto. intro X. rewrite A3. apply St. intros cfg md c. apply X.
  Qed.

  Lemma finished_perm : forall rules rules' e, Permutation rules' rules -> finished rules e -> finished rules' e.
  Proof. intros rules rules' e P F x r e' Ix Ir. apply F; auto. eapply Permutation_in; eauto. Qed.
  Lemma raises_perm : forall rules rules' e, Permutation rules' rules -> raises rules' e -> raises rules e.
  Proof. intros rules rules' e P (x & r & err & Ix & Ir & E). exists x, r, err. split; auto. split; auto. eapply Permutation_in; eauto. Qed.

  Lemma again_program : forall Y opts p rules e0, (forall G, fair_sets (y_world Y G)) -> (forall e', becomes rules e0 e' -> readable Y p (Some opts) e') ->
    forall n F F', fixes_again Y opts p rules e0 n F F' -> forall old e, becomes rules e0 e -> f_file F p = Some old -> reads Y old e ->
    forall deq is_isinstance qual code_length reads_same (use_equal use_is : bool),
    incl rules ((if use_equal then [rule_by_equal] else []) ++ (if use_is then [rule_by_is qual] else []) ++ other_rules deq is_isinstance code_length reads_same) ->
    (use_equal = true -> use_is = true -> forall e', becomes rules e0 e' -> ~ mixed_comparison qual e') ->
    exists new e', f_file F' p = Some new /\ reads Y new e' /\ becomes rules e0 e' /\ (finished rules e -> finished rules e') /\ (finished rules e' \/ weight qual use_equal use_is e' + n <= weight qual use_equal use_is e).
  Proof.
    intros Y opts p rules e0 Fa Rd n F F' H. induction H as [F|n F es F1 F2 H1 H2 IH]; intros old e Be Eo Re deq isin qual cl rs ue ui Sel Mx.
    - exists old, e. split; auto. split; auto. split; auto. split; auto. right. lia.
    - destruct (one_step _ _ _ _ _ _ _ _ _ _ Fa H1 Be Eo Re Rd) as (Nr & (rules' & c1 & Pr & E1 & R1) & _).
      pose proof (becomes_snoc _ _ _ _ Be Pr) as B1. destruct (IH c1 _ B1 E1 R1 deq isin qual cl rs ue ui Sel Mx) as (new & e' & En & Rn & Bn & Fn & Q). exists new, e'. split; auto. split; auto. split; auto.
      assert (St : finished rules e -> finished rules e').
      { intro Fi. apply Fn. rewrite (settled rules' e); auto. right. eapply finished_perm; eauto. }
      split; auto. destruct Q as [Q|Q]; auto.
      assert (Sel' : incl rules' ((if ue then [rule_by_equal] else []) ++ (if ui then [rule_by_is qual] else []) ++ other_rules deq isin cl rs)) by (intros r I; apply Sel; eapply Permutation_in; eauto).
      destruct (finished_or_not rules' e) as [Fi|X].
      + left. apply St. eapply finished_perm; [apply Permutation_sym|]; eauto.
      + right. enough (weight qual ue ui (Whole.fix_run rules' e) < weight qual ue ui e) by lia.
        apply (lighter deq isin qual cl rs ue ui rules' Sel'); auto.
        * intros U1 U2. apply Mx; auto.
        * intros U1 U2. apply Mx; auto.
        * apply not_true_is_false. rewrite crashes_iff. intro Rs. apply Nr. eapply raises_perm; eauto.
  Qed.
End Again.

(** C87, again and again: after at most 13 commands for each node of the program nothing is left to fix in it. *)
Theorem C87_stops : forall node form Y opts p deq is_isinstance qual code_length reads_same (use_equal use_is : bool) rules n F F' old e, form_law form ->
  (forall G, fair_sets (y_world Y G)) ->
  incl rules ((if use_equal then [rule_by_equal] else []) ++ (if use_is then [rule_by_is qual] else []) ++ other_rules deq is_isinstance code_length reads_same) ->
  (use_equal = true -> use_is = true -> forall e', becomes rules e e' -> ~ mixed_comparison qual e') ->
  f_file F p = Some old -> reads node form Y old e -> (forall e', becomes rules e e' -> readable node form Y p (Some opts) e') ->
  fixes_again node form Y opts p rules e n F F' -> 13 * List.length (subnodes e) <= n ->
  exists new e', f_file F' p = Some new /\ reads node form Y new e' /\ becomes rules e e' /\ finished rules e'.
Proof.
  intros node form Y opts p deq isin qual cl rs ue ui rules n F F' old e Law Fa Sel Mx Eo Re Rd H Le.
  destruct (again_program node form Law Y opts p rules e Fa Rd n F F' H old e (bc_same _ _) Eo Re deq isin qual cl rs ue ui Sel Mx) as (new & e' & En & Rn & Bn & _ & Q).
  exists new, e'. split; auto. split; auto. split; auto. destruct Q as [Q|Q]; auto. exfalso.
  pose proof (weight_bound qual ue ui e). pose proof (weight_ge qual ue ui e'). lia.
Qed.

(** C87, the end: where nothing is left to fix, the command proposes no fix for the file, and the file stays as it is, provided that formatting what
    was read gives what was read. *)
Theorem C87_done : forall node form Y opts p rules e0 e F es F' old, form_law form -> (forall G, fair_sets (y_world Y G)) ->
  one_fix node form Y opts p rules e0 F es F' -> becomes rules e0 e -> f_file F p = Some old -> reads node form Y old e ->
  (forall e', becomes rules e0 e' -> readable node form Y p (Some opts) e') -> finished rules e ->
  (forall x, In x (results es) -> fixable x = false) /\
  ((forall G cfg md c, generate_config (y_env Y) G p None (Some opts) = Ok cfg -> y_parse Y old = Ok md -> formatted Y G cfg p md c -> c = old) -> f_file F' p = Some old).
Proof.
  intros node form Y opts p rules e0 e F es F' old Law Fa H Be Eo Re Rd Fi.
  destruct (one_step node form Law _ _ _ _ _ _ _ _ _ _ Fa H Be Eo Re Rd) as (_ & _ & X). destruct (X Fi) as (V & St). split; auto.
  intros x Ix. unfold fixable. destruct (x_violation x) as [v|] eqn:E; auto. unfold autofixable. rewrite (V v); auto. apply in_violations. eauto.
Qed.

