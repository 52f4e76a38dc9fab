(** * C89: fixing a file keeps what its program does *)
From Coq Require Import String List NArith ZArith Bool Arith Lia Permutation.
From Verif Require Import Base PyStr Py Rules RulesSpec RulesProps RulesProps2 Whole WholeSpec WholeFacts WholeProps WholeRuns Ftypes Paths Config Collect CollectSpec
  Suppress SuppressSpec Cst Engine Batch Api ApiSpec System SystemSpec Session SessionSpec Cli CliSpec Commands CommandsSpec DiskSpec
  ProgramSpec ProgramFacts ProgramProps Visitors VisitorsSpec VisitorsFacts VisitorsProps.
Import ListNotations.

(** The commands, as those of C87 *)
Lemma commands_again : forall node form other read write text msg deq is_isinstance qual code_length reads_same Y opts p crs n F F' e,
  reads_nodes node form read -> (forall c md M, y_parse Y c = Ok md -> y_wrap Y md = Ok M -> seen node other read md M) ->
  incl crs (class_codes node read write text msg deq is_isinstance qual code_length reads_same) ->
  (forall e' r, becomes (map snd crs) e e' -> In r (map snd crs) -> writes_fixes node form write r e') ->
  commands Y opts p (map fst crs) n F F' -> fixes_again node form Y opts p (map snd crs) e n F F'.
Proof.
  intros node form other read write text msg deq isin qual cl rs Y opts p crs n F F' e Rn Sn Ic Ok_ H.
  induction H as [F|n F F1 F2 H1 H2 IH]; [constructor|].
  destruct H1 as (K & d & m & diff & paths & z & vs & code & ps & l & zp & es & A1 & A2 & A3 & A4 & A5 & A6 & A7 & A8 & A9 & Se).
  apply fa_one with (es := es) (F1 := F1); [|exact IH]. exists K, d, m, diff, paths, z, vs, code, ps, l, zp. repeat (split; [assumption|]).
  intros G e' Hf Hd B. eapply C88_runs with (crs := crs); eauto.
  intros c md M Ep (Ew & _). exact (Sn c md M Ep Ew).
Qed.

Lemma again_becomes : forall node form, form_law form -> forall Y opts p rules e0, (forall G, fair_sets (y_world Y G)) -> (forall e', becomes rules e0 e' -> readable node form Y p (Some opts) e') ->
  forall n F F', fixes_again node form Y opts p rules e0 n F F' -> forall old e, becomes rules e0 e -> f_file F p = Some old -> reads node form Y old e ->
  exists new e', f_file F' p = Some new /\ reads node form Y new e' /\ becomes rules e0 e'.
Proof.
  intros node form Law Y opts p rules e0 Fa Rd n F F' H. induction H as [F|n F es F1 F2 H1 H2 IH]; intros old e Be Eo Re; [eauto|].
  destruct (one_step node form Law _ _ _ _ _ _ _ _ _ _ Fa H1 Be Eo Re Rd) as (_ & (rules' & c1 & Pr & E1 & R1) & _). exact (IH c1 _ (becomes_snoc _ _ _ _ Be Pr) E1 R1).
Qed.

Lemma codes_rules : forall node read write text msg deq is_isinstance qual code_length reads_same crs,
  incl crs (class_codes node read write text msg deq is_isinstance qual code_length reads_same) ->
  incl (map snd crs) (rule_by_equal :: rule_by_is qual :: other_rules deq is_isinstance code_length reads_same).
Proof.
  intros node read write text msg deq isin qual cl rs crs Ic r Ir. apply in_map_iff in Ir. destruct Ir as ([C r'] & <- & I). apply Ic in I. cbn [snd].
  unfold class_codes in I. cbn [List.In map] in I. unfold other_rules. repeat (destruct I as [I|I]; [injection I as _ <-; cbn [List.In]; auto 15|]). destruct I.
Qed.

(** Meaning, along what a program becomes *)
Lemma becomes_meaning : forall P R deq is_isinstance qual code_length reads_same rules, assignment_law P -> function_law P ->
  incl rules (rule_by_equal :: rule_by_is qual :: other_rules deq is_isinstance code_length reads_same) ->
  forall e e', becomes rules e e' ->
  (forall e', becomes rules e e' -> plain_targets e' /\ binds_no R e' /\
    forall x r x' rho, In x (subnodes e') -> In r rules -> r x = Ok (Some (Some x')) -> free_scope P R rho -> same_meaning P rho x x') ->
  forall rho, free_scope P R rho -> same_meaning P rho e e'.
Proof.
  intros P R deq isin qual cl rs rules UL FL Sel e e' H. induction H as [e|e rules' e' Pr B IH]; intros K rho Fr s; [reflexivity|].
  assert (Sel' : incl rules' (rule_by_equal :: rule_by_is qual :: other_rules deq isin cl rs)) by (intros r I; apply Sel; eapply Permutation_in; eauto).
  rewrite (C76_meaning P R deq isin qual cl rs rules' e 1 UL FL Sel') with (rho := rho); [|intros k Hk; assert (k = 0) by lia; subst k; cbn [runs]; cbv zeta; destruct (K e (bc_same _ _)) as (K1 & K2 & K3); split; [exact K1|split; [exact K2|]]|exact Fr].
  - cbn [runs]. apply IH; [|exact Fr]. intros e'' B'. apply K. eapply bc_run; eauto.
  - intros x r x' rho' Ix Ir. apply K3; auto. eapply Permutation_in; eauto.
Qed.

(** C89: any number of "fixit fix --automatic" with built-in rule classes about expressions selected for the file. If every single fix keeps the
    meaning of the expression that it replaces, wherever it is found, then the file afterwards holds a program that means the same. *)
Theorem C89_meaning : forall P R rho node form other read write text msg deq is_isinstance qual code_length reads_same Y opts p crs n F F' old e,
  assignment_law P -> function_law P -> free_scope P R rho ->
  form_law form -> (forall G, fair_sets (y_world Y G)) -> reads_nodes node form read -> (forall c md M, y_parse Y c = Ok md -> y_wrap Y md = Ok M -> seen node other read md M) ->
  incl crs (class_codes node read write text msg deq is_isinstance qual code_length reads_same) ->
  let rules := map snd crs in
  f_file F p = Some old -> reads node form Y old e ->
  (forall e', becomes rules e e' -> readable node form Y p (Some opts) e' /\ forall r, In r rules -> writes_fixes node form write r e') ->
  (forall e', becomes rules e e' -> plain_targets e' /\ binds_no R e' /\
    forall x r x' rho, In x (subnodes e') -> In r rules -> r x = Ok (Some (Some x')) -> free_scope P R rho -> same_meaning P rho x x') ->
  commands Y opts p (map fst crs) n F F' ->
  exists new e', f_file F' p = Some new /\ reads node form Y new e' /\ same_meaning P rho e e'.
Proof.
  intros P R rho node form other read write text msg deq isin qual cl rs Y opts p crs n F F' old e UL FL Fr Law Fa Rn Sn Ic rules Eo Re Ok_ K H.
  assert (H' : fixes_again node form Y opts p rules e n F F').
  { eapply commands_again; eauto. intros e' r B Ir. now apply (Ok_ e' B). }
  destruct (again_becomes node form Law Y opts p rules e Fa (fun e' B => proj1 (Ok_ e' B)) n F F' H' old e (bc_same _ _) Eo Re) as (new & e' & En & Rn' & Bn).
  exists new, e'. split; auto. split; auto. eapply becomes_meaning; eauto. eapply codes_rules; eauto.
Qed.

(** Seven of the classes, by their names *)
Definition seven_names : list str :=
  map u ["CompareSingletonPrimitivesByIs"; "UseAssertIn"; "UseAssertIsNotNone"; "DeprecatedUnittestAsserts"; "RewriteToLiteral"; "RewriteToComprehension"; "NoRedundantFString"]%string.
Lemma seven_named : forall node read write text msg deq is_isinstance qual code_length reads_same C r,
  In (C, r) (class_codes node read write text msg deq is_isinstance qual code_length reads_same) -> In (k_name C) seven_names -> In r (seven_rules qual).
Proof.
  intros node read write text msg deq isin qual cl rs C r I Nm. unfold class_codes in I. cbn [List.In map] in I. unfold seven_rules.
  repeat (destruct I as [I|I]; [injection I as <- <-; first [cbn [List.In]; tauto|exfalso; cbn [visitor chain_visitor fstring_visitor k_name] in Nm; vm_compute in Nm; repeat (destruct Nm as [Nm|Nm]; [discriminate Nm|]); destruct Nm]|]). destruct I.
Qed.

Lemma becomes_fine : forall qual rules e e', incl rules (seven_rules qual) -> becomes rules e e' -> all_fine e -> all_fine e'.
Proof.
  intros qual rules e e' Inc B. induction B as [e|e rules' e' Pr B IH]; auto. intro A. apply IH. apply (fix_run_fine qual); auto. intros r I. apply Inc. eapply Permutation_in; eauto.
Qed.

(** ... and for these seven classes, the conditions are on the first program alone (those of C76_runs). *)
Theorem C89_seven : forall P rho self method tup lst flist ftuple fset fdict node form other read write text msg deq is_isinstance qual code_length reads_same Y opts p crs n F F' old e,
  assignment_law P -> function_law P -> honest_bools P ->
  (forall rho, free_scope P known_names rho -> test_case_laws P rho self method /\ display_laws P rho tup lst flist ftuple fset fdict) ->
  generator_laws P tup lst flist fset fdict ->
  (forall old new v s, unittest_alias old new -> p_attr P v (u old) s = p_attr P v (u new) s) ->
  (forall x, qual x = true -> exists v, names_singleton P x v /\ by_identity P v) -> free_scope P known_names rho ->
  form_law form -> (forall G, fair_sets (y_world Y G)) -> reads_nodes node form read -> (forall c md M, y_parse Y c = Ok md -> y_wrap Y md = Ok M -> seen node other read md M) ->
  incl crs (class_codes node read write text msg deq is_isinstance qual code_length reads_same) -> (forall c, In c crs -> In (k_name (fst c)) seven_names) ->
  let rules := map snd crs in
  f_file F p = Some old -> reads node form Y old e -> plain_targets e -> binds_no known_names e -> f_prefixes e -> tidy e -> calm e ->
  (forall e', becomes rules e e' -> readable node form Y p (Some opts) e' /\ forall r, In r rules -> writes_fixes node form write r e') ->
  commands Y opts p (map fst crs) n F F' ->
  exists new e', f_file F' p = Some new /\ reads node form Y new e' /\ same_meaning P rho e e'.
Proof.
  intros P rho self method tup lst flist ftuple fset fdict node form other read write text msg deq isin qual cl rs Y opts p crs n F F' old e UL FL Hb Laws Gl Al Q Fr Law Fa Rn Sn Ic Nm rules Eo Re Pt Bn Fp Ty Cm Ok_ H.
  assert (Inc : incl rules (seven_rules qual)).
  { intros r Ir. apply in_map_iff in Ir. destruct Ir as ([C r'] & <- & I). eapply seven_named; [apply Ic; exact I|exact (Nm _ I)]. }
  assert (H' : fixes_again node form Y opts p rules e n F F').
  { eapply commands_again; eauto. intros e' r B Ir. now apply (Ok_ e' B). }
  destruct (again_becomes node form Law Y opts p rules e Fa (fun e' B => proj1 (Ok_ e' B)) n F F' H' old e (bc_same _ _) Eo Re) as (new & e' & En & Rn' & Bn').
  exists new, e'. split; auto. split; auto.
  pose proof (all_fine_in e Pt Bn Fp Ty Cm) as A. clear - Bn' A Inc UL FL Hb Laws Gl Al Q Fr.
  induction Bn' as [e|e rules' e' Pr B IH]; [intro; reflexivity|]. intro s.
  assert (Inc' : incl rules' (seven_rules qual)) by (intros r I; apply Inc; eapply Permutation_in; eauto).
  destruct (all_fine_out e A) as (Pt & Bn & Fp & Ty). rewrite (C76_run P qual rules' self method tup lst flist ftuple fset fdict e rho Inc' UL FL Hb Laws Gl Al Q Pt Bn Fp Ty Fr s).
  apply IH. now apply (fix_run_fine qual).
Qed.
