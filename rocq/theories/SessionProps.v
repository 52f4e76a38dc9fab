(** * C79: the files linted before do not matter *)
From Coq Require Import String List NArith ZArith Bool Arith Lia Permutation.
From Verif Require Import Base PyStr Ftypes Paths Config Collect CollectSpec CollectFacts CollectSelect CollectProps CollectTotal Suppress SuppressSpec
  SuppressProps Cst Engine EngineProps Batch BatchProps Api ApiSpec ApiFacts ApiProps ApiPaths System SystemSpec SystemProps SystemSame Session SessionSpec SessionFacts.
Import ListNotations.

(** ** Executions of tracked generators *)

Lemma track_run : forall R (p : prog R) seen es o, run (track p seen) es o ->
  match o with
  | Returned (r, seen') => run p es (Returned r) /\ seen' = seen ++ looks es
  | Raised e => run p es (Raised e)
  | Stopped => run p es Stopped
  end.
Proof.
  intros R p. induction p as [r|e|x k IH|k IH|q c k IH|k IH|c k IH|m k IH]; intros seen es o H; cbn [track] in H;
    inversion H; subst; try (constructor; fail); try (split; [constructor|cbn; now rewrite app_nil_r]);
    match goal with H : run (track _ _) _ ?o |- _ => apply IH in H; destruct o as [[r s]|e|]; [destruct H as [H ->]; split|..] end;
    try (constructor; auto; fail); try reflexivity.
  cbn [looks flat_map]. now rewrite <- app_assoc.
Qed.

Lemma looks_app : forall a b, looks (a ++ b) = looks a ++ looks b.
Proof. intros. apply flat_map_app. Qed.


(** ** The state between files *)

Lemma no_errors_app : forall a b, no_errors (a ++ b) -> no_errors a /\ no_errors b.
Proof. intros a b H. split; intros x I; apply H; rewrite results_app; apply in_or_app; auto. Qed.

(** A file that was linted without an error: its rules were collected. *)
Lemma file_collected : forall Y p autofix opts hook es,
  run (fixit_file (tool_of Y) p autofix opts hook) es (Returned tt) -> no_errors es ->
  exists F F1 F2 l cfg ks, looks es = F :: F1 :: F2 :: l /\ generate_config (y_env Y) F1 p None opts = Ok cfg /\
    fst (collect_rules (y_world Y F2) cfg (y_py Y)) = Ok ks.
Proof.
  intros Y p autofix opts hook es H Ne. destruct (file_run _ _ _ _ _ _ H Ne) as (F & content & F1 & cfg & es1 & es2 & r & -> & Ef & Eg & R & E2).
  apply bytes_run in R. destruct R as [_ [[_ X]|(F2 & es' & -> & R)]]; [discriminate|].
  exists F, F1, F2, (looks (es' ++ es2)), cfg.
  destruct (lint_of (tool_of Y) F2 p content cfg) as [vs err] eqn:L. cbv zeta in R. destruct R as (err' & Rr & R).
  destruct err' as [e|].
  { exfalso. enough (x_error (Result p None (Some e)) = None) by discriminate. apply Ne.
    change (results (ELook F :: ELook F1 :: (ELook F2 :: es') ++ es2)) with (results ((ELook F2 :: es') ++ es2)). rewrite results_app.
    apply in_or_app. left. rewrite Rr. unfold report_of. apply in_or_app. right. simpl. auto. }
  destruct R as [-> _]. apply lint_exact in L. destruct L as (ks & d & s & Ec & _). exists (ks, d). rewrite Ec. auto.
Qed.

Section History.
  Context (Y : system) (W : world) (autofix hook : bool) (opts : option options).
  Context (world_fixed : forall F, y_world Y F = W).

  Lemma session_facts : forall ps z0 es z, run (in_session Y ps autofix opts hook z0) es (Returned z) ->
    exists ext, z_path z = z_path z0 ++ ext /\
    (ext = [] -> z_gen z0 <= z_gen z /\ remember_more (z_loaded z0) (z_loaded z) /\
       forall t x, dget t (z_loaded z) = Some x -> dget t (z_loaded z0) = Some x \/
         exists q F1 cfg, In q ps /\ In F1 (looks es) /\ generate_config (y_env Y) F1 q None opts = Ok cfg /\ x = import_path W cfg z0).
  Proof.
    induction ps as [|p ps IH]; intros z0 es z H; cbn [in_session] in H.
    - inversion H; subst. exists []. rewrite app_nil_r. split; auto. intros _. split; auto. split; auto. intros t x D. exact D.
    - apply run_pbind in H. destruct H as [[X _]|[(e & X & _)|(es1 & es2 & [[] seen] & -> & H1 & H2)]]; try discriminate.
      apply track_run in H1. destruct H1 as [H1 ->]. cbn [app snd] in H2. destruct (IH _ _ _ H2) as (ext' & A' & B'). clear IH.
      assert (Same : after_file Y p opts (looks es1) z0 = z0 \/ exists F F1 F2 l cfg, looks es1 = F :: F1 :: F2 :: l /\
        generate_config (y_env Y) F1 p None opts = Ok cfg /\ after_file Y p opts (looks es1) z0 = after_collect W cfg z0).
      { unfold after_file. destruct (looks es1) as [|F [|F1 [|F2 l]]]; auto. destruct (generate_config (y_env Y) F1 p None opts) as [cfg|] eqn:G; auto.
        right. exists F, F1, F2, l, cfg. rewrite world_fixed. auto. }
      destruct Same as [E|(F & F1 & F2 & l & cfg & El & Eg & E)]; rewrite E in *.
      + exists ext'. split; auto. intro X. destruct (B' X) as (B1 & B2 & B3). split; auto. split; auto.
        intros t x D. destruct (B3 t x D) as [|(q & G1 & cfg & I1 & I2 & I3 & ->)]; auto.
        right. exists q, G1, cfg. simpl. repeat split; auto. rewrite looks_app. apply in_or_app. auto.
      + destruct (after_collect_facts W cfg z0) as ((ext & A & _) & B & C & D). exists (ext ++ ext'). rewrite A', A, <- app_assoc. split; auto.
        intro X. apply app_eq_nil in X. destruct X as [-> ->]. rewrite app_nil_r in A. destruct (B' eq_refl) as (B1 & B2 & B3).
        split; [lia|]. split; [intros t x Hd; apply B2, C, Hd|].
        intros t x Hd. destruct (B3 _ _ Hd) as [Hd'|(q & F1' & cfg' & I1 & I2 & I3 & ->)].
        * destruct (D _ _ Hd') as [Hd0| ->]; [auto|]. right. exists p, F1, cfg. simpl. repeat split; auto. rewrite looks_app, El. simpl. auto.
        * right. exists q, F1', cfg'. simpl. repeat split; auto; [rewrite looks_app; apply in_or_app; auto|]. unfold import_path. now rewrite A.
  Qed.

  Lemma session_same : forall ps z0 es z, run (in_session Y ps autofix opts hook z0) es (Returned z) -> z_path z = z_path z0 ->
    z_gen z0 <= z_gen z /\ remember_more (z_loaded z0) (z_loaded z) /\
    forall t x, dget t (z_loaded z) = Some x -> dget t (z_loaded z0) = Some x \/
      exists q F1 cfg, In q ps /\ In F1 (looks es) /\ generate_config (y_env Y) F1 q None opts = Ok cfg /\ x = import_path W cfg z0.
  Proof.
    intros ps z0 es z H P. destruct (session_facts _ _ _ _ H) as (ext & A & B). apply B. rewrite P in A.
    rewrite <- (app_nil_r (z_path z0)) in A at 1. apply app_inv_head in A. auto.
  Qed.

  Lemma session_path : forall ps z0 es z, run (in_session Y ps autofix opts hook z0) es (Returned z) ->
    (forall x F1 cfg, In x (results es) -> x_error x <> None -> In F1 (looks es) ->
       generate_config (y_env Y) F1 (x_path x) None opts = Ok cfg -> c_import cfg = RIFalse) ->
    z_path z = z_path z0.
  Proof.
    induction ps as [|p ps IH]; intros z0 es z H Er; cbn [in_session] in H; [now inversion H|].
    apply run_pbind in H. destruct H as [[X _]|[(e & X & _)|(es1 & es2 & [[] seen] & -> & H1 & H2)]]; try discriminate.
    apply track_run in H1. destruct H1 as [H1 ->]. cbn [app snd] in H2.
    rewrite (IH _ _ _ H2). 2: { intros x F1 cfg I X L G. apply (Er x F1 cfg); auto; [rewrite results_app|rewrite looks_app]; apply in_or_app; auto. }
    unfold after_file. destruct (looks es1) as [|F [|F1 [|F2 l]]] eqn:El; auto.
    destruct (generate_config (y_env Y) F1 p None opts) as [cfg|] eqn:G; auto. rewrite world_fixed.
    destruct (after_collect_facts W cfg z0) as ((ext & A & B) & _). rewrite A, B, app_nil_r; auto.
    assert (Dec : no_errors es1 \/ exists x, In x (results es1) /\ x_error x <> None).
    { unfold no_errors. clear. induction (results es1) as [|x l [IH|(y & I & X)]].
      - left. contradiction.
      - destruct (x_error x) eqn:Ex; [right; exists x; simpl; split; auto; congruence|]. left. intros y [<-|I]; auto.
      - right. exists y. simpl. auto. }
    destruct Dec as [Ne|(x & I & X)].
    - right. destruct (file_collected _ _ _ _ _ _ H1 Ne) as (F' & F1' & F2' & l' & cfg' & ks & El' & Eg & Ec). rewrite El in El'. injection El' as <- <- <- <-.
      cbn [system_at y_env y_world y_py] in *. rewrite world_fixed in Ec. assert (cfg' = cfg) as -> by congruence. eauto.
    - left. apply (Er x F1); auto; [rewrite results_app; apply in_or_app; auto|rewrite looks_app, El; simpl; auto|].
      assert (x_path x = p) as ->; [|exact G].
      destruct (C29_about (tool_of (system_at Y z0)) p [] cfg autofix opts hook) as (_ & Ab & _). specialize (Ab _ _ H1).
      rewrite Forall_forall in Ab. now apply Ab.
  Qed.
End History.

(** ** Selection *)

Section Select.
  Context (Y : system) (W : world) (z0 z : session) (cfg : config) (F : fs).
  Context (world_here : y_world Y F = W).
  Context (path_eq : z_path z = z_path z0) (gen_le : z_gen z0 <= z_gen z) (more : remember_more (z_loaded z0) (z_loaded z)).
  Context (known : forall q t x, In q (c_enable cfg ++ c_disable cfg) -> is_local q = false -> t = top (q_module q) ->
    dget t (z_loaded z0) = None -> dget t (z_loaded z) = Some x ->
    snd (w_import W x (q_module q)) = snd (w_import W (import_path W cfg z0) (q_module q))).

  Lemma selected_later : forall k, selected (system_at Y z) F cfg k <->
    exists k0, k = later (z_gen z - z_gen z0) k0 /\ selected (system_at Y z0) F cfg k0.
  Proof.
    intro k. unfold selected. cbn [system_at y_world y_py]. rewrite world_here, !with_root_remembering.
    destruct (findings (remembering (z_loaded z0) W) (c_enable cfg) (with_root_import W cfg (PyState (z_path z0) [] (z_gen z0)))) as [fe s] eqn:E1.
    destruct (findings (remembering (z_loaded z0) W) (c_disable cfg) s) as [fd s'] eqn:E2.
    destruct (findings_both W cfg z0 z path_eq gen_le more known _ _ _ _ E1 E2) as (s1 & s1' & E1' & E2'). rewrite E1', E2'.
    set (d := z_gen z - z_gen z0). rewrite found_later. split.
    - intros ((k0 & -> & A) & B & C & D). exists k0. split; auto. split; auto. split; [|split].
      + intros [B1 B2]. apply B. rewrite found_later, named_later. split; [eauto|].
        intros (k1 & E & Hk). apply later_inj in E. subst. auto.
      + exact C.
      + exact D.
    - intros (k0 & -> & A & B & C & D). split; [eauto|]. split; [|split].
      + rewrite found_later, named_later. intros [(k1 & E & B1) B2]. apply later_inj in E. subst k1. apply B. split; auto.
        intro N. apply B2. eauto.
      + exact C.
      + exact D.
  Qed.
End Select.

(** ** What is heard is determined by what is said *)

Lemma tells_fun : forall Y p md M C x v v', tells M C x v -> tells M C x v' -> shows_fix Y p md v -> shows_fix Y p md v' -> v = v'.
Proof.
  intros Y p md M C x v v' (A & B & D & N & E & G) (A' & B' & D' & N' & E' & G') S S'.
  apply called_trim in A. apply called_trim in A'.
  assert (Em : v_message v = v_message v').
  { destruct E as [E|[[E|E] Em]], E' as [E'|[[E'|E'] Em']]; congruence. }
  assert (Er : v_range v = v_range v') by (destruct (s_position x); congruence).
  assert (Ed : v_diff v = v_diff v').
  { unfold shows_fix in S, S'. rewrite D' in S'. rewrite D in S. destruct (s_replacement x) as [[t|[|t l]|]|]; try congruence;
    destruct S as (m & S1 & S2), S' as (m' & S1' & S2').
    all: assert (X : apply_replacements md [v] = apply_replacements md [v']) by
      (unfold apply_replacements, replacements; cbn [fold_left]; unfold set_repl, autofixable; rewrite D, D', B, B'; reflexivity).
    all: congruence. }
  destruct v, v'. cbn in *. congruence.
Qed.

Lemma heard_fun : forall Y p md U M C xs vs, heard U M C xs vs -> forall vs', heard U M C xs vs' ->
  Forall (shows_fix Y p md) vs -> Forall (shows_fix Y p md) vs' -> vs = vs'.
Proof.
  intros Y p md U M C xs vs H. induction H as [|x xs vs S H IH|x v xs vs S T H IH]; intros vs' H' Fv Fv'; inversion H'; subst; try contradiction; auto.
  inversion Fv; inversion Fv'; subst. f_equal; [eapply tells_fun; eauto|apply IH; auto].
Qed.

Lemma concat_parts : forall (P : cls -> list viol -> Prop) (f : cls -> cls) ks ks0 parts parts0,
  Permutation ks (map f ks0) -> Forall2 P ks parts -> Forall2 P ks0 parts0 ->
  (forall k vs vs', In vs parts -> In vs' parts0 -> P (f k) vs -> P k vs' -> vs = vs') ->
  Permutation (concat parts) (concat parts0).
Proof.
  intros P f ks ks0 parts parts0 Pm A B Fn. destruct (Permutation_Forall2 Pm A) as (parts' & Pp & A').
  assert (E : parts' = parts0).
  { assert (Fn' : forall k vs vs', In vs parts' -> In vs' parts0 -> P (f k) vs -> P k vs' -> vs = vs').
    { intros k vs vs' I. apply Fn. eapply Permutation_in; [apply Permutation_sym; exact Pp|exact I]. }
    clear - A' B Fn'. revert parts' A' Fn'. induction B as [|k vs ks0 parts0 Hk B IH]; intros parts' A' Fn'; inversion A'; subst; auto.
    f_equal; [eapply Fn'; simpl; eauto|]. apply IH; auto. intros; eapply Fn'; simpl; eauto. }
  subst parts'. rewrite <- (map_id parts), <- (map_id parts0). rewrite <- !flat_map_concat_map. apply Permutation_flat_map. exact Pp.
Qed.

(** ** C79 *)

(** sys.path is what it was after a session, unless a file with enable-root-import failed with an error. Anything else does not matter:
    files that cannot be read or parsed, broken configurations, rules that raise. *)
Theorem C79_path : forall Y W z0 ps autofix hook opts es z,
  (forall F, y_world Y F = W) ->
  run (in_session Y ps autofix opts hook z0) es (Returned z) ->
  (forall x F1 cfg, In x (results es) -> x_error x <> None -> In F1 (looks es) ->
     generate_config (y_env Y) F1 (x_path x) None opts = Ok cfg -> c_import cfg = RIFalse) ->
  z_path z = z_path z0.
Proof. intros. eapply session_path; eauto. Qed.

(** A file is linted after other files in the same process. The violations are those of linting it alone (in some order: sets of rules
    have none), provided that sys.path is as before (C79_path), and that the modules its configuration names, if imported before,
    are found in the same place with the search paths of the configurations before. *)
Theorem C79_alone : forall Y W z0 ps p autofix hook opts es z es1 es0,
  (forall F, y_world Y F = W) -> fair_sets W -> (forall F id g, y_code Y F (id, g) = y_code Y F (id, None)) ->
  run (in_session Y ps autofix opts hook z0) es (Returned z) -> z_path z = z_path z0 ->
  (forall q F1 cfg F1' cfg', In q ps -> In F1 (looks es) -> generate_config (y_env Y) F1 q None opts = Ok cfg ->
     In F1' (looks es1) -> generate_config (y_env Y) F1' p None opts = Ok cfg' ->
     same_modules W z cfg' (import_path W cfg z0) (import_path W cfg' z0)) ->
  (* after the other files, and alone, with the same files on disk *)
  run (fixit_file (tool_of (system_at Y z)) p autofix opts hook) es1 (Returned tt) -> no_errors es1 ->
  run (fixit_file (tool_of (system_at Y z0)) p autofix opts hook) es0 (Returned tt) -> no_errors es0 ->
  firstn 3 (looks es1) = firstn 3 (looks es0) ->
  Permutation (violations (results es1)) (violations (results es0)).
Proof.
  intros Y W z0 ps p autofix hook opts es z es1 es0 Wf Fa Co R Zp Sm R1 Ne1 R0 Ne0 Lk.
  destruct (session_same Y W autofix hook opts Wf _ _ _ _ R Zp) as (Zg & Zm & Zk).
  assert (Fz : forall y F, fair_sets (y_world (system_at Y y) F)) by (intros y F; cbn [system_at y_world]; rewrite Wf; exact Fa).
  destruct (C78_exactly _ _ _ _ _ _ (Fz z) R1 Ne1) as (F & content & F1 & cfg & F2 & es' & ks & E1 & Ef & Eg & Nd & Sel & X1).
  destruct (C78_exactly _ _ _ _ _ _ (Fz z0) R0 Ne0) as (F' & content' & F1' & cfg' & F2' & es'' & ks0 & E0 & Ef' & Eg' & Nd0 & Sel0 & X0).
  rewrite E1, E0 in Lk. cbn [looks flat_map app firstn] in Lk. injection Lk as -> -> ->.
  assert (content' = content) as -> by congruence. cbn [system_at y_env] in Eg, Eg'. assert (cfg' = cfg) as -> by congruence.
  assert (Kn : forall q t x, In q (c_enable cfg ++ c_disable cfg) -> is_local q = false -> t = top (q_module q) ->
    dget t (z_loaded z0) = None -> dget t (z_loaded z) = Some x ->
    snd (w_import W x (q_module q)) = snd (w_import W (import_path W cfg z0) (q_module q))).
  { intros q t x Iq Lq -> D0 D. destruct (Zk _ _ D) as [D'|(q' & G & cfgq & I1 & I2 & I3 & ->)]; [congruence|].
    apply (Sm q' G cfgq F1' cfg I1 I2 I3); auto; [rewrite E1; simpl; auto|apply imported_top; congruence]. }
  set (d := z_gen z - z_gen z0).
  assert (Pm : Permutation ks (map (later d) ks0)).
  { apply NoDup_Permutation; auto.
    - apply FinFun.Injective_map_NoDup; auto. intros a b. apply later_inj.
    - intro k. rewrite Sel, (selected_later Y W z0 z cfg F2' (Wf F2') Zp Zg Zm Kn), in_map_iff. fold d. split.
      + intros (k0 & -> & S). exists k0. split; auto. now apply Sel0.
      + intros (k0 & <- & I). exists k0. split; auto. now apply Sel0. }
  destruct X1 as [[-> ->]|(md & M & parts & Ep & Ew & Hp & -> & Sf)].
  - apply Permutation_nil in Pm. destruct ks0 as [|k0 ks0]; [|discriminate].
    destruct X0 as [[_ ->]|(md & M & parts & _ & _ & Hp & -> & _)]; [auto|]. inversion Hp; subst. auto.
  - destruct X0 as [[-> ->]|(md' & M' & parts0 & Ep' & Ew' & Hp0 & -> & Sf0)].
    + cbn [map] in Pm. apply Permutation_sym, Permutation_nil in Pm. subst ks. inversion Hp; subst. auto.
    + cbn [system_at y_parse y_wrap y_code y_unicode] in *. assert (md' = md) as -> by congruence. assert (M' = M) as -> by congruence.
      eapply concat_parts; [exact Pm|exact Hp|exact Hp0|]. intros k vs vs' I I' A B.
      assert (Ek : y_code Y F2' (later d k) = y_code Y F2' k). { destruct k as [id g]. unfold later. cbn [fst snd]. rewrite Co. symmetry. apply Co. }
      cbv beta zeta in A, B. rewrite Ek in A.
      assert (Fl : forall l ps, Forall (shows_fix Y p md) (concat ps) -> In l ps -> Forall (shows_fix Y p md) l).
      { clear. intros l ps H I. rewrite Forall_forall in *. intros v Iv. apply H. apply in_concat. eauto. }
      eapply heard_fun; eauto.
Qed.

(** In particular within one project: the configurations agree on enable-root-import. *)
Theorem C79_project : forall Y W z0 ps p autofix hook opts es z es1 es0,
  (forall F, y_world Y F = W) -> fair_sets W -> (forall F id g, y_code Y F (id, g) = y_code Y F (id, None)) ->
  run (in_session Y ps autofix opts hook z0) es (Returned z) ->
  (* those that failed have no root imports *)
  (forall x F1 cfg, In x (results es) -> x_error x <> None -> In F1 (looks es) ->
     generate_config (y_env Y) F1 (x_path x) None opts = Ok cfg -> c_import cfg = RIFalse) ->
  (forall q F1 cfg F1' cfg', In q ps -> In F1 (looks es) -> generate_config (y_env Y) F1 q None opts = Ok cfg ->
     In F1' (looks es1) -> generate_config (y_env Y) F1' p None opts = Ok cfg' ->
     c_import cfg = c_import cfg' /\ (c_import cfg = RIFalse \/ c_root cfg = c_root cfg')) ->
  run (fixit_file (tool_of (system_at Y z)) p autofix opts hook) es1 (Returned tt) -> no_errors es1 ->
  run (fixit_file (tool_of (system_at Y z0)) p autofix opts hook) es0 (Returned tt) -> no_errors es0 ->
  firstn 3 (looks es1) = firstn 3 (looks es0) ->
  Permutation (violations (results es1)) (violations (results es0)).
Proof.
  intros Y W z0 ps p autofix hook opts es z es1 es0 Wf Fa Co R Er Sm. apply (C79_alone Y W z0 ps p autofix hook opts es z es1 es0); auto.
  { eapply C79_path; eauto. }
  intros q F1 cfg F1' cfg' I1 I2 I3 I4 I5 r _ _ _. destruct (Sm q F1 cfg F1' cfg' I1 I2 I3 I4 I5) as [E X]. f_equal. f_equal.
  unfold import_path, with_root_import. rewrite <- E. destruct X as [->| ->]; reflexivity.
Qed.

(** ** Failing *)

(** Linting a file fails or not, whatever the order of the rules. *)
Lemma lint_fails : forall Y F p content cfg,
  snd (lint_of (tool_of Y) F p content cfg) = None <->
  exists ks d, fst (collect_rules (y_world Y F) cfg (y_py Y)) = Ok (ks, d) /\
    (ks = [] \/ exists md M, y_parse Y content = Ok md /\ y_wrap Y md = Ok M /\
       forall k, In k ks -> exists n, snd (lint_with (y_took Y) (y_udiff Y p) md (d_tree M) [fresh (y_unicode Y) M md (y_code Y F k)] false) = Ok n).
Proof.
  intros Y F p content cfg. unfold lint_of, tool_of. cbn [t_collect t_parse t_visit t_udiff].
  destruct (collect_rules (y_world Y F) cfg (y_py Y)) as [[[ks d]|e] s]; cbn [fst bind].
  2: { split; [discriminate|]. intros (ks & d & X & _). discriminate. }
  destruct ks as [|k0 ks0]; [split; [intros _; exists [], d; auto|reflexivity]|]. set (ks := k0 :: ks0).
  assert (Nk : ks <> []) by discriminate. clearbody ks.
  destruct (y_parse Y content) as [md|e].
  2: { split; [discriminate|]. intros (ks' & d' & X & [->|(md & M & Y1 & _)]); [congruence|discriminate]. }
  destruct (y_wrap Y md) as [M|e] eqn:W.
  2: { split; [discriminate|]. intros (ks' & d' & X & [->|(md' & M & Y1 & Y2 & _)]); [congruence|]. injection Y1 as <-. congruence. }
  cbn [bind]. pose proof (C72_succeeds (y_took Y) (y_udiff Y p) md (d_tree M) (map (fun k => fresh (y_unicode Y) M md (y_code Y F k)) ks) false) as S.
  unfold lint_with in *. destruct (collect_violations _ _ _ _) as [evs r]. cbn [snd] in *. split.
  - intro H. exists ks, d. split; auto. right. exists md, M. split; auto. split; auto. intros k I. apply (proj1 S).
    + destruct r as [n|e]; [eauto|discriminate].
    + apply in_map_iff. eauto.
  - intros (ks' & d' & X & [->|(md' & M' & Y1 & Y2 & H)]); [congruence|]. injection X as <- <-. injection Y1 as <-. assert (M' = M) as -> by congruence.
    destruct (proj2 S) as (n & ->); [|reflexivity]. intros a I. apply in_map_iff in I. destruct I as (k & <- & I). auto.
Qed.

Opaque fixit_bytes.

(** A file from which nothing is to be fixed: there is an error result iff linting fails. *)
Lemma file_fails : forall T p opts hook es F F1 F2 l,
  run (fixit_file T p false opts hook) es (Returned tt) -> (hook = true -> forall m e, ~ In (ECall m (Err e)) es) ->
  accepted false (given es) = [] -> looks es = F :: F1 :: F2 :: l ->
  exists content cfg, f_file F p = Some content /\ generate_config (t_env T) F1 p None opts = Ok cfg /\
    (no_errors es <-> snd (lint_of T F2 p content cfg) = None).
Proof.
  intros T p opts hook es F F1 F2 l H Hk Ac Lk. unfold fixit_file in H. apply run_catch in H.
  assert (B : forall content cfg es0 r, run (fixit_bytes T p content cfg false hook) es0 (Returned r) -> incl es0 es -> accepted false (given es0) = [] ->
    r = None /\ exists F2' l', looks es0 = F2' :: l' /\ (no_errors es0 <-> snd (lint_of T F2' p content cfg) = None)).
  { intros content cfg es0 r R Inc A0. apply bytes_run in R. destruct R as [_ [[_ X]|(F2' & es' & -> & R)]]; [discriminate|].
    destruct (lint_of T F2' p content cfg) as [vs err] eqn:El. cbv zeta in R. rewrite A0 in R. destruct R as (err' & Rr & R).
    assert (r = None /\ err = err') as [-> ->].
    { destruct err' as [e|]; [|now destruct R]. destruct R as [-> [R|[(_ & X & m & Im)|(_ & X & _)]]]; try congruence; auto. exfalso. apply (Hk X m e), Inc, Im. }
    split; auto. exists F2', (looks es'). split; [reflexivity|]. rewrite El. cbn [snd]. unfold no_errors. rewrite Rr. unfold report_of. split.
    - intro N. destruct err' as [e|]; auto. specialize (N (Result p None (Some e))). cbn [x_error] in N. apply N. apply in_or_app. simpl. auto.
    - intros -> x I. apply in_app_iff in I. destruct I as [I|I]; [apply in_map_iff in I; destruct I as (v & <- & _); reflexivity|].
      destruct vs; [destruct I as [<-|[]]; reflexivity|contradiction]. }
  assert (G : forall a b, given (a ++ b) = given a ++ given b) by apply given_app.
  assert (Aa : forall a b, accepted false (a ++ b) = [] -> accepted false a = []).
  { intros a b X. unfold accepted in *. rewrite flat_map_app in X. now apply app_eq_nil in X. }
  destruct H as [[X _]|[([] & _ & H)|(es1 & es2 & e & -> & H1 & H2)]]; [discriminate| |].
  - inversion H as [| | | |? F' es' ? H'| | | |]; subst. cbn [looks flat_map app] in Lk. injection Lk as -> Lk.
    destruct (f_file F p) as [content|] eqn:Ef; [|inversion H'].
    inversion H' as [| | | |? F1' es1 ? H1| | | |]; subst. cbn [flat_map app] in Lk. injection Lk as -> Lk. apply run_lift in H1.
    destruct (generate_config (t_env T) F1 p None opts) as [cfg|e] eqn:Eg; [|destruct H1 as [_ [X|X]]; discriminate].
    apply run_pbind in H1. destruct H1 as [[X _]|[(e & X & _)|(es2 & es3 & r & -> & H2 & H3)]]; try discriminate.
    cbn [given] in Ac. rewrite G in Ac. destruct (B _ _ _ _ H2) as (-> & F2' & l' & Lb & N); [|exact (Aa _ _ Ac)|]; [intros y Iy; simpl; right; right; apply in_or_app; auto|]. inversion H3; subst.
    rewrite app_nil_r in *. fold (looks es2) in Lk. rewrite Lb in Lk. injection Lk as -> _. exists content, cfg. auto.
  - (* an error: reading the file, the configuration *)
    exfalso. inversion H2 as [| | |? ? a es3 ? H3| | | | |]; subst. inversion H3; subst. rewrite looks_app in Lk. cbn [looks flat_map app] in Lk. rewrite app_nil_r in Lk.
    inversion H1 as [| | | |? F' es' ? H'| | | |]; subst. cbn [looks flat_map app] in Lk. injection Lk as -> Lk.
    destruct (f_file F p) as [content|] eqn:Ef; [|inversion H'; subst; discriminate].
    inversion H' as [| | | |? F1' es1 ? H4| | | |]; subst. cbn [flat_map app] in Lk. injection Lk as -> Lk. apply run_lift in H4.
    destruct (generate_config (t_env T) F1 p None opts) as [cfg|e'] eqn:Eg; [|destruct H4 as [-> _]; discriminate].
    apply run_pbind in H4. destruct H4 as [[X _]|[(e' & X & H4)|(es2 & es4 & r & -> & H4 & H5)]]; try discriminate.
    + eapply C29_never_raises; eauto.
    + cbn [given app] in Ac. rewrite <- app_assoc, G in Ac. destruct (B _ _ _ _ H4) as (-> & _); [|exact (Aa _ _ Ac)|]; [intros y Iy; simpl; right; right; rewrite <- app_assoc; apply in_or_app; auto|]. inversion H5.
Qed.

Transparent fixit_bytes.

(** Neither does it matter for whether linting a file fails with an error. *)
Theorem C79_fails : forall Y W z0 ps p autofix hook opts es z es1 es0 F F1 F2 l1 l0,
  (forall F, y_world Y F = W) -> fair_sets W -> (forall F id g, y_code Y F (id, g) = y_code Y F (id, None)) ->
  run (in_session Y ps autofix opts hook z0) es (Returned z) -> z_path z = z_path z0 ->
  (forall q F1 cfg F1' cfg', In q ps -> In F1 (looks es) -> generate_config (y_env Y) F1 q None opts = Ok cfg ->
     In F1' (looks es1) -> generate_config (y_env Y) F1' p None opts = Ok cfg' ->
     same_modules W z cfg' (import_path W cfg z0) (import_path W cfg' z0)) ->
  (forall mt e, ~ In (ECall mt (Err e)) (es1 ++ es0)) ->
  run (fixit_file (tool_of (system_at Y z)) p false opts hook) es1 (Returned tt) -> accepted false (given es1) = [] ->
  run (fixit_file (tool_of (system_at Y z0)) p false opts hook) es0 (Returned tt) -> accepted false (given es0) = [] ->
  looks es1 = F :: F1 :: F2 :: l1 -> looks es0 = F :: F1 :: F2 :: l0 ->
  (no_errors es1 <-> no_errors es0).
Proof.
  intros Y W z0 ps p autofix hook opts es z es1 es0 F F1 F2 l1 l0 Wf Fa Co R Zp Sm Hc R1 A1 R0 A0 L1 L0.
  destruct (session_same Y W autofix hook opts Wf _ _ _ _ R Zp) as (Zg & Zm & Zk).
  assert (Fz : forall y F, fair_sets (y_world (system_at Y y) F)) by (intros y G; cbn [system_at y_world]; rewrite Wf; exact Fa).
  destruct (file_fails _ _ _ _ _ _ _ _ _ R1 (fun _ mt e I => Hc mt e (in_or_app _ _ _ (or_introl I))) A1 L1) as (content & cfg & Ef & Eg & N1).
  destruct (file_fails _ _ _ _ _ _ _ _ _ R0 (fun _ mt e I => Hc mt e (in_or_app _ _ _ (or_intror I))) A0 L0) as (content' & cfg' & Ef' & Eg' & N0).
  assert (content' = content) as -> by congruence. cbn [tool_of t_env system_at y_env] in Eg, Eg'. assert (cfg' = cfg) as -> by congruence.
  rewrite N1, N0, !lint_fails. clear N1 N0 Ef' Eg'.
  assert (Kn : forall q t x, In q (c_enable cfg ++ c_disable cfg) -> is_local q = false -> t = top (q_module q) ->
    dget t (z_loaded z0) = None -> dget t (z_loaded z) = Some x ->
    snd (w_import W x (q_module q)) = snd (w_import W (import_path W cfg z0) (q_module q))).
  { intros q t x Iq Lq -> D0 D. destruct (Zk _ _ D) as [D'|(q' & G & cfgq & I1 & I2 & I3 & ->)]; [congruence|].
    apply (Sm q' G cfgq F1 cfg I1 I2 I3); auto; [rewrite L1; simpl; auto|apply imported_top; congruence]. }
  set (d := z_gen z - z_gen z0).
  assert (Ek : forall k, y_code Y F2 (later d k) = y_code Y F2 k). { intros [id g]. unfold later. cbn [fst snd]. rewrite Co. symmetry. apply Co. }
  (* collecting *)
  pose proof (selected_later Y W z0 z cfg F2 (Wf F2) Zp Zg Zm Kn) as Sel. fold d in Sel.
  assert (Cl : (exists r, fst (collect_rules (y_world (system_at Y z) F2) cfg (y_py (system_at Y z))) = Ok r) <->
               (exists r, fst (collect_rules (y_world (system_at Y z0) F2) cfg (y_py (system_at Y z0))) = Ok r)).
  { cbn [system_at y_world y_py]. rewrite Wf.
    destruct (findings (remembering (z_loaded z0) W) (c_enable cfg) (with_root_import W cfg (PyState (z_path z0) [] (z_gen z0)))) as [fe s] eqn:E1.
    destruct (findings (remembering (z_loaded z0) W) (c_disable cfg) s) as [fd s'] eqn:E2.
    destruct (findings_both W cfg z0 z Zp Zg Zm Kn _ _ _ _ E1 E2) as (s1 & s1' & E1' & E2').
    rewrite (C14_raises (remembering (z_loaded z) W) cfg _ _ _ _ _ Fa E1' E2'), (C14_raises (remembering (z_loaded z0) W) cfg _ _ _ _ _ Fa E1 E2). fold d. split.
    - intros H k Fo Of To. apply (H (later d k)); auto.
      + apply found_later. eauto.
      + rewrite found_later, named_later. intros [(k1 & X & B1) B2]. apply later_inj in X. subst k1. apply Of. split; auto. intro Nm. apply B2. eauto.
    - intros H k Fo Of To. apply found_later in Fo. destruct Fo as (k0 & -> & Fo). apply (H k0); auto.
      intros [B1 B2]. apply Of. rewrite found_later, named_later. split; [eauto|]. intros (k1 & X & Hk). apply later_inj in X. subst. auto. }
  split.
  - intros (ks & d1 & Ec & H). destruct (proj1 Cl (ex_intro _ _ Ec)) as ([ks0 d0] & Ec0). exists ks0, d0. split; auto.
    destruct (collect_rules (y_world (system_at Y z) F2) cfg (y_py (system_at Y z))) as [r1 s1] eqn:C1. cbn [fst] in Ec. subst r1.
    destruct (collect_rules (y_world (system_at Y z0) F2) cfg (y_py (system_at Y z0))) as [r0 s0] eqn:C0. cbn [fst] in Ec0. subst r0.
    destruct (selected_in _ _ _ _ _ _ (Fz z F2) C1) as [_ S1]. destruct (selected_in _ _ _ _ _ _ (Fz z0 F2) C0) as [_ S0].
    assert (In' : forall k, In k ks0 -> In (later d k) ks). { intros k I. apply S1, Sel. exists k. split; auto. now apply S0. }
    destruct H as [->|(md & M & Ep & Ew & H)].
    + left. destruct ks0 as [|k ks0]; auto. destruct (In' k (or_introl eq_refl)).
    + right. exists md, M. split; auto. split; auto. intros k I. specialize (H _ (In' k I)). cbn [system_at y_code y_took y_udiff y_unicode] in *. now rewrite Ek in H.
  - intros (ks0 & d0 & Ec0 & H). destruct (proj2 Cl (ex_intro _ _ Ec0)) as ([ks d1] & Ec). exists ks, d1. split; auto.
    destruct (collect_rules (y_world (system_at Y z) F2) cfg (y_py (system_at Y z))) as [r1 s1] eqn:C1. cbn [fst] in Ec. subst r1.
    destruct (collect_rules (y_world (system_at Y z0) F2) cfg (y_py (system_at Y z0))) as [r0 s0] eqn:C0. cbn [fst] in Ec0. subst r0.
    destruct (selected_in _ _ _ _ _ _ (Fz z F2) C1) as [_ S1]. destruct (selected_in _ _ _ _ _ _ (Fz z0 F2) C0) as [_ S0].
    assert (In' : forall k, In k ks -> exists k0, k = later d k0 /\ In k0 ks0). { intros k I. apply S1, Sel in I. destruct I as (k0 & -> & I). exists k0. split; auto. now apply S0. }
    destruct H as [->|(md & M & Ep & Ew & H)].
    + left. destruct ks as [|k ks]; auto. destruct (In' k (or_introl eq_refl)) as (k0 & _ & []).
    + right. exists md, M. split; auto. split; auto. intros k I. destruct (In' k I) as (k0 & -> & I0). specialize (H _ I0). cbn [system_at y_code y_took y_udiff y_unicode] in *. now rewrite Ek.
Qed.

(** ** Concrete cases

    Two projects /a and /b, each with a configuration file that allows imports from its root. *)
Definition x_py : path := [u "a"; u "x.py"].
Definition y_py_ : path := [u "b"; u "y.py"].
Definition fs2 : fs :=
  FS (fun p => if path_eqb p x_py || path_eqb p y_py_ then Some text0
               else if path_eqb p [u "a"; u "fixit.toml"] then Some (u "a")
               else if path_eqb p [u "b"; u "fixit.toml"] then Some (u "b") else None)
     (fun p => path_eqb p [u "a"] || path_eqb p [u "b"]).
Definition toml2 (a b : str) (s : str) : res table :=
  Ok [(u "tool", TTab [(u "fixit", TTab [(u "root", TBool true); (u "enable-root-import", TBool true);
                                         (u "enable", TArr [TStr (if str_eqb s (u "a") then a else b)])])])].
Definition env2 (a b : str) : env := Env (toml2 a b) (fun _ => true) (u "3.10") [] (fun l => l).
(** /a has modules rules (with A) and bad (with a rule that cannot be instantiated); /b has a module rules (with B) *)
Definition world2 : world := World
  (fun sp n =>
     if str_eqb n (u "rules") then
       if existsb (str_eqb (u "/a")) sp then ([u "rules"], Ok (PyMod [(u "ARule", ORule 1 false)] None))
       else if existsb (str_eqb (u "/b")) sp then ([u "rules"], Ok (PyMod [(u "B", ORule 2 false)] None))
       else ([], Err ImportError)
     else if str_eqb n (u "bad") && existsb (str_eqb (u "/a")) sp then ([u "bad"], Ok (PyMod [(u "C", ORule 3 false)] None))
     else ([], Err ImportError))
  (fun _ _ _ => ([], Err ImportError)) (fun _ => []) (fun _ => []) (fun _ _ => Ok true) (fun i => if N.eqb i 3 then Err TypeError else Ok tt)
  (fun l => l) (fun p => match p with [d] => u "/" ++ d | _ => [] end).
Definition system2 (a b : str) : system :=
  MkSystem (env2 a b) U0 (fun _ => world2) (PyState [] [] 0)
    (fun _ k => if N.eqb (fst k) 1 then reporter (u "ARule") (Some RRemove) else reporter (u "B") None)
    (fun _ => Ok module0) (fun _ => Ok meta0) (fun _ => 1) (fun _ _ b => b) (fun m => Ok (code m)) (fun _ => None) (fun _ p => Ok [p]).
Definition session0 : session := Session [] [] 0.
Definition rule_names (vs : list viol) : list str := map v_rule vs.
Definition looking (n : nat) : list input := repeat (IFiles fs2) 3 ++ repeat (IAnswer None) n.

Lemma no_errors_check : forall es, forallb (fun x => match x_error x with None => true | _ => false end) (results es) = true -> no_errors es.
Proof. intros es H x I. rewrite forallb_forall in H. specialize (H x I). now destruct (x_error x). Qed.

Definition first_file (a b : str) (n : nat) := play (in_session (system2 a b) [x_py] false None false session0) (looking n).
Definition second_file (a b : str) (z : session) (n : nat) := play (fixit_file (tool_of (system_at (system2 a b) z)) y_py_ false None false) (looking n).
Definition session_a : session := Session [] [(u "rules", [u "/a"])] 0.
Definition session_leak : session := Session [u "/a"] [(u "bad", [u "/a"])] 0.

Lemma system2_fair : forall a b, (forall F, y_world (system2 a b) F = world2) /\ fair_sets world2 /\
  (forall F id g, y_code (system2 a b) F (id, g) = y_code (system2 a b) F (id, None)).
Proof. intros a b. split; [reflexivity|]. split; [intro l; apply Permutation_refl|reflexivity]. Qed.

(** Linting /b/y.py after /a/x.py, where both projects have a module called rules: the rules of /a are used for /b (A instead of B), because
    the module is already in sys.modules. Nothing failed. *)
Theorem C79_projects_refuted : exists Y W z0 ps p es z es1 es0,
  (forall F, y_world Y F = W) /\ fair_sets W /\ (forall F id g, y_code Y F (id, g) = y_code Y F (id, None)) /\
  run (in_session Y ps false None false z0) es (Returned z) /\ no_errors es /\
  run (fixit_file (tool_of (system_at Y z)) p false None false) es1 (Returned tt) /\ no_errors es1 /\
  run (fixit_file (tool_of (system_at Y z0)) p false None false) es0 (Returned tt) /\ no_errors es0 /\
  looks es1 = looks es0 /\
  map v_rule (violations (results es1)) = [u "A"] /\ map v_rule (violations (results es0)) = [u "B"; u "B"].
Proof.
  exists (system2 (u "rules") (u "rules")), world2, session0, [x_py], y_py_,
    (fst (first_file (u "rules") (u "rules") 1)), session_a,
    (fst (second_file (u "rules") (u "rules") session_a 1)), (fst (second_file (u "rules") (u "rules") session0 2)).
  destruct (system2_fair (u "rules") (u "rules")) as (A & B & C). split; [exact A|]. split; [exact B|]. split; [exact C|].
  split; [apply play_run with (l := looking 1); vm_compute; reflexivity|]. split; [apply no_errors_check; vm_compute; reflexivity|].
  split; [apply play_run with (l := looking 1); vm_compute; reflexivity|]. split; [apply no_errors_check; vm_compute; reflexivity|].
  split; [apply play_run with (l := looking 2); vm_compute; reflexivity|]. split; [apply no_errors_check; vm_compute; reflexivity|].
  split; [vm_compute; reflexivity|]. split; vm_compute; reflexivity.
Qed.

(** A file that fails with an error while its rules are collected: /a stays on sys.path (C19), and so its module rules hides that of /b, although
    it has not been imported. *)
Theorem C79_leak_refuted : exists Y W z0 ps p es z es1 es0,
  (forall F, y_world Y F = W) /\ fair_sets W /\ (forall F id g, y_code Y F (id, g) = y_code Y F (id, None)) /\
  run (in_session Y ps false None false z0) es (Returned z) /\
  ~ imported z (u "rules") /\
  run (fixit_file (tool_of (system_at Y z)) p false None false) es1 (Returned tt) /\ no_errors es1 /\
  run (fixit_file (tool_of (system_at Y z0)) p false None false) es0 (Returned tt) /\ no_errors es0 /\
  looks es1 = looks es0 /\
  map v_rule (violations (results es1)) = [u "A"] /\ map v_rule (violations (results es0)) = [u "B"; u "B"].
Proof.
  exists (system2 (u "bad") (u "rules")), world2, session0, [x_py], y_py_,
    (fst (first_file (u "bad") (u "rules") 1)), session_leak,
    (fst (second_file (u "bad") (u "rules") session_leak 1)), (fst (second_file (u "bad") (u "rules") session0 2)).
  destruct (system2_fair (u "bad") (u "rules")) as (A & B & C). split; [exact A|]. split; [exact B|]. split; [exact C|].
  split; [apply play_run with (l := looking 1); vm_compute; reflexivity|].
  split; [rewrite imported_top; intro Im; apply Im; vm_compute; reflexivity|].
  split; [apply play_run with (l := looking 1); vm_compute; reflexivity|]. split; [apply no_errors_check; vm_compute; reflexivity|].
  split; [apply play_run with (l := looking 2); vm_compute; reflexivity|]. split; [apply no_errors_check; vm_compute; reflexivity|].
  split; [vm_compute; reflexivity|]. split; vm_compute; reflexivity.
Qed.

(** The hypotheses of C79_project: y.py in the same project as x.py. *)
Definition fs3 : fs :=
  FS (fun p => if path_eqb p x_py || path_eqb p [u "a"; u "y.py"] then Some text0
               else if path_eqb p [u "a"; u "fixit.toml"] then Some (u "a") else None)
     (fun p => path_eqb p [u "a"]).
Definition looking3 (n : nat) : list input := repeat (IFiles fs3) 3 ++ repeat (IAnswer None) n.
Example C79_example :
  let Y := system2 (u "rules") (u "rules") in
  let es := fst (play (in_session Y [x_py] false None false session0) (looking3 1)) in
  let es1 := fst (play (fixit_file (tool_of (system_at Y session_a)) [u "a"; u "y.py"] false None false) (looking3 1)) in
  run (in_session Y [x_py] false None false session0) es (Returned session_a) /\ no_errors es /\
  run (fixit_file (tool_of (system_at Y session_a)) [u "a"; u "y.py"] false None false) es1 (Returned tt) /\ no_errors es1 /\
  run (fixit_file (tool_of (system_at Y session0)) [u "a"; u "y.py"] false None false) es1 (Returned tt) /\
  map v_rule (violations (results es1)) = [u "A"] /\
  (forall q F1 cfg F1' cfg', In q [x_py] -> In F1 (looks es) -> generate_config (y_env Y) F1 q None None = Ok cfg ->
     In F1' (looks es1) -> generate_config (y_env Y) F1' [u "a"; u "y.py"] None None = Ok cfg' ->
     c_import cfg = c_import cfg' /\ (c_import cfg = RIFalse \/ c_root cfg = c_root cfg')).
Proof.
  intros Y es es1.
  split; [apply play_run with (l := looking3 1); vm_compute; reflexivity|]. split; [apply no_errors_check; vm_compute; reflexivity|].
  split; [apply play_run with (l := looking3 1); vm_compute; reflexivity|]. split; [apply no_errors_check; vm_compute; reflexivity|].
  split; [apply play_run with (l := looking3 1); vm_compute; reflexivity|]. split; [vm_compute; reflexivity|].
  assert (L : looks es = [fs3; fs3; fs3]) by (vm_compute; reflexivity). assert (L1 : looks es1 = [fs3; fs3; fs3]) by (vm_compute; reflexivity).
  rewrite L, L1. intros q F1 cfg F1' cfg' [<-|[]] I E I' E'.
  assert (F1 = fs3) as -> by (simpl in I; tauto || (destruct I as [<-|[<-|[<-|[]]]]; reflexivity)).
  assert (F1' = fs3) as -> by (destruct I' as [<-|[<-|[<-|[]]]]; reflexivity).
  vm_compute in E, E'. injection E as <-. injection E' as <-. cbn. auto.
Qed.

(** A file before that cannot be read, outside of the project. *)
Example C79_error_example :
  let Y := system2 (u "rules") (u "rules") in
  let gone := [u "c"; u "z.py"] in
  let l := IFiles fs3 :: IAnswer None :: looking3 1 in
  let es := fst (play (in_session Y [gone; x_py] false None false session0) l) in
  run (in_session Y [gone; x_py] false None false session0) es (Returned session_a) /\
  map x_error (results es) = [Some OSError; None] /\
  (forall x F1 cfg, In x (results es) -> x_error x <> None -> In F1 (looks es) ->
     generate_config (y_env Y) F1 (x_path x) None None = Ok cfg -> c_import cfg = RIFalse).
Proof.
  intros Y gone l es. split; [apply play_run with (l := l); vm_compute; reflexivity|].
  assert (R : map (fun x => (x_path x, x_error x)) (results es) = [(gone, Some OSError); (x_py, None)]) by (vm_compute; reflexivity).
  assert (L : looks es = [fs3; fs3; fs3; fs3]) by (vm_compute; reflexivity).
  split; [vm_compute; reflexivity|]. rewrite L. intros x F1 cfg I X If E.
  assert (F1 = fs3) as -> by (simpl in If; intuition congruence).
  assert (In (x_path x, x_error x) [(gone, Some OSError); (x_py, None)]) as J by (rewrite <- R; apply (in_map (fun x => (x_path x, x_error x))); exact I).
  destruct J as [J|[J|[]]]; injection J as J1 J2; [|congruence]. rewrite <- J1 in E. vm_compute in E. injection E as <-. reflexivity.
Qed.
