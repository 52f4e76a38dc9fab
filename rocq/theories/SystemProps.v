(** * C78: the whole of fixit: which violations reach the user, and what is written *)
From Coq Require Import String List NArith ZArith Bool Arith.
From Verif Require Import Base PyStr Ftypes Paths Config Collect CollectSpec CollectSelect CollectProps Suppress SuppressSpec SuppressProps
  Cst Engine EngineProps Batch BatchProps Api ApiSpec ApiFacts ApiProps System SystemSpec.
Import ListNotations.

(** ** Rule names *)

Lemma called_trim : forall C n, called C n <-> n = trim_rule (k_name C).
Proof.
  intros C n. unfold called. split.
  - intros [->|[-> H]]; [now rewrite trim_rule_app|now rewrite trim_rule_other].
  - intros ->. destruct (endswith (u "Rule") (k_name C)) eqn:E.
    + apply endswith_spec in E. destruct E as (t & E). left. rewrite E, trim_rule_app. reflexivity.
    + assert (H : forall t, k_name C <> t ++ u "Rule").
      { intros t Ht. assert (X : endswith (u "Rule") (k_name C) = true) by (apply endswith_spec; eauto). congruence. }
      right. rewrite trim_rule_other by auto. auto.
Qed.

Lemma silenced_iff : forall U M C x, silenced U M C x <-> ignore_lint U (trim_rule (k_name C)) (d_place M (s_node x)) = true.
Proof.
  intros U M C x. rewrite C23_ignore_lint. unfold silenced. split.
  - intros (n & c & Hn & H). apply called_trim in Hn. subst n. eauto.
  - intros (c & H). exists (trim_rule (k_name C)), c. split; auto. now apply called_trim.
Qed.

(** ** One rule *)

Lemma say_all_heard : forall U M C xs r r', r_name r = trim_rule (k_name C) -> r_MESSAGE r = k_MESSAGE C ->
  say_all U M xs r = Ok r' ->
  r_name r' = r_name r /\ r_MESSAGE r' = r_MESSAGE r /\
  exists vs, r_violations r' = r_violations r ++ vs /\ heard U M C xs vs.
Proof.
  intros U M C. induction xs as [|x xs IH]; intros r r' N Me H; cbn [say_all] in H.
  - injection H as <-. repeat split; auto. exists []. rewrite app_nil_r. split; auto. constructor.
  - apply bind_ok in H. destruct H as (r1 & H1 & H2). unfold report in H1.
    destruct (ignore_lint U (r_name r) (d_place M (s_node x))) eqn:I.
    + injection H1 as <-. destruct (IH r r' N Me H2) as (A & B & vs & V & Hd). repeat split; auto. exists vs. split; auto.
      constructor; auto. apply silenced_iff. now rewrite <- N.
    + destruct (match truthy_msg (s_message x) with Some m => Some m | None => truthy_msg (r_MESSAGE r) end) as [msg|] eqn:Em; [|discriminate].
      injection H1 as <-. match goal with H : say_all _ _ _ ?r1 = _ |- _ => destruct (IH r1 r' N Me H) as (A & B & vs & V & Hd) end.
      cbn [r_name r_MESSAGE r_violations] in *. split; auto. split; auto. rewrite <- app_assoc in V.
      eexists. split; [exact V|]. cbn [app]. apply h_told; auto.
      * rewrite silenced_iff, <- N, I. discriminate.
      * unfold tells. cbn [v_rule v_node v_replacement v_message v_range].
        assert (X : msg <> [] /\ (s_message x = Some msg \/ (s_message x = None \/ s_message x = Some []) /\ k_MESSAGE C = Some msg)).
        { rewrite Me in Em. destruct (s_message x) as [[|c s]|]; cbn [truthy_msg] in Em.
          - destruct (k_MESSAGE C) as [[|c s]|]; try discriminate. injection Em as <-. split; [discriminate|auto].
          - injection Em as <-. split; [discriminate|auto].
          - destruct (k_MESSAGE C) as [[|c s]|]; try discriminate. injection Em as <-. split; [discriminate|auto]. }
        destruct X. split; [now apply called_trim|]. repeat split; auto. destruct (s_position x); reflexivity.
Qed.

Lemma heard_app : forall U M C xs vs xs' vs', heard U M C xs vs -> heard U M C xs' vs' -> heard U M C (xs ++ xs') (vs ++ vs').
Proof. intros U M C xs vs xs' vs' H. induction H; intro K; cbn [app]; [auto|apply h_silenced|apply h_told]; auto. Qed.

Lemma after_says : forall U M md C cs own r b, r_name r = trim_rule (k_name C) -> r_MESSAGE r = k_MESSAGE C ->
  after (instance U M md C own r) cs = Ok b ->
  exists vs, r_violations (rule_of b) = r_violations r ++ vs /\ heard U M C (says C md cs own) vs.
Proof.
  intros U M md C. induction cs as [|[method t] cs IH]; intros own r b N Me H; cbn [after says] in *.
  - injection H as <-. exists []. rewrite app_nil_r. split; [reflexivity|constructor].
  - cbn [instance a_method a_now] in H. destruct (k_method C md method) as [f|]; [|now apply IH].
    cbn [fst snd] in H. destruct (f t own) as [xs o].
    destruct (say_all U M xs r) as [r1|e] eqn:S; cbn [bind] in H; [|discriminate].
    destruct o as [own'|e]; cbn [bind] in H; [|discriminate].
    destruct (say_all_heard _ _ _ _ _ _ N Me S) as (N1 & M1 & vs & V & Hd).
    change (with_state _ _) with (instance U M md C own' r1) in H.
    destruct (IH own' r1 b) as (vs' & V' & Hd'); [congruence|congruence|exact H|].
    exists (vs ++ vs'). split; [rewrite V', V; now rewrite app_assoc|now apply heard_app].
Qed.

(** ** Linting *)

Lemma delivered_tells : forall udiff md M C x v v', tells M C x v -> delivered udiff md v v' -> tells M C x v'.
Proof.
  intros udiff md M C x v v' T D. unfold delivered in D. destruct (autofixable v); [|now subst].
  destruct D as (md' & _ & ->). exact T.
Qed.

Lemma delivered_heard : forall udiff md U M C xs vs, heard U M C xs vs -> forall vs', Forall2 (delivered udiff md) vs vs' -> heard U M C xs vs'.
Proof.
  intros udiff md U M C xs vs H. induction H as [|x xs vs S H IH|x v xs vs S T H IH]; intros vs' F.
  - inversion F; subst. constructor.
  - constructor; auto.
  - inversion F as [|? v' ? vs1 D F']; subst. apply h_told; auto. eapply delivered_tells; eauto.
Qed.

Lemma heard_in : forall U M C xs vs v, heard U M C xs vs -> In v vs -> exists x, In x xs /\ ~ silenced U M C x /\ tells M C x v.
Proof.
  intros U M C xs vs v H. induction H as [|x xs vs S H IH|x w xs vs S T H IH]; intros I; [contradiction| |].
  - destruct (IH I) as (y & ? & ?). exists y. simpl. auto.
  - destruct I as [<-|I]; [exists x; simpl; auto|]. destruct (IH I) as (y & ? & ?). exists y. simpl. auto.
Qed.

Definition plain (r : rule) : Prop := Forall (fun v : viol => v_diff v = []) (r_violations r).

Lemma say_all_plain : forall U M xs r r', plain r -> say_all U M xs r = Ok r' -> plain r'.
Proof.
  intros U M. induction xs as [|x xs IH]; intros r r' P H; cbn [say_all] in H; [now injection H as <-|].
  apply bind_ok in H. destruct H as (r1 & H1 & H2). apply (IH r1); auto. unfold report in H1.
  destruct (ignore_lint _ _ _); [now injection H1 as <-|]. destruct (match truthy_msg (s_message x) with Some m => Some m | None => truthy_msg (r_MESSAGE r) end); [|discriminate].
  injection H1 as <-. apply Forall_app. split; auto.
Qed.

Lemma after_plain : forall U M md C cs own r b, plain r -> after (instance U M md C own r) cs = Ok b -> plain (rule_of b).
Proof.
  intros U M md C. induction cs as [|[method t] cs IH]; intros own r b P H; cbn [after] in H.
  - injection H as <-. exact P.
  - cbn [instance a_method a_now] in H. destruct (k_method C md method) as [f|]; [|eauto]. cbn [fst snd] in H.
    destruct (f t own) as [xs o]. destruct (say_all U M xs r) as [r1|e] eqn:S; cbn [bind] in H; [|discriminate].
    destruct o as [own'|e]; cbn [bind] in H; [|discriminate].
    change (with_state _ _) with (instance U M md C own' r1) in H. eapply IH; [|exact H]. eapply say_all_plain; eauto.
Qed.

Lemma delivered_fix : forall Y p md (v v' : viol), delivered (y_udiff Y p) md v v' -> v_diff v = [] -> shows_fix Y p md v'.
Proof.
  intros Y p md v v' D P. unfold delivered, autofixable in D. unfold shows_fix.
  destruct (v_replacement v) as [r|] eqn:E; cbn [truthy_repl] in D; [|subst v'; now rewrite E].
  destruct r as [t|[|t l]|]; [|subst v'; now rewrite E| |];
    destruct D as (md' & A & ->); cbn [with_diff v_replacement v_diff]; rewrite E; exists md'; (split; [|reflexivity]);
    rewrite <- A; unfold apply_replacements, replacements; cbn [fold_left]; unfold set_repl, autofixable; cbn [with_diff v_replacement v_node]; reflexivity.
Qed.

Section Lint.
  Context (Y : system) (p : path) (content : str) (cfg : config) (F : fs).

  Definition heard_from (md : module) (M : metadata) (k : cls) (vs : list viol) : Prop :=
    let C := y_code Y F k in heard (y_unicode Y) M C (says C md (calls (d_tree M)) (k_first C)) vs.

  Lemma visit_heard : forall md M ks rs m,
    visit_batched (y_took Y) (d_tree M) (map (fun k => fresh (y_unicode Y) M md (y_code Y F k)) ks) = Ok (rs, m) ->
    Forall2 (fun k r => heard_from md M k (r_violations r)) ks rs.
  Proof.
    intros md M ks rs m H. unfold visit_batched in H.
    destruct (run_calls _ _ _ _ _) as [[[out m0] n0]|e] eqn:R; [|discriminate]. cbn [bind] in H. injection H as <- <-.
    apply run_calls_ok in R. revert out R. induction ks as [|k ks IH]; intros out R; inversion R as [|? b ? out' Ha R']; subst; cbn [map]; constructor; auto.
    destruct (after_says (y_unicode Y) M md (y_code Y F k) _ _ (new_rule (k_name (y_code Y F k)) (k_MESSAGE (y_code Y F k))) b eq_refl eq_refl Ha) as (vs & V & Hd). cbn [new_rule r_violations app] in V. unfold heard_from. now rewrite V.
  Qed.

  Lemma visit_plain : forall md M ks rs m,
    visit_batched (y_took Y) (d_tree M) (map (fun k => fresh (y_unicode Y) M md (y_code Y F k)) ks) = Ok (rs, m) ->
    Forall (fun v : viol => v_diff v = []) (reported rs).
  Proof.
    intros md M ks rs m H. unfold visit_batched in H.
    destruct (run_calls _ _ _ _ _) as [[[out m0] n0]|e] eqn:R; [|discriminate]. cbn [bind] in H. injection H as <- <-.
    apply run_calls_ok in R. revert out R. induction ks as [|k ks IH]; intros out R; inversion R as [|? b ? out' Ha R']; subst; cbn [map reported flat_map]; [constructor|].
    apply Forall_app. split; [|now apply IH]. eapply after_plain; [|exact Ha]. constructor.
  Qed.

  (** Without an error: what each of the selected rules says and is not silenced, no more and no less. *)
  Lemma lint_exact : forall vs, lint_of (tool_of Y) F p content cfg = (vs, None) ->
    exists ks d s, collect_rules (y_world Y F) cfg (y_py Y) = (Ok (ks, d), s) /\
      ((ks = [] /\ vs = []) \/
       exists md M parts, y_parse Y content = Ok md /\ y_wrap Y md = Ok M /\
         Forall2 (heard_from md M) ks parts /\ vs = concat parts /\ Forall (shows_fix Y p md) vs).
  Proof.
    intros vs H. unfold lint_of, tool_of in H. cbn [t_collect t_parse t_visit t_udiff] in H.
    destruct (collect_rules (y_world Y F) cfg (y_py Y)) as [[[ks d]|e] s] eqn:Ec; cbn [fst bind] in H; [|discriminate].
    exists ks, d, s. split; auto. destruct ks as [|k0 ks0]; [left; injection H as <-; auto|right].
    set (ks := k0 :: ks0) in *. destruct (y_parse Y content) as [md|e] eqn:Ep; [|discriminate]. 
    destruct (y_wrap Y md) as [M|e] eqn:Ew; [|cbn in H; discriminate]. cbn [bind] in H.
    destruct (visit_batched _ _ _) as [[rs m]|e] eqn:Ev; [|cbn in H; discriminate].
    destruct (collect_violations _ _ _ _) as [evs r] eqn:Er. destruct r as [n|e]; [|discriminate].
    injection H as <-. destruct (C25_complete _ _ _ _ _ _ _ Er) as (D & _).
    pose proof (visit_plain _ _ _ _ _ Ev) as Pl. apply visit_heard in Ev.
    exists md, M.
    assert (Yd : flat_map (fun e => match e with Yield v => [v] | Hook _ => [] end) evs = yields evs).
    { clear. induction evs as [|[v|m] evs IH]; cbn [flat_map yields app]; [reflexivity|now f_equal|auto]. }
    rewrite Yd. clear Yd Er. revert D. unfold reported. generalize (yields evs). clear - Ev Ep Ew Pl.
    intros vs D. assert (Fx : Forall (shows_fix Y p md) vs).
    { clear - D Pl. fold (reported rs) in D. revert Pl D. generalize (reported rs). intros l Pl D. induction D as [|a b l l' Hd _ IH]; constructor; inversion Pl; subst; eauto using delivered_fix. }
    clear Pl. enough (exists parts, Forall2 (heard_from md M) ks parts /\ vs = concat parts) as (parts & A & B) by (exists parts; auto).
    clear Fx. revert vs D. induction Ev as [|k r ks rs Hk _ IH]; intros vs D; cbn [flat_map] in D.
    - inversion D; subst. exists []. auto.
    - apply Forall2_app_inv_l in D. destruct D as (v1 & v2 & D1 & D2 & ->). destruct (IH _ D2) as (parts & A & ->).
      exists (v1 :: parts). split; auto. constructor; auto. eapply delivered_heard; eauto.
  Qed.

  (** In any case, every violation is one that a selected rule says and is not silenced. *)
  Lemma lint_sound : forall v, In v (fst (lint_of (tool_of Y) F p content cfg)) ->
    exists ks d s md M k x, collect_rules (y_world Y F) cfg (y_py Y) = (Ok (ks, d), s) /\ In k ks /\
      y_parse Y content = Ok md /\ y_wrap Y md = Ok M /\ loud Y F md M k x /\ tells M (y_code Y F k) x v /\ shows_fix Y p md v.
  Proof.
    intros v H. unfold lint_of, tool_of in H. cbn [t_collect t_parse t_visit t_udiff] in H.
    destruct (collect_rules (y_world Y F) cfg (y_py Y)) as [[[ks d]|e] s] eqn:Ec; cbn [fst bind] in H; [|contradiction].
    exists ks, d, s. destruct ks as [|k0 ks0]; [contradiction|].
    set (ks := k0 :: ks0) in *. destruct (y_parse Y content) as [md|e] eqn:Ep; [|contradiction]. 
    destruct (y_wrap Y md) as [M|e] eqn:Ew; [|cbn in H; contradiction]. cbn [bind] in H.
    destruct (visit_batched _ _ _) as [[rs m]|e] eqn:Ev; [|cbn in H; contradiction].
    destruct (collect_violations _ _ _ _) as [evs r] eqn:Er. cbn [fst] in H.
    assert (Yd : flat_map (fun e => match e with Yield v => [v] | Hook _ => [] end) evs = yields evs).
    { clear. induction evs as [|[v|m] evs IH]; cbn [flat_map yields app]; [reflexivity|now f_equal|auto]. }
    rewrite Yd in H. clear Yd.
    assert (exists w, In w (reported rs) /\ delivered (y_udiff Y p) md w v) as (w & Iw & D).
    { assert (exists vs1 vs2, reported rs = vs1 ++ vs2 /\ Forall2 (delivered (y_udiff Y p) md) vs1 (yields evs)) as (vs1 & vs2 & -> & D).
      { destruct r as [n|e].
        - destruct (C25_complete _ _ _ _ _ _ _ Er) as (D & _). exists (reported rs), []. rewrite app_nil_r. auto.
        - destruct (C25_raises _ _ _ _ _ _ Er) as (_ & vs1 & vs2 & E & _ & D). eauto. }
      clear - H D. induction D as [|a b l l' Ha _ IH]; [contradiction|]. destruct H as [<-|H]; [exists a; simpl; auto|].
      destruct (IH H) as (w & I & Dw). exists w. split; auto. apply in_app_iff in I. simpl. rewrite in_app_iff. tauto. }
    unfold reported in Iw. apply in_flat_map in Iw. destruct Iw as (r0 & Ir & Iv).
    pose proof (visit_plain _ _ _ _ _ Ev) as Pl. apply visit_heard in Ev. clear - Ep Ew Pl Ev Ir Iv D. exists md, M.
    assert (exists k, In k ks /\ heard_from md M k (r_violations r0)) as (k & Ik & Hk).
    { clear - Ev Ir. clearbody ks. induction Ev as [|k r ks rs Hk _ IH]; [contradiction|]. destruct Ir as [<-|I]; [exists k; simpl; auto|].
      destruct (IH I) as (k' & ? & ?). exists k'. simpl. auto. }
    destruct (heard_in _ _ _ _ _ _ Hk Iv) as (x & Ix & Sx & Tx). exists k, x. split; auto. split; auto. split; auto. split; auto.
    split; [split; auto|]. split; [exact (delivered_tells _ _ _ _ _ _ _ Tx D)|]. apply (delivered_fix _ _ _ _ _ D).
    rewrite Forall_forall in Pl. apply Pl, in_flat_map. eauto.
  Qed.
End Lint.

(** ** Runs of fixit_file *)

Opaque fixit_bytes.

(** A run that ends without an error result: the file read, the configuration, linting, and perhaps writing. *)
Lemma file_run : forall T p autofix opts hook es,
  run (fixit_file T p autofix opts hook) es (Returned tt) -> (forall x, In x (results es) -> x_error x = None) ->
  exists F content F1 cfg es1 es2 r, es = ELook F :: ELook F1 :: es1 ++ es2 /\ f_file F p = Some content /\
    generate_config (t_env T) F1 p None opts = Ok cfg /\ run (fixit_bytes T p content cfg autofix hook) es1 (Returned r) /\
    results es2 = [].
Proof.
  intros T p autofix opts hook es H Ne. unfold fixit_file in H. apply run_catch in H.
  destruct H as [[X _]|[([] & _ & H)|(es1 & es2 & e & -> & _ & H2)]]; [discriminate| |].
  - inversion H as [| | | |? F es' ? H'| | | |]; subst.
    destruct (f_file F p) as [content|] eqn:Ef; [|inversion H'].
    inversion H' as [| | | |? F1 es1 ? H1| | | |]; subst. apply run_lift in H1.
    destruct (generate_config (t_env T) F1 p None opts) as [cfg|e] eqn:Eg; [|destruct H1 as [_ [X|X]]; discriminate].
    apply run_pbind in H1. destruct H1 as [[X _]|[(e & X & _)|(es2 & es3 & r & -> & H2 & H3)]]; try discriminate.
    exists F, content, F1, cfg, es2, es3, r. repeat split; auto.
    destruct r as [[|c r]|]; try (inversion H3; subst; reflexivity).
    destruct (negb (str_eqb (c :: r) content)); [|inversion H3; subst; reflexivity].
    inversion H3 as [| | | | |? ? ? w es4 ? H4| | |]; subst. apply run_lift in H4. destruct w; [inversion H4; subst; reflexivity|].
    destruct H4 as [_ [X|X]]; discriminate.
  - inversion H2 as [| | |? ? a es3 ? H3| | | | |]; subst. specialize (Ne (error_result p e)). rewrite results_app in Ne.
    exfalso. enough (x_error (error_result p e) = None) by discriminate. apply Ne, in_or_app. right. simpl. auto.
Qed.

(** Any run: the violations given are some of those of linting the file's content with the configuration. *)
Lemma file_given : forall T p autofix opts hook es o v,
  run (fixit_file T p autofix opts hook) es o -> In v (violations (results es)) ->
  exists F content F1 cfg F2 es', es = ELook F :: ELook F1 :: ELook F2 :: es' /\ f_file F p = Some content /\
    generate_config (t_env T) F1 p None opts = Ok cfg /\ In v (fst (lint_of T F2 p content cfg)).
Proof.
  intros T p autofix opts hook es o v H I. unfold violations in I. apply in_flat_map in I. destruct I as (x & Ix & Iv).
  destruct (x_violation x) as [w|] eqn:Ex; [|contradiction]. destruct Iv as [->|[]].
  unfold fixit_file in H. apply run_catch in H.
  assert (B : forall es o,
    run (Look (fun F =>
       match f_file F p with
       | None => Raise OSError
       | Some content =>
           Look (fun F =>
             lift (generate_config (t_env T) F p None opts) (fun cfg =>
               pbind (fixit_bytes T p content cfg autofix hook) (fun updated =>
                 match updated with
                 | Some ((_ :: _) as c) =>
                     if negb (str_eqb c content) then Write p c (fun o => lift o (fun _ => Ret tt)) else Ret tt
                 | _ => Ret tt
                 end)))
       end)) es o -> In x (results es) ->
    exists F content F1 cfg F2 es', es = ELook F :: ELook F1 :: ELook F2 :: es' /\ f_file F p = Some content /\
      generate_config (t_env T) F1 p None opts = Ok cfg /\ In v (fst (lint_of T F2 p content cfg))).
  { clear - Ex. intros es o H Ix. inversion H as [| | | |? F es' ? H'| | | |]; subst; [contradiction|].
    destruct (f_file F p) as [content|] eqn:Ef; [|inversion H'; subst; contradiction].
    inversion H' as [| | | |? F1 es1 ? H1| | | |]; subst; [contradiction|].
    apply run_lift in H1. destruct (generate_config (t_env T) F1 p None opts) as [cfg|e] eqn:Eg; [|destruct H1 as [-> _]; contradiction].
    assert (P : forall vs err rest, report_of p vs err = rest -> In x rest -> In v vs).
    { intros vs err rest <- I. unfold report_of in I. apply in_app_iff in I. destruct I as [I|I].
      - apply in_map_iff in I. destruct I as (w & <- & I). injection Ex as <-. exact I.
      - destruct err as [e|]; [destruct I as [<-|[]]; discriminate|]. destruct vs; [destruct I as [<-|[]]; discriminate|contradiction]. }
    assert (Q : forall es1 o, run (fixit_bytes T p content cfg autofix hook) es1 o -> In x (results es1) ->
      exists F2 es', es1 = ELook F2 :: es' /\ In v (fst (lint_of T F2 p content cfg))).
    { intros es0 o0 R I. apply bytes_run in R. destruct R as [_ [[-> _]|(F2 & es' & -> & R)]]; [contradiction|].
      exists F2, es'. split; auto. destruct (lint_of T F2 p content cfg) as [vs err]. cbn [fst]. destruct o0 as [r|e|].
      - cbv zeta in R. destruct R as (err' & R & _). eapply P; [reflexivity|]. rewrite <- R. exact I.
      - contradiction.
      - destruct R as (err' & rest & R). eapply P; [exact R|]. apply in_or_app. auto. }
    assert (Q' : forall es1 o rest, run (fixit_bytes T p content cfg autofix hook) es1 o -> In x (results es1) ->
      exists F0 content0 F3 cfg0 F2 es', ELook F :: ELook F1 :: es1 ++ rest = ELook F0 :: ELook F3 :: ELook F2 :: es' /\ f_file F0 p = Some content0 /\
      generate_config (t_env T) F3 p None opts = Ok cfg0 /\ In v (fst (lint_of T F2 p content0 cfg0))).
    { intros es0 o0 rest R I. destruct (Q _ _ R I) as (F2 & es' & -> & K). exists F, content, F1, cfg, F2, (es' ++ rest). auto. }
    cbn [results given map] in Ix. fold (results es1) in Ix.
    apply run_pbind in H1. destruct H1 as [[-> H1]|[(e & -> & H1)|(es2 & es3 & r & -> & H2 & H3)]].
    - rewrite <- (app_nil_r es1). eapply Q'; eauto.
    - rewrite <- (app_nil_r es1). eapply Q'; eauto.
    - rewrite results_app in Ix. apply in_app_iff in Ix. destruct Ix as [Ix|Ix]; [eapply Q'; eauto|exfalso].
      destruct r as [[|c r]|]; try (inversion H3; subst; contradiction).
      destruct (negb (str_eqb (c :: r) content)); [|inversion H3; subst; contradiction].
      inversion H3 as [| | | | |? ? ? w es4 ? H4| | |]; subst; [contradiction|]. apply run_lift in H4. destruct w; [inversion H4; subst; contradiction|].
      destruct H4 as [-> _]. contradiction. }
  destruct H as [[-> H]|[(r & -> & H)|(es1 & es2 & e & -> & H1 & H2)]]; eauto.
  rewrite results_app in Ix. apply in_app_iff in Ix. destruct Ix as [Ix|Ix].
  - destruct (B _ _ H1 Ix) as (F & content & F1 & cfg & F2 & es' & -> & K). exists F, content, F1, cfg, F2, (es' ++ es2). auto.
  - exfalso. inversion H2 as [| | |? ? a es3 ? H3| | | | |]; subst; [contradiction|]. destruct Ix as [<-|Ix]; [discriminate|].
    inversion H3; subst; contradiction.
Qed.

Lemma selected_in : forall Y F cfg ks d s, fair_sets (y_world Y F) -> collect_rules (y_world Y F) cfg (y_py Y) = (Ok (ks, d), s) ->
  NoDup ks /\ forall k, In k ks <-> selected Y F cfg k.
Proof.
  intros Y F cfg ks d s Fa H. unfold selected. 
  destruct (findings (y_world Y F) (c_enable cfg) (with_root_import (y_world Y F) cfg (y_py Y))) as [fe s1] eqn:E1.
  destruct (findings (y_world Y F) (c_disable cfg) s1) as [fd s2] eqn:E2.
  exact (C14_selection _ _ _ _ _ _ _ _ _ _ Fa H E1 E2).
Qed.

(** ** C78 *)

(** When linting a file ends without an error, the user gets exactly what the selected rules say about it and is not silenced by a
    comment: for each rule in turn (no rule twice), in the order in which the rule says it. *)
Theorem C78_exactly : forall Y p autofix opts hook es,
  (forall F, fair_sets (y_world Y F)) ->
  run (fixit_file (tool_of Y) p autofix opts hook) es (Returned tt) -> (forall x, In x (results es) -> x_error x = None) ->
  exists F content F1 cfg F2 es' ks,
    es = ELook F :: ELook F1 :: ELook F2 :: es' /\ f_file F p = Some content /\ generate_config (y_env Y) F1 p None opts = Ok cfg /\
    NoDup ks /\ (forall k, In k ks <-> selected Y F2 cfg k) /\
    ((ks = [] /\ violations (results es) = []) \/
     exists md M parts, y_parse Y content = Ok md /\ y_wrap Y md = Ok M /\
       Forall2 (fun k vs => let C := y_code Y F2 k in heard (y_unicode Y) M C (says C md (calls (d_tree M)) (k_first C)) vs) ks parts /\
       violations (results es) = concat parts /\ Forall (shows_fix Y p md) (concat parts)).
Proof.
  intros Y p autofix opts hook es Fa H Ne. destruct (file_run _ _ _ _ _ _ H Ne) as (F & content & F1 & cfg & es1 & es2 & r & -> & Ef & Eg & R & E2).
  apply bytes_run in R. destruct R as [_ [[_ X]|(F2 & es' & -> & R)]]; [discriminate|].
  destruct (lint_of (tool_of Y) F2 p content cfg) as [vs err] eqn:L. cbv zeta in R. destruct R as (err' & Rr & R).
  assert (Rs : results (ELook F :: ELook F1 :: (ELook F2 :: es') ++ es2) = report_of p vs err').
  { rewrite <- Rr. change (results (ELook F :: ELook F1 :: (ELook F2 :: es') ++ es2)) with (results ((ELook F2 :: es') ++ es2)). rewrite results_app, E2. apply app_nil_r. }
  rewrite Rs in Ne |- *.
  destruct err' as [e|].
  { exfalso. enough (x_error (Result p None (Some e)) = None) by discriminate. apply Ne. unfold report_of. apply in_or_app. right. simpl. auto. }
  destruct R as [-> _]. apply lint_exact in L. destruct L as (ks & d & s & Ec & L).
  destruct (selected_in _ _ _ _ _ _ (Fa F2) Ec) as [Nd Sel].
  assert (V : violations (report_of p vs None) = vs).
  { unfold report_of, violations. rewrite flat_map_app. replace (flat_map _ (match vs with [] => _ | _ => _ end)) with (@nil viol) by (destruct vs; reflexivity).
    rewrite app_nil_r. clear. induction vs as [|v vs IH]; [reflexivity|]. cbn [map flat_map x_violation app]. now f_equal. }
  exists F, content, F1, cfg, F2, (es' ++ es2), ks. split; [reflexivity|]. split; [auto|]. split; [auto|]. split; [auto|]. split; [apply Sel|]. rewrite V.
  destruct L as [[-> ->]|(md & M & parts & A & B & C & -> & D)]; [auto|right]. exists md, M, parts. auto.
Qed.

(** Whatever happens (errors, a caller that stops early): a violation that the user gets is something that a selected rule says about
    the file's content and that no comment silences. *)
Theorem C78_sound : forall Y p autofix opts hook es o v,
  (forall F, fair_sets (y_world Y F)) ->
  run (fixit_file (tool_of Y) p autofix opts hook) es o -> In v (violations (results es)) ->
  exists F content F1 cfg F2 es' md M k x,
    es = ELook F :: ELook F1 :: ELook F2 :: es' /\ f_file F p = Some content /\ generate_config (y_env Y) F1 p None opts = Ok cfg /\
    selected Y F2 cfg k /\ y_parse Y content = Ok md /\ y_wrap Y md = Ok M /\
    loud Y F2 md M k x /\ tells M (y_code Y F2 k) x v /\ shows_fix Y p md v.
Proof.
  intros Y p autofix opts hook es o v Fa H I. destruct (file_given _ _ _ _ _ _ _ _ H I) as (F & content & F1 & cfg & F2 & es' & -> & Ef & Eg & L).
  apply lint_sound in L. destruct L as (ks & d & s & md & M & k & x & Ec & Ik & L).
  destruct (selected_in _ _ _ _ _ _ (Fa F2) Ec) as [_ Sel]. apply Sel in Ik.
  exists F, content, F1, cfg, F2, es', md, M, k, x. tauto.
Qed.

(** If a file is written, then with the replacements that selected rules propose for nodes where no comment silences them, and the
    formatter: see C26 for what applying replacements does to the text. *)
Theorem C78_written : forall Y p autofix opts hook es o q c,
  (forall F, fair_sets (y_world Y F)) ->
  run (fixit_file (tool_of Y) p autofix opts hook) es o -> In (q, c) (written es) ->
  q = p /\ exists F content F1 cfg F2 F3 es' md M vs md' b,
    es = ELook F :: ELook F1 :: ELook F2 :: es' /\ f_file F p = Some content /\ generate_config (y_env Y) F1 p None opts = Ok cfg /\
    y_parse Y content = Ok md /\ y_wrap Y md = Ok M /\ vs <> [] /\
    (forall v, In v vs -> exists k x, selected Y F2 cfg k /\ loud Y F2 md M k x /\ tells M (y_code Y F2 k) x v) /\
    apply_replacements md vs = Ok (Some md') /\ y_bytes Y md' = Ok b /\
    match c_formatter cfg with
    | None => c = b
    | Some style => exists fmt, y_style Y style = Some fmt /\ fmt F3 b p = Ok c
    end.
Proof.
  intros Y p autofix opts hook es o q c Fa H I. destruct (C31_writes _ _ _ _ _ _ _ H) as (_ & _ & [W|W]); [rewrite W in I; contradiction|].
  destruct W as (F & content & F1 & cfg & es1 & c0 & w & es2 & acc & -> & Ef & _ & _ & Eg & R & _ & Ea & Na & (F3 & Fx) & W1 & (W2 & _)).
  cbn [written] in I. rewrite written_app, W1 in I. cbn [app written] in I. rewrite W2 in I. destruct I as [I|[]]. injection I as <- <-.
  split; auto. pose proof R as R0. apply bytes_run in R. destruct R as [_ [[_ X]|(F2 & es' & -> & R)]]; [discriminate|].
  destruct (lint_of (tool_of Y) F2 p content cfg) as [vs err] eqn:L. cbv zeta in R. destruct R as (err' & Rr & _).
  unfold fixed_content in Fx. cbn [tool_of t_parse t_bytes t_style] in Fx. apply bind_ok in Fx. destruct Fx as (md & Ep & Fx).
  apply bind_ok in Fx. destruct Fx as (up & Eap & Fx). destruct up as [md'|]; [|discriminate].
  assert (In_vs : forall v, In v acc -> In v vs).
  { intros v Iv. subst acc. unfold accepted in Iv. apply in_flat_map in Iv. destruct Iv as ([x a] & Ix & Iv). cbn [fst snd] in Iv.
    destruct (x_violation x) as [v'|] eqn:Ex; [|contradiction]. assert (v' = v) as -> by (destruct a as [[|]|], autofix; simpl in Iv; tauto).
    assert (Ir : In x (report_of p vs err')). { rewrite <- Rr. unfold results. apply in_map_iff. exists (x, a). auto. }
    unfold report_of in Ir. apply in_app_iff in Ir. destruct Ir as [Ir|Ir].
    - apply in_map_iff in Ir. destruct Ir as (v' & <- & Ir). injection Ex as <-. exact Ir.
    - destruct err' as [e|]; [destruct Ir as [<-|[]]; discriminate|]. destruct vs; [destruct Ir as [<-|[]]; discriminate|contradiction]. }
  assert (S : forall v, In v acc -> exists M k x, y_wrap Y md = Ok M /\ selected Y F2 cfg k /\ loud Y F2 md M k x /\ tells M (y_code Y F2 k) x v).
  { intros v Iv. apply In_vs in Iv. assert (Iv' : In v (fst (lint_of (tool_of Y) F2 p content cfg))) by (rewrite L; exact Iv).
    apply lint_sound in Iv'. destruct Iv' as (ks & d & s & md0 & M & k & x & Ec & Ik & Ep0 & Ew & Lo & Te & _).
    assert (md0 = md) as -> by congruence. destruct (selected_in _ _ _ _ _ _ (Fa F2) Ec) as [_ Sel]. apply Sel in Ik.
    exists M, k, x. auto. }
  destruct acc as [|v0 acc0] eqn:Eacc; [congruence|]. destruct (S v0 (or_introl eq_refl)) as (M & _ & _ & Ew & _).
  exists F, content, F1, cfg, F2, F3, (es' ++ EWrite p c0 w :: es2), md, M, (v0 :: acc0), md'.
  assert (exists b, y_bytes Y md' = Ok b /\ match c_formatter cfg with None => c0 = b | Some style => exists fmt, y_style Y style = Some fmt /\ fmt F3 b p = Ok c0 end) as (b & Eb & Efm).
  { destruct (c_formatter cfg) as [style|]; [|eauto]. destruct (y_style Y style) as [fmt|] eqn:Es; [|discriminate].
    apply bind_ok in Fx. destruct Fx as (b & Eb & Fx). exists b. split; auto. exists fmt. auto. }
  exists b. repeat (split; [auto; fail|]). split; [|auto].
  intros v Iv. destruct (S v Iv) as (M' & k & x & Ew' & A & B & D). assert (M' = M) as -> by congruence. eauto.
Qed.
