(** * C84: it does not matter how files are shared among processes *)
From Coq Require Import String List NArith ZArith Bool Arith Lia Permutation.
From Verif Require Import Base PyStr Ftypes Paths Config Collect CollectSpec CollectFacts CollectSelect CollectProps CollectTotal Suppress SuppressSpec
  SuppressProps Cst Engine EngineProps Batch BatchProps Api ApiSpec ApiFacts ApiProps ApiPaths System SystemSpec SystemProps SystemSame Session SessionSpec
  SessionFacts SessionProps Cli CliSpec CliFacts CliProps Commands CommandsSpec CommandsProps Jobs JobsSpec.
Import ListNotations.

(** ** Executions *)

Lemma pbind_runs : forall A B (p : prog A) (f : A -> prog B) es1 r es2 o,
  run p es1 (Returned r) -> run (f r) es2 o -> run (pbind p f) (es1 ++ es2) o.
Proof.
  intros A B p f es1 r es2 o H. remember (Returned r) as o1 eqn:E. revert r E.
  induction H; intros r0 E; try discriminate; cbn [pbind app]; intro H2; try (constructor; eauto).
  injection E as <-. exact H2.
Qed.

Lemma track_runs : forall A (p : prog A) es r, run p es (Returned r) -> forall seen, run (track p seen) es (Returned (r, seen ++ looks es)).
Proof.
  intros A p es r H. remember (Returned r) as o1 eqn:E. revert r E.
  induction H; intros r0 E seen; try discriminate; cbn [track]; try (constructor; apply IHrun; exact E).
  - injection E as <-. cbn [looks flat_map]. rewrite app_nil_r. constructor.
  - constructor. cbn [looks flat_map]. specialize (IHrun _ E (seen ++ [F])). rewrite <- app_assoc in IHrun. exact IHrun.
Qed.

Lemma session_snoc : forall Y autofix opts hook ps z e z1 p es,
  run (in_session Y ps autofix opts hook z) e (Returned z1) -> run (fixit_file (tool_of (system_at Y z1)) p autofix opts hook) es (Returned tt) ->
  run (in_session Y (ps ++ [p]) autofix opts hook z) (e ++ es) (Returned (after_file Y p opts (looks es) z1)).
Proof.
  intros Y autofix opts hook. induction ps as [|q ps IH]; intros z e z1 p es H Hp; cbn [in_session app] in *.
  - inversion H; subst. cbn [app]. rewrite <- (app_nil_r es) at 1. eapply pbind_runs; [apply (track_runs _ _ _ _ Hp [])|]. constructor.
  - apply run_pbind in H. destruct H as [[X _]|[(e0 & X & _)|(es1 & es2 & r & -> & H1 & H2)]]; try discriminate.
    rewrite <- app_assoc. eapply pbind_runs; [exact H1|]. now apply IH.
Qed.

(** A generator can be run to its end when nobody answers and no file changes. *)
Lemma can_run : forall A (p : prog A) F, exists es o, run p es o /\ o <> Stopped /\ unanswered es /\ forall G, In G (looks es) -> G = F.
Proof.
  intros A p F. induction p as [r|e|x k IH|k IH|q c k IH|k IH|c k IH|m k IH].
  - exists [], (Returned r). split; [constructor|]. split; [discriminate|]. split; [constructor|contradiction].
  - exists [], (Raised e). split; [constructor|]. split; [discriminate|]. split; [constructor|contradiction].
  - destruct (IH None) as (es & o & R & S & U & L). exists (EGive x None :: es), o. split; [now constructor|]. split; auto. split; [now constructor|exact L].
  - destruct (IH F) as (es & o & R & S & U & L). exists (ELook F :: es), o. split; [now constructor|]. split; auto. split; [constructor; simpl; auto; exact U|].
    intros G [<-|I]; auto.
  - destruct (IH (Ok tt)) as (es & o & R & S & U & L). exists (EWrite q c (Ok tt) :: es), o. split; [now constructor|]. split; auto. split; [constructor; simpl; auto; exact U|exact L].
  - destruct (IH (Ok [])) as (es & o & R & S & U & L). exists (EIn (Ok []) :: es), o. split; [now constructor|]. split; auto. split; [constructor; simpl; auto; exact U|exact L].
  - destruct (IH (Ok tt)) as (es & o & R & S & U & L). exists (EOut c (Ok tt) :: es), o. split; [now constructor|]. split; auto. split; [constructor; simpl; auto; exact U|exact L].
  - destruct (IH (Ok tt)) as (es & o & R & S & U & L). exists (ECall m (Ok tt) :: es), o. split; [now constructor|]. split; auto. split; [constructor; simpl; auto; exact U|exact L].
Qed.

Lemma unattended_iff : forall es, unattended es <-> unanswered es.
Proof.
  intro es. unfold unattended, unanswered. rewrite Forall_forall. split.
  - intros [A B] e I. destruct e as [x a|F|q c w|i|c w|m w]; auto; [now apply (A x)|]. destruct w as [[]|e]; auto. now apply B in I.
  - intro H. split; [intros x a I; exact (H _ I)|]. intros m e I. specialize (H _ I). discriminate.
Qed.

Opaque fixit_bytes.

(** A file that is gone, or whose configuration is broken, gives an error; otherwise its rules are looked for. *)
Lemma file_looks : forall T p opts hook es F, run (fixit_file T p false opts hook) es (Returned tt) -> unanswered es ->
  (forall G, In G (looks es) -> G = F) ->
  (f_file F p = None \/ exists e, generate_config (t_env T) F p None opts = Err e) /\ ~ no_errors es \/
  exists content cfg l, f_file F p = Some content /\ generate_config (t_env T) F p None opts = Ok cfg /\ looks es = F :: F :: F :: l.
Proof.
  intros T p opts hook es F H Un L. unfold fixit_file in H. apply run_catch in H.
  destruct H as [[X _]|[([] & _ & H)|(es1 & es2 & e & -> & H1 & H2)]]; [discriminate| |].
  - inversion H as [| | | |? F' es' ? H'| | | |]; subst. assert (F' = F) as -> by (apply L; simpl; auto).
    destruct (f_file F p) as [content|] eqn:Ef; [|inversion H'].
    inversion H' as [| | | |? F1' es1 ? H1| | | |]; subst. assert (F1' = F) as -> by (apply L; simpl; auto). apply run_lift in H1.
    destruct (generate_config (t_env T) F p None opts) as [cfg|e] eqn:Eg; [|destruct H1 as [_ [X|X]]; discriminate].
    right. exists content, cfg.
    apply run_pbind in H1. destruct H1 as [[X _]|[(e & X & _)|(es2 & es3 & r & -> & H2 & H3)]]; try discriminate.
    apply bytes_run in H2. destruct H2 as [_ [[_ X]|(F2' & es' & -> & _)]]; [discriminate|]. assert (F2' = F) as -> by (apply L; simpl; auto).
    cbn [looks flat_map app]. exists (looks (es' ++ es3)). auto.
  - assert (Bad : ~ no_errors (es1 ++ es2)).
    { inversion H2 as [| | |? ? a es3 ? H3| | | | |]; subst. intro Ne. apply no_errors_app in Ne. destruct Ne as [_ Ne].
      specialize (Ne (Result p None (Some e)) (or_introl eq_refl)). discriminate. }
    inversion H1 as [| | | |? F' es' ? H'| | | |]; subst. assert (F' = F) as -> by (apply L; simpl; auto).
    destruct (f_file F p) as [content|] eqn:Ef; [|left; auto].
    inversion H' as [| | | |? F1' es3 ? H3| | | |]; subst. assert (F1' = F) as -> by (apply L; simpl; auto). apply run_lift in H3.
    destruct (generate_config (t_env T) F p None opts) as [cfg|e'] eqn:Eg; [|left; split; auto; right; eauto].
    right. exists content, cfg.
    apply run_pbind in H3. destruct H3 as [[X _]|[(e' & X & H4)|(es4 & es5 & r & -> & H4 & H5)]]; try discriminate.
    + exfalso. eapply C29_never_raises; eauto.
    + apply bytes_run in H4. destruct H4 as [_ [[_ X]|(F2' & es' & -> & _)]]; [discriminate|]. assert (F2' = F) as -> by (apply L; simpl; auto).
      cbn [looks flat_map app]. eexists. eauto.
Qed.

(** Without errors, the results are the violations, or say that the file is clean. *)
Lemma clean_results : forall T p opts hook es, run (fixit_file T p false opts hook) es (Returned tt) -> no_errors es ->
  results es = report_of p (violations (results es)) None.
Proof.
  intros T p opts hook es H Ne. unfold fixit_file in H. apply run_catch in H.
  assert (V : forall vs, violations (report_of p vs None) = vs).
  { intro vs. unfold report_of, violations. rewrite flat_map_app. replace (flat_map _ match vs with [] => _ | _ => _ end) with (@nil viol) by (destruct vs; reflexivity).
    rewrite app_nil_r. induction vs as [|v vs IH]; [reflexivity|]. cbn [map flat_map x_violation app]. now rewrite IH. }
  destruct H as [[X _]|[([] & _ & H)|(es1 & es2 & e & -> & H1 & H2)]]; [discriminate| |].
  - inversion H as [| | | |? F es' ? H'| | | |]; subst.
    destruct (f_file F p) as [content|] eqn:Ef; [|inversion H'].
    inversion H' as [| | | |? F1 es1 ? H1| | | |]; subst. apply run_lift in H1.
    destruct (generate_config (t_env T) F1 p None opts) as [cfg|e] eqn:Eg; [|destruct H1 as [_ [X|X]]; discriminate].
    apply run_pbind in H1. destruct H1 as [[X _]|[(e & X & _)|(es2 & es3 & r & -> & H2 & H3)]]; try discriminate.
    assert (E3 : results es3 = []).
    { destruct r as [[|a c]|]; try (inversion H3; reflexivity). destruct (negb _); [|inversion H3; reflexivity].
      inversion H3 as [| | | | |? ? ? w es4 ? H4| | |]; subst. cbn [results given map]. apply run_lift in H4. destruct w; [inversion H4; reflexivity|destruct H4 as [-> _]; reflexivity]. }
    assert (Er : results (ELook F :: ELook F1 :: es2 ++ es3) = results es2).
    { change (results (es2 ++ es3) = results es2). now rewrite results_app, E3, app_nil_r. }
    unfold no_errors in Ne. rewrite Er in *.
    apply bytes_run in H2. destruct H2 as [_ [[_ X]|(F2 & es' & -> & R)]]; [discriminate|].
    destruct (lint_of T F2 p content cfg) as [vs err]. cbv zeta in R. destruct R as (err' & Rr & R).
    destruct err' as [e|].
    { exfalso. enough (x_error (Result p None (Some e)) = None) by discriminate. apply Ne. rewrite Rr. unfold report_of. apply in_or_app. right. simpl. auto. }
    now rewrite Rr, V.
  - exfalso. inversion H2 as [| | |? ? a es3 ? H3| | | | |]; subst. apply no_errors_app in Ne. destruct Ne as [_ Ne].
    specialize (Ne (Result p None (Some e)) (or_introl eq_refl)). discriminate.
Qed.

Transparent fixit_bytes.

(** ** Two ways to share the files *)

Section Same.
  Context (Y : system) (W : world) (z0 : session) (F : fs) (opts : option options) (hook : bool) (ps : list path).
  Context (world_fixed : forall G, y_world Y G = W) (fair : fair_sets W) (no_gen : forall G id g, y_code Y G (id, g) = y_code Y G (id, None)).
  Context (project : one_project Y F opts ps).

  (** The file is linted on its own. *)
  Definition alone (p : path) (es : list ev) : Prop :=
    run (fixit_file (tool_of (system_at Y z0)) p false opts hook) es (Returned tt) /\ unanswered es /\ forall G, In G (looks es) -> G = F.

  Lemma can_alone : forall p, exists es, alone p es.
  Proof.
    intro p. destruct (can_run _ (fixit_file (tool_of (system_at Y z0)) p false opts hook) F) as (es & o & R & S & U & L). exists es.
    destruct o as [[]|e|]; [split; auto|destruct (C29_some _ _ _ _ _ _ _ R)|congruence].
  Qed.

  (** As it would be on its own. *)
  Definition as_alone (p : path) (es : list ev) : Prop :=
    forall es0, alone p es0 -> (no_errors es <-> no_errors es0) /\ (no_errors es -> Permutation (violations (results es)) (violations (results es0))).

  Lemma compare : forall ps0 e z p es,
    run (in_session Y ps0 false opts hook z0) e (Returned z) -> incl ps0 ps -> In p ps -> (forall G, In G (looks e) -> G = F) -> z_path z = z_path z0 ->
    run (fixit_file (tool_of (system_at Y z)) p false opts hook) es (Returned tt) -> unanswered es -> (forall G, In G (looks es) -> G = F) ->
    as_alone p es.
  Proof.
    intros ps0 e z p es R Inc Ip Le Zp R1 U1 L1 es0 (R0 & U0 & L0).
    assert (Sm : forall q F1 cfg F1' cfg', In q ps0 -> In F1 (looks e) -> generate_config (y_env Y) F1 q None opts = Ok cfg ->
       In F1' (looks es) -> generate_config (y_env Y) F1' p None opts = Ok cfg' ->
       same_modules W z cfg' (import_path W cfg z0) (import_path W cfg' z0)).
    { intros q F1 cfg F1' cfg' I1 I2 I3 I4 I5 r _ _ _. apply Le in I2. apply L1 in I4. subst F1 F1'.
      destruct (project q p cfg cfg' (Inc _ I1) Ip I3 I5) as [E X]. f_equal. f_equal.
      unfold import_path, with_root_import. rewrite <- E. destruct X as [->| ->]; reflexivity. }
    destruct (file_looks _ p opts hook es F R1 U1 L1) as [[Bad N1]|(content & cfg & l1 & Ef & Eg & K1)].
    - assert (N0 : ~ no_errors es0).
      { destruct (file_looks _ p opts hook es0 F R0 U0 L0) as [[_ N0]|(content & cfg & l1 & Ef & Eg & K1)]; auto.
        cbn [tool_of t_env system_at y_env] in *. destruct Bad as [X|(x & X)]; congruence. }
      split; [tauto|]. intro; contradiction.
    - destruct (file_looks _ p opts hook es0 F R0 U0 L0) as [[Bad N0]|(content' & cfg' & l0 & Ef' & Eg' & K0)].
      { cbn [tool_of t_env system_at y_env] in *. destruct Bad as [X|(x & X)]; congruence. }
      assert (Iff : no_errors es <-> no_errors es0).
      { eapply (C79_fails Y W z0 ps0 p false hook opts e z es es0); eauto using unanswered_accepted.
        intros mt x I. apply in_app_iff in I. destruct I as [I|I]; eapply unanswered_calls; [exact U1|exact I|exact U0|exact I]. }
      split; auto. intro Ne. eapply (C79_alone Y W z0 ps0 p false hook opts e z es es0); eauto; [now apply Iff|].
      rewrite K1, K0. reflexivity.
  Qed.

  (** What a process does with its files is what would be done with each of them alone, unless there was an error and root imports are on. *)
  Lemma worker_alone : forall z qs l, visits Y false opts hook z qs l -> forall ps0 e,
    run (in_session Y ps0 false opts hook z0) e (Returned z) -> incl ps0 ps -> incl qs ps -> (forall G, In G (looks e) -> G = F) -> z_path z = z_path z0 ->
    Forall (fun v => unanswered (snd v) /\ forall G, In G (looks (snd v)) -> G = F) l ->
    no_root_imports Y F opts ps \/ (forall v, In v l -> no_errors (snd v)) \/ (forall p es, In p qs -> alone p es -> no_errors es) ->
    Forall2 (fun p v => as_alone p (snd v)) qs l.
  Proof.
    intros z qs l H. induction H as [z|z p es qs l R1 _ IH]; intros ps0 e R Inc Inq Le Zp Fo Ok_; [constructor|].
    inversion Fo as [|? ? [U1 L1] Fo']; subst. cbn [snd] in *.
    assert (Ip : In p ps) by (apply Inq; simpl; auto).
    pose proof (compare ps0 e z p es R Inc Ip Le Zp R1 U1 L1) as Cm. constructor; [exact Cm|].
    pose proof (session_snoc _ _ _ _ _ _ _ _ _ _ R R1) as R'.
    assert (Le' : forall G, In G (looks (e ++ es)) -> G = F). { intros G I. rewrite looks_app in I. apply in_app_iff in I. destruct I; auto. }
    eapply IH; [exact R'| | |exact Le'| |exact Fo'|].
    - intros q I. apply in_app_iff in I. destruct I as [I|[<-|[]]]; auto.
    - intros q I. apply Inq. simpl. auto.
    - rewrite <- Zp. unfold after_file. destruct (looks es) as [|G [|G1 [|G2 k]]] eqn:El; auto.
      destruct (generate_config (y_env Y) G1 p None opts) as [cfg|] eqn:G0; auto. rewrite world_fixed.
      assert (G1 = F) as -> by (apply L1; simpl; auto).
      destruct (after_collect_facts W cfg z) as ((ext & A & B) & _). rewrite A, B, app_nil_r; auto.
      assert (NE : no_root_imports Y F opts ps \/ no_errors es).
      { destruct Ok_ as [X|[X|X]]; auto; right; [apply (X (z, es)); simpl; auto|].
        destruct (can_alone p) as (es0 & Al). apply (Cm _ Al), (X p); simpl; auto. }
      destruct NE as [X|Ne]; [left; eapply X; eauto|right].
      destruct (file_collected _ _ _ _ _ _ R1 Ne) as (F' & F1' & F2' & l' & cfg' & ks & El' & Eg & Ec). rewrite El in El'. injection El' as <- <- <- <-.
      cbn [system_at y_env y_world y_py] in *. rewrite world_fixed in Ec. assert (cfg' = cfg) as -> by congruence. eauto.
    - destruct Ok_ as [X|[X|X]]; auto; right; [left; intros v I; apply X; simpl; auto|right; intros q es' I; apply X; simpl; auto].
  Qed.

  Lemma in_combine_fst : forall (w : worker) (v : report), In v (combine (fst w) (snd w)) -> In (snd v) (snd w).
  Proof. intros w [p v] I. now apply in_combine_r in I. Qed.

  Lemma pooled_alone : forall out, pooled Y false opts hook z0 ps out -> steady F out ->
    no_root_imports Y F opts ps \/ (forall r, In r out -> no_errors (events r)) \/ (forall p es, In p ps -> alone p es -> no_errors es) ->
    forall p z es, In (p, (z, es)) out -> In p ps /\ as_alone p es /\ unanswered es /\
      run (fixit_file (tool_of (system_at Y z)) p false opts hook) es (Returned tt).
  Proof.
    intros out (ws & Fw & Pp & Po) St Ok_ p z es I. apply (Permutation_in _ (Permutation_sym Po)) in I. apply in_flat_map in I. destruct I as (w & Iw & I).
    assert (Iq : incl (fst w) ps).
    { intros q Iq. eapply Permutation_in; [exact Pp|]. apply in_flat_map. eauto. }
    assert (Ir : forall q v, In (q, v) (combine (fst w) (snd w)) -> In (q, v) out).
    { intros q v Iv. eapply Permutation_in; [exact Po|]. apply in_flat_map. eauto. }
    rewrite Forall_forall in Fw. destruct (Fw w Iw) as [Vi Un]. clear Fw.
    assert (Len : List.length (fst w) = List.length (snd w)).
    { clear - Vi. remember (fst w) as a. remember (snd w) as b. clear Heqa Heqb. induction Vi; simpl; congruence. }
    assert (Iv : forall v, In v (snd w) -> exists q, In (q, v) out).
    { intros v J. assert (exists q, In (q, v) (combine (fst w) (snd w))) as (q & K); [|eauto].
      clear - Len J. revert Len J. generalize (fst w). induction (snd w) as [|v' l IH]; intros [|q qs] Len J; try contradiction; try discriminate.
      destruct J as [->|J]; [exists q; simpl; auto|]. injection Len as Len. destruct (IH qs Len J) as (q' & K). exists q'. simpl. auto. }
    assert (Fo : Forall (fun v => unanswered (snd v) /\ forall G, In G (looks (snd v)) -> G = F) (snd w)).
    { rewrite Forall_forall in *. intros v J. split; [apply unattended_iff; now apply Un|]. intros G IG. destruct (Iv v J) as (q & K). exact (St _ _ K IG). }
    assert (A : Forall2 (fun p v => as_alone p (snd v)) (fst w) (snd w)).
    { eapply (worker_alone z0 _ _ Vi [] []); auto.
      - constructor.
      - intros q [].
      - intros G [].
      - destruct Ok_ as [X|[X|X]]; auto; right; [left|right; eauto]. intros v J. destruct (Iv v J) as (q & K). exact (X _ K). }
    split; [apply Iq; apply in_combine_l in I; exact I|].
    split; [|split].
    - clear - A I. induction A as [|q v qs l H _ IH]; [contradiction|]. cbn [combine] in I. destruct I as [I|I]; [|auto]. injection I as <- ->. exact H.
    - apply in_combine_r in I. rewrite Forall_forall in Fo. now destruct (Fo _ I).
    - now destruct (visits_part _ _ _ _ _ _ _ Vi _ _ _ I).
  Qed.
End Same.

(** ** Without a hook there are no metrics *)

Fixpoint hushed {R} (g : prog R) : Prop :=
  match g with
  | Ret _ | Raise _ => True
  | Give _ k => forall a, hushed (k a)
  | Look k => forall F, hushed (k F)
  | Write _ _ k => forall o, hushed (k o)
  | Stdin k => forall o, hushed (k o)
  | Stdout _ k => forall o, hushed (k o)
  | Call _ _ => False
  end.

Lemma hushed_run : forall R (g : prog R) es o, run g es o -> hushed g -> forall m w, ~ In (ECall m w) es.
Proof.
  intros R g es o H. induction H; intros L m0 w0 I; try contradiction; cbn [hushed] in L; try contradiction;
    (destruct I as [I|I]; [discriminate|eapply IHrun; eauto]).
Qed.

Lemma hushed_pbind : forall A B (g : prog A) (f : A -> prog B), hushed g -> (forall r, hushed (f r)) -> hushed (pbind g f).
Proof. intros A B g f. induction g; cbn [pbind hushed]; intuition. Qed.

Lemma hushed_catch : forall A (g : prog A) h, hushed g -> (forall e, hushed (h e)) -> hushed (catch g h).
Proof. intros A g h. induction g; cbn [catch hushed]; intuition. Qed.

Lemma hushed_lift : forall A B (r : res A) (f : A -> prog B), (forall a, hushed (f a)) -> hushed (lift r f).
Proof. intros A B [a|e] f H; cbn [lift hushed]; auto. Qed.

Lemma hushed_loop : forall p autofix r k, (forall c l, hushed (k c l)) -> forall evs, (forall m, ~ In (Hook m) evs) -> forall clean pending,
  hushed (Api.lint_loop p autofix evs r clean pending k).
Proof.
  intros p autofix r k H. induction evs as [|[v|m] evs IH]; intros N clean pending; cbn [Api.lint_loop hushed].
  - apply hushed_lift. auto.
  - intro a. apply IH. intros m I. apply (N m). simpl. auto.
  - apply (N m). simpl. auto.
Qed.

Lemma no_hooks : forall ud md vis evs r, collect_violations ud md vis false = (evs, r) -> forall m, ~ In (Hook m) evs.
Proof.
  intros ud md vis evs r H m I.
  pose proof (collect_hook ud md vis) as C. rewrite H in C. destruct C as [C _]. destruct (C _ I). discriminate.
Qed.

Lemma hushed_fixes : forall T p cfg md pending, hushed (finish_fixes T p cfg md pending).
Proof.
  intros T p cfg md pending. unfold finish_fixes. destruct pending; [exact I|]. apply hushed_lift. intros [m|]; [|exact I].
  cbn [hushed]. intro F. apply hushed_lift. intro c. exact I.
Qed.

Lemma hushed_bytes : forall T p content cfg autofix, hushed (fixit_bytes T p content cfg autofix false).
Proof.
  intros T p content cfg autofix. unfold fixit_bytes. apply hushed_catch.
  - cbn [hushed]. intro F. apply hushed_lift. intros [|k ks]; [cbn; auto|].
    apply hushed_lift. intro md. destruct (collect_violations _ _ _ _) as [evs r] eqn:E. apply hushed_loop; [|eapply no_hooks; exact E].
    intros [|] l; cbn [hushed]; [intro|]; apply hushed_fixes.
  - intro e. cbn. auto.
Qed.

Lemma hushed_file : forall T p autofix opts, hushed (fixit_file T p autofix opts false).
Proof.
  intros T p autofix opts. unfold fixit_file. apply hushed_catch.
  - cbn [hushed]. intro F. destruct (f_file F p) as [content|]; [|exact I]. cbn [hushed]. intro F1. apply hushed_lift. intro cfg.
    apply hushed_pbind; [apply hushed_bytes|]. intros [[|c l]|]; try exact I. destruct (negb _); [|exact I]. cbn [hushed]. intro o.
    apply hushed_lift. intro. exact I.
  - intro e. cbn. auto.
Qed.

Lemma screen_hushed : forall K diff out cfg es, (forall m w, ~ In (ECall m w) es) -> screen K diff out cfg es = flat_map (item K diff out cfg) (results es).
Proof.
  intros K diff out cfg es. induction es as [|e es IH]; intro N; [reflexivity|].
  assert (N' : forall m w, ~ In (ECall m w) es) by (intros m w I; apply (N m w); simpl; auto).
  unfold screen in *. cbn [flat_map]. rewrite (IH N'). destruct e as [x a|F|q c w|i|c w|m w]; cbn [results given map flat_map app]; auto.
  destruct (N m w). simpl. auto.
Qed.

(** ** The command *)

Lemma deliver_run : forall xs es, run (deliver xs) es (Returned tt) ->
  results es = xs /\ api_effects es = [] /\ (forall m w, ~ In (ECall m w) es).
Proof.
  induction xs as [|x xs IH]; intros es H; cbn [deliver] in H; inversion H; subst; [repeat split; auto|].
  destruct (IH _ H4) as (A & B & C). split; [unfold results in *; cbn [given map]; now rewrite A|]. split; [exact B|].
  intros m w [I|I]; [discriminate|now apply C in I].
Qed.

(** What the command does, for any call of fixit_paths. *)
Lemma lint_run : forall K E opts diff api vs code, crun (Cli.lint_with K E opts diff api) vs (Returned code) ->
  exists F0 cfg es, generate_config E F0 (k_cwd K) None (Some opts) = Ok cfg /\ run api es (Returned tt) /\
    effects vs = ELook F0 :: api_effects es /\ unanswered es /\ code = l_exit (lint_state (results es)) /\
    lines vs = screen K diff Std cfg es ++
      [(Diag, summary (List.length (set_of any (results es))) (List.length (set_of dirty (results es))) (List.length (filter fixable (results es))) 0)].
Proof.
  intros K E opts diff api vs code H. inversion H as [| | | | |? F vs' ? H'| | |]; subst.
  destruct (generate_config _ _ _ _ _) as [cfg|e] eqn:G; [|inversion H'].
  change no_tally with (lint_state []) in H'. apply lint_sim in H'. destruct H' as (es & oa & R & Ef & _ & Un & -> & -> & L).
  cbn [app] in L. destruct (lint_state_spec (results es)) as (A & B & C & _). rewrite splash_summary, A, B, C in L.
  exists F, cfg, es. split; auto. split; auto. split; [cbn [effects flat_map app]; f_equal; exact Ef|]. split; auto.
Qed.

(** Files visited one after the other are shared by one process. *)
Lemma pooled_serial : forall Y autofix opts hook z ps l, visits Y autofix opts hook z ps l -> unanswered (concat (map snd l)) ->
  pooled Y autofix opts hook z ps (combine ps l) /\ all_results (combine ps l) = results (concat (map snd l)) /\
  (forall r e, In r (combine ps l) -> In e (events r) -> In e (concat (map snd l))).
Proof.
  intros Y autofix opts hook z ps l Vi Un. split; [|split].
  - exists [(ps, l)]. split; [|split; cbn [flat_map fst snd]; rewrite app_nil_r; apply Permutation_refl].
    constructor; [|constructor]. split; auto. cbn [snd]. clear - Un. induction l as [|v l IH]; [constructor|]. cbn [map concat] in Un.
    apply unanswered_app in Un. destruct Un as [A B]. constructor; [now apply unattended_iff|auto].
  - clear Un. induction Vi as [z|z p es ps l R _ IH]; [reflexivity|]. cbn [combine map concat snd]. rewrite results_app, <- IH. reflexivity.
  - intros [p v] e I J. apply in_combine_r in I. apply in_concat. exists (snd v). split; [|exact J]. now apply in_map.
Qed.

Lemma in_api_effects : forall G es, In (ELook G) es -> In (ELook G) (api_effects es).
Proof. intros G es I. apply filter_In. auto. Qed.

Lemma in_looks : forall G es, In G (looks es) <-> In (ELook G) es.
Proof.
  intros G es. unfold looks. rewrite in_flat_map. split.
  - intros (e & I & J). destruct e; try contradiction. destruct J as [<-|[]]. exact I.
  - intro I. exists (ELook G). simpl. auto.
Qed.

(** The results of the command are those of some pool; for the kinds of calls of fixit_paths. *)
Definition pooled_run (Y : system) (opts : option options) (m : bool) (z : session) (es : list ev) (ps : list path) (out : list report) : Prop :=
  pooled Y false opts m z ps out /\ results es = all_results out /\ (m = false -> forall mt w, ~ In (ECall mt w) es).

Lemma session_pooled : forall Y opts m z ps es, run (pbind (in_session Y ps false opts m z) (fun _ => Ret tt)) es (Returned tt) -> unanswered es ->
  exists out, pooled_run Y opts m z es ps out /\ forall r e, In r out -> In e (events r) -> In e es.
Proof.
  intros Y opts m z ps es H Un. apply run_pbind in H. destruct H as [[X _]|[(e & X & _)|(es1 & es2 & z' & -> & R1 & R2)]]; try discriminate. inversion R2; subst. rewrite app_nil_r in *.
  apply session_visits in R1. destruct R1 as (l & Vi & ->). destruct (pooled_serial _ _ _ _ _ _ _ Vi Un) as (A & B & C). exists (combine ps l).
  split; [|exact C]. split; auto. split; auto. intros -> mt w I. apply in_concat in I. destruct I as (es & I & J). apply in_map_iff in I. destruct I as ([z1 es1] & <- & I).
  cbn [snd] in J. clear - Vi I J. induction Vi as [z|z p es ps l R _ IH]; [contradiction|]. destruct I as [I|I]; auto. injection I as <- <-.
  eapply hushed_run; [exact R|apply hushed_file|exact J].
Qed.

Lemma jobs_run : forall Y d paths opts m z pool es, paths <> [] ->
  run (pool_paths Y d paths false opts m z pool) es (Returned tt) -> unanswered es ->
  exists F pl es', es = ELook F :: es' /\ make_plan (y_walk Y F) d true paths = Ok (Some pl) /\
    match pl with
    | Input p => run (fixit_stdin (tool_of (system_at Y z)) p false opts m) es' (Returned tt)
    | Serial ps => exists out, pooled_run Y opts m z es' ps out /\ forall r e, In r out -> In e (events r) -> In e es'
    | Parallel ps => results es' = pool ps /\ api_effects es' = [] /\ forall mt w, ~ In (ECall mt w) es'
    end.
Proof.
  intros Y d paths opts m z pool es Np R Un. unfold pool_paths in R. inversion R as [| | | |? F es' ? R'| | | |]; subst. apply run_lift in R'.
  destruct (make_plan (y_walk Y F) d true paths) as [pl|e] eqn:P; [|destruct R' as [_ [X|X]]; discriminate].
  assert (exists pl', pl = Some pl') as (pl' & ->).
  { unfold make_plan in P. destruct paths; [contradiction|]. apply bind_ok in P. destruct P as (s & _ & P). injection P as <-. eauto. }
  exists F, pl', es'. split; auto. split; auto. inversion Un as [|? ? _ Un']; subst. destruct pl' as [p|ps|ps]; auto; [now apply session_pooled|now apply deliver_run].
Qed.

Lemma serial_run : forall Y d paths opts m z es, paths <> [] ->
  run (whole_paths Y d paths false opts m z) es (Returned tt) -> unanswered es ->
  exists F pl es', es = ELook F :: es' /\ make_plan (y_walk Y F) d false paths = Ok (Some pl) /\
    match pl with
    | Input p => run (fixit_stdin (tool_of (system_at Y z)) p false opts m) es' (Returned tt)
    | Serial ps | Parallel ps => exists out, pooled_run Y opts m z es' ps out /\ forall r e, In r out -> In e (events r) -> In e es'
    end.
Proof.
  intros Y d paths opts m z es Np R Un. unfold whole_paths in R. inversion R as [| | | |? F es' ? R'| | | |]; subst. apply run_lift in R'.
  destruct (make_plan (y_walk Y F) d false paths) as [pl|e] eqn:P; [|destruct R' as [_ [X|X]]; discriminate].
  assert (exists pl', pl = Some pl') as (pl' & ->).
  { unfold make_plan in P. destruct paths; [contradiction|]. apply bind_ok in P. destruct P as (s & _ & P). injection P as <-. eauto. }
  exists F, pl', es'. split; auto. split; auto. inversion Un as [|? ? _ Un']; subst. destruct pl' as [p|ps|ps]; auto; now apply session_pooled.
Qed.

(** ** Results and exit status *)

Lemma pooled_part : forall Y opts hook z ps out, pooled Y false opts hook z ps out -> forall p zp es, In (p, (zp, es)) out ->
  In p ps /\ run (fixit_file (tool_of (system_at Y zp)) p false opts hook) es (Returned tt) /\ unanswered es.
Proof.
  intros Y opts hook z ps out (ws & Fw & Pp & Po) p zp es I. apply (Permutation_in _ (Permutation_sym Po)) in I. apply in_flat_map in I. destruct I as (w & Iw & I).
  rewrite Forall_forall in Fw. destruct (Fw w Iw) as [Vi Un]. split; [|split].
  - eapply Permutation_in; [exact Pp|]. apply in_flat_map. exists w. split; auto. now apply in_combine_l in I.
  - now destruct (visits_part _ _ _ _ _ _ _ Vi _ _ _ I).
  - apply unattended_iff. rewrite Forall_forall in Un. apply in_combine_r in I. exact (Un _ I).
Qed.

Lemma pooled_files : forall Y opts hook z ps out, pooled Y false opts hook z ps out -> Permutation (map of_file out) ps.
Proof.
  intros Y opts hook z ps out (ws & Fw & Pp & Po). rewrite <- Pp. apply Permutation_sym. rewrite <- (Permutation_map of_file Po). clear - Fw.
  induction Fw as [|w ws [Vi _] _ IH]; [constructor|]. cbn [flat_map]. rewrite map_app, IH. apply Permutation_app_tail.
  enough (E : map of_file (combine (fst w) (snd w)) = fst w) by exact (eq_ind _ (fun l => Permutation (fst w) l) (Permutation_refl _) _ (eq_sym E)).
  induction Vi as [z0|z0 p es qs l R _ IHv]; [reflexivity|]. cbn [combine map of_file fst]. now rewrite IHv.
Qed.

Lemma in_results : forall out x, In x (all_results out) <-> exists p zp es, In (p, (zp, es)) out /\ In x (results es).
Proof.
  intros out x. unfold all_results. rewrite in_flat_map. split.
  - intros ([p [zp es]] & I & J). exists p, zp, es. auto.
  - intros (p & zp & es & I & J). exists (p, (zp, es)). auto.
Qed.

Lemma exit_zero : forall xs, l_exit (lint_state xs) = 0%N <-> forall x, In x xs -> x_violation x = None /\ x_error x = None.
Proof.
  intro xs. destruct (lint_state_spec xs) as (_ & _ & _ & L & B0 & B1). set (code := l_exit (lint_state xs)) in *. clearbody code. split.
  - intros -> x I. split.
    + destruct (x_violation x) eqn:E; auto. enough (N.testbit 0 0 = true) by discriminate. apply B0. exists x. split; auto. congruence.
    + destruct (x_error x) eqn:E; auto. enough (N.testbit 0 1 = true) by discriminate. apply B1. exists x. split; auto. congruence.
  - intro Cl. assert (T0 : N.testbit code 0 = false).
    { apply not_true_is_false. intro T. apply B0 in T. destruct T as (x & I & X). now apply X, Cl. }
    assert (T1 : N.testbit code 1 = false).
    { apply not_true_is_false. intro T. apply B1 in T. destruct T as (x & I & X). now apply X, Cl. }
    assert (code = 0 \/ code = 1 \/ code = 2 \/ code = 3)%N as [->|[->|[->| ->]]] by lia; auto; discriminate.
Qed.

Lemma pooled_exit : forall Y opts m z ps out code, (forall F, fair_sets (y_world Y F)) -> pooled Y false opts m z ps out ->
  code = l_exit (lint_state (all_results out)) ->
  (code = 0%N <-> forall p zp es, In (p, (zp, es)) out -> fine (system_at Y zp) p opts es) /\
  (N.testbit code 0 = true -> exists p zp es, In (p, (zp, es)) out /\ complaint (system_at Y zp) p opts es) /\
  (forall p zp es, In (p, (zp, es)) out -> no_errors es -> complaint (system_at Y zp) p opts es -> N.testbit code 0 = true).
Proof.
  intros Y opts m z ps out code Fa Po ->. destruct (lint_state_spec (all_results out)) as (_ & _ & _ & _ & B0 & _). split; [|split].
  - rewrite exit_zero. split.
    + intros Cl p zp es I. destruct (pooled_part _ _ _ _ _ _ Po _ _ _ I) as (_ & R & U). apply (fine_iff _ p opts m es (fair_at Y Fa zp) R U).
      intros x J. apply Cl, in_results. eauto 6.
    + intros Fi x J. apply in_results in J. destruct J as (p & zp & es & I & J). destruct (pooled_part _ _ _ _ _ _ Po _ _ _ I) as (_ & R & U).
      apply (fine_iff _ p opts m es (fair_at Y Fa zp) R U); eauto.
  - intro T. apply B0 in T. destruct T as (x & J & X). apply in_results in J. destruct J as (p & zp & es & I & J).
    destruct (pooled_part _ _ _ _ _ _ Po _ _ _ I) as (_ & R & U). exists p, zp, es. split; auto. destruct (x_violation x) as [v|] eqn:Ev; [|congruence].
    destruct (C78_sound _ p false opts m es _ v (fair_at Y Fa zp) R) as (F' & c' & F1' & cfg' & F2' & ep' & md' & M' & k & sy & -> & Ef' & Eg' & S & Ep' & Ew' & Lo & _).
    { apply in_violations. eauto. }
    exists F', F1', F2', (looks ep'), c', cfg', md', M', k, sy. repeat split; auto; apply Lo.
  - intros p zp es I Ne Co. destruct (N.testbit (l_exit (lint_state (all_results out))) 0) eqn:T; auto. exfalso.
    destruct (pooled_part _ _ _ _ _ _ Po _ _ _ I) as (_ & R & U).
    apply (fine_not_complaint _ _ _ _) with (2 := Co). apply (proj2 (fine_iff _ p opts m es (fair_at Y Fa zp) R U)).
    intros x J. split; [|now apply Ne]. destruct (x_violation x) eqn:Ev; auto. enough (false = true) by discriminate. apply B0. exists x.
    split; [apply in_results; eauto 6|congruence].
Qed.

Lemma or_cwd_some : forall K paths, or_cwd K paths <> [].
Proof. intros K [|a l]; discriminate. Qed.

(** ** C84 *)

(** The exit status and the output of [fixit lint], whether with a pool of processes or without. What the pool hands on are the results of
    files shared by processes in some way. The command ends with 0 iff there is nothing to complain about in any of the files. *)
Theorem C84_exit : forall K Y d opts m diff paths z pool vs code,
  (forall F, fair_sets (y_world Y F)) ->
  let args := match paths with [] => [PathArg (k_cwd K)] | _ => paths end in
  (forall F ps, make_plan (y_walk Y F) d true args = Ok (Some (Parallel ps)) ->
     exists out, pooled Y false (Some opts) m z ps out /\ pool ps = all_results out) ->
  crun (lint_jobs K Y d opts m diff paths z pool) vs (Returned code) ->
  exists F0 F cfg pl, In (ELook F0) (effects vs) /\ In (ELook F) (effects vs) /\
    generate_config (y_env Y) F0 (k_cwd K) None (Some opts) = Ok cfg /\
    make_plan (y_walk Y F) d true args = Ok (Some pl) /\
    match pl with
    | Input p => exists es, run (fixit_stdin (tool_of (system_at Y z)) p false (Some opts) m) es (Returned tt)
    | Serial ps | Parallel ps =>
        exists out, pooled Y false (Some opts) m z ps out /\
          (code = 0%N <-> forall p zp es, In (p, (zp, es)) out -> fine (system_at Y zp) p (Some opts) es) /\
          (N.testbit code 0 = true -> exists p zp es, In (p, (zp, es)) out /\ complaint (system_at Y zp) p (Some opts) es) /\
          (forall p zp es, In (p, (zp, es)) out -> no_errors es -> complaint (system_at Y zp) p (Some opts) es -> N.testbit code 0 = true) /\
          (m = false -> exists visited dirty_, distinct_paths any (all_results out) visited /\ distinct_paths dirty (all_results out) dirty_ /\
             lines vs = flat_map (item K diff Std cfg) (all_results out) ++
               [(Diag, summary (List.length visited) (List.length dirty_) (List.length (filter fixable (all_results out))) 0)])
    end.
Proof.
  intros K Y d opts m diff paths z pool vs code Fa args Dl H. change args with (or_cwd K paths) in *. apply lint_run in H.
  destruct H as (F0 & cfg & es & G & R & Ef & Un & Ec & Li).
  destruct (jobs_run _ _ _ _ _ _ _ _ (or_cwd_some K paths) R Un) as (F & pl & es' & -> & P & X).
  exists F0, F, cfg, pl. rewrite Ef. split; [simpl; auto|]. split; [simpl; auto|]. split; [exact G|]. split; [exact P|].
  change (results (ELook F :: es')) with (results es') in *. change (screen K diff Std cfg (ELook F :: es')) with (screen K diff Std cfg es') in Li.
  assert (Z : forall ps out, pooled Y false (Some opts) m z ps out -> results es' = all_results out -> (m = false -> forall mt w, ~ In (ECall mt w) es') ->
    (code = 0%N <-> forall p zp es, In (p, (zp, es)) out -> fine (system_at Y zp) p (Some opts) es) /\
    (N.testbit code 0 = true -> exists p zp es, In (p, (zp, es)) out /\ complaint (system_at Y zp) p (Some opts) es) /\
    (forall p zp es, In (p, (zp, es)) out -> no_errors es -> complaint (system_at Y zp) p (Some opts) es -> N.testbit code 0 = true) /\
    (m = false -> exists visited dirty_, distinct_paths any (all_results out) visited /\ distinct_paths dirty (all_results out) dirty_ /\
       lines vs = flat_map (item K diff Std cfg) (all_results out) ++
         [(Diag, summary (List.length visited) (List.length dirty_) (List.length (filter fixable (all_results out))) 0)])).
  { intros ps out Po E Hu. rewrite E in *. destruct (pooled_exit _ _ _ _ _ _ _ Fa Po Ec) as (A & B & C). split; auto. split; auto. split; auto.
    intro M. exists (set_of any (all_results out)), (set_of dirty (all_results out)). split; [apply set_of_distinct|]. split; [apply set_of_distinct|].
    rewrite Li, screen_hushed, E; auto. }
  destruct pl as [p|ps|ps]; [eauto| |].
  - destruct X as (out & (Po & E & Hu) & _). exists out. split; auto. apply (Z ps); auto.
  - destruct X as (E & _ & Hu). destruct (Dl F ps P) as (out & Po & D). exists out. split; auto. apply (Z ps); auto. congruence.
Qed.

(** Neither the processes nor the command write files or ask anything. *)
Theorem C84_readonly : forall K Y d opts m diff paths z pool vs o ps out,
  crun (lint_jobs K Y d opts m diff paths z pool) vs o -> pooled Y false (Some opts) m z ps out ->
  saved vs = [] /\ asked vs = [] /\ forall r, In r out -> written (events r) = [].
Proof.
  intros K Y d opts m diff paths z pool vs o ps out H Po.
  split; [|split]; [| |intros [p [zp es]] I; destruct (pooled_part _ _ _ _ _ _ Po _ _ _ I) as (_ & R & U); eapply C31_lint_only; [exact R|];
    intros x J; enough (Some true = None) by discriminate; eapply unanswered_given; eauto].
  all: unfold lint_jobs, Cli.lint_with in H; inversion H as [| | | | |? F0 vs' ? H'| | |]; subst; [auto|].
  all: destruct (generate_config _ _ _ _ _) as [cfg|e] eqn:G; [|inversion H'; auto].
  all: change no_tally with (lint_state []) in H'; apply (lint_sim K diff cfg (pool_paths Y d (or_cwd K paths) false (Some opts) m z pool)) in H'.
  all: destruct H' as (es & oa & R & Ef & A & Un & _).
  2: exact A.
  cbn [saved flat_map app]. fold (saved vs'). rewrite (effects_saved _ _ Ef).
  pose proof (unanswered_given _ Un) as Gi. clear - R Gi. unfold pool_paths in R.
  inversion R as [| | | |? F es' ? R'| | | |]; subst; [reflexivity|]. cbn [written given] in *. apply run_lift in R'.
  destruct (make_plan (y_walk Y F) d true (or_cwd K paths)) as [pl|e]; [|destruct R' as [-> _]; reflexivity].
  destruct pl as [[p|ps|ps]|].
  - apply C32_stdin in R'. tauto.
  - assert (S' : exists o1, run (in_session Y ps false (Some opts) m z) es' o1).
    { apply run_pbind in R'. destruct R' as [[_ S]|[(e & _ & S)|(es1 & es2 & z' & -> & S & S2)]]; eauto.
      exists (Returned z'). inversion S2; subst; now rewrite app_nil_r. }
    destruct S' as (o1 & S'). apply session_parts in S'. destruct S' as (l & -> & Fo). clear - Fo Gi.
    induction Fo as [|[[p zp] ep] l (_ & o' & Rp) _ IH]; [reflexivity|]. cbn [map concat snd fst] in *. rewrite written_app, given_app in *.
    rewrite IH by (intros x a I; apply (Gi x); apply in_or_app; auto). rewrite app_nil_r. eapply C31_lint_only; [exact Rp|].
    intros x I. enough (Some true = None) by discriminate. apply (Gi x). apply in_or_app. auto.
  - clear Gi R. revert es' oa R'. generalize (pool ps). intro xs. induction xs as [|x xs IH]; intros es o H; cbn [deliver] in H; inversion H; subst; auto; cbn [written]; eauto.
  - inversion R'; subst; reflexivity.
Qed.

(** Within a project it does not matter how files are shared among processes, in which order each process takes them, and which are done
    first: for each file the results are the same, in some order, unless there is an error. (Errors with root imports leave sys.path
    changed, see C19 and C79_leak_refuted.) *)
Theorem C84_file : forall Y W z F opts hook ps out out',
  (forall G, y_world Y G = W) -> fair_sets W -> (forall G id g, y_code Y G (id, g) = y_code Y G (id, None)) ->
  one_project Y F opts ps ->
  pooled Y false opts hook z ps out -> steady F out -> pooled Y false opts hook z ps out' -> steady F out' ->
  no_root_imports Y F opts ps \/ (forall r, In r out -> no_errors (events r)) ->
  forall p z1 es1 z2 es2, In (p, (z1, es1)) out -> In (p, (z2, es2)) out' ->
    (no_errors es1 <-> no_errors es2) /\ (no_errors es1 -> Permutation (results es1) (results es2)).
Proof.
  intros Y W z F opts hook ps out out' Wf Fa Ng Pr Po St Po' St' Ok_ p z1 es1 z2 es2 I1 I2.
  assert (A1 := pooled_alone Y W z F opts hook ps Wf Fa Ng Pr out Po St).
  assert (Ok1 : no_root_imports Y F opts ps \/ (forall r, In r out -> no_errors (events r)) \/ (forall p es, In p ps -> alone Y z F opts hook p es -> no_errors es)) by tauto.
  specialize (A1 Ok1).
  assert (Ok2 : no_root_imports Y F opts ps \/ (forall r, In r out' -> no_errors (events r)) \/ (forall p es, In p ps -> alone Y z F opts hook p es -> no_errors es)).
  { destruct Ok_ as [X|X]; auto. right. right. intros q es0 Iq Al. apply (Permutation_in _ (Permutation_sym (pooled_files _ _ _ _ _ _ Po))) in Iq.
    apply in_map_iff in Iq. destruct Iq as ([q' [zq eq_]] & <- & Iq). destruct (A1 _ _ _ Iq) as (_ & As & _). apply (As _ Al). exact (X _ Iq). }
  destruct (A1 _ _ _ I1) as (_ & As1 & U1 & R1).
  destruct (pooled_alone Y W z F opts hook ps Wf Fa Ng Pr out' Po' St' Ok2 _ _ _ I2) as (_ & As2 & U2 & R2).
  destruct (can_alone Y z F opts hook p) as (es0 & Al). destruct (As1 _ Al) as [B1 C1]. destruct (As2 _ Al) as [B2 C2].
  split; [tauto|]. intro N1. assert (N2 : no_errors es2) by tauto.
  rewrite (clean_results _ _ _ _ _ R1 N1), (clean_results _ _ _ _ _ R2 N2).
  assert (Pm : Permutation (violations (results es1)) (violations (results es2))) by (rewrite (C1 N1), (C2 N2); apply Permutation_refl).
  unfold report_of. apply Permutation_app; [now apply Permutation_map|].
  destruct (violations (results es1)) as [|v vs]; [apply Permutation_nil in Pm; rewrite Pm; auto|].
  destruct (violations (results es2)) as [|v' vs']; [apply Permutation_sym, Permutation_nil in Pm; discriminate|auto].
Qed.

(** All results. *)
Theorem C84_all : forall Y W z F opts hook ps out out',
  (forall G, y_world Y G = W) -> fair_sets W -> (forall G id g, y_code Y G (id, g) = y_code Y G (id, None)) ->
  one_project Y F opts ps ->
  pooled Y false opts hook z ps out -> steady F out -> pooled Y false opts hook z ps out' -> steady F out' ->
  (forall x, In x (all_results out) -> x_error x = None) ->
  Permutation (all_results out) (all_results out').
Proof.
  intros Y W z F opts hook ps out out' Wf Fa Ng Pr Po St Po' St' Ne.
  assert (Ne' : forall r, In r out -> no_errors (events r)). { intros [p [zp es]] I x J. apply Ne, in_results. eauto 6. }
  pose proof (C84_file Y W z F opts hook ps out out' Wf Fa Ng Pr Po St Po' St' (or_intror Ne')) as Fi.
  assert (Pm : Permutation (map of_file out) (map of_file out')) by (rewrite (pooled_files _ _ _ _ _ _ Po), (pooled_files _ _ _ _ _ _ Po'); apply Permutation_refl).
  apply Permutation_map_inv in Pm. destruct Pm as (out2 & E & P2). transitivity (all_results out2); [|apply Permutation_flat_map, Permutation_sym, P2].
  assert (Fi2 : forall p z1 es1 z2 es2, In (p, (z1, es1)) out -> In (p, (z2, es2)) out2 -> Permutation (results es1) (results es2)).
  { intros p z1 es1 z2 es2 I1 I2. apply (Fi p z1 es1 z2 es2); auto; [|exact (Ne' _ I1)]. eapply Permutation_in; [apply Permutation_sym; exact P2|exact I2]. }
  clear - E Fi2. revert out2 E Fi2. induction out as [|[p [z1 es1]] out IH]; intros [|[p2 [z2 es2]] out2] E Fi2; try discriminate; [constructor|].
  cbn [map of_file fst] in E. injection E as <- E. cbn [all_results flat_map]. apply Permutation_app.
  - apply (Fi2 p z1 es1 z2 es2); simpl; auto.
  - apply IH; auto. intros q z3 es3 z4 es4 I3 I4. apply (Fi2 q z3 es3 z4 es4); simpl; auto.
Qed.

Lemma exit_permuted : forall xs ys, Permutation xs ys -> l_exit (lint_state xs) = l_exit (lint_state ys).
Proof.
  intros xs ys P. destruct (lint_state_spec xs) as (_ & _ & _ & L & B0 & B1). destruct (lint_state_spec ys) as (_ & _ & _ & L' & B0' & B1').
  set (c := l_exit (lint_state xs)) in *. set (c' := l_exit (lint_state ys)) in *. clearbody c c'.
  assert (Ex : forall (Q : result -> Prop), (exists x, In x xs /\ Q x) <-> (exists x, In x ys /\ Q x)).
  { intro Q. split; intros (x & I & H); exists x; split; auto; eapply Permutation_in; [exact P| |apply Permutation_sym; exact P|]; exact I. }
  assert (E0 : N.testbit c 0 = N.testbit c' 0). { apply eq_true_iff_eq. rewrite B0, B0'. apply Ex. }
  assert (E1 : N.testbit c 1 = N.testbit c' 1). { apply eq_true_iff_eq. rewrite B1, B1'. apply Ex. }
  assert (c = 0 \/ c = 1 \/ c = 2 \/ c = 3)%N as [->|[->|[->| ->]]] by lia;
  assert (c' = 0 \/ c' = 1 \/ c' = 2 \/ c' = 3)%N as [->|[->|[->| ->]]] by lia; auto; discriminate.
Qed.

Lemma set_of_permuted : forall f xs ys, Permutation xs ys -> List.length (set_of f xs) = List.length (set_of f ys).
Proof.
  intros f xs ys P. apply Permutation_length. destruct (set_of_distinct f xs) as [N1 I1]. destruct (set_of_distinct f ys) as [N2 I2].
  apply NoDup_Permutation; auto. intro p. rewrite I1, I2. split; intros (x & I & H); exists x; split; auto; eapply Permutation_in; [exact P| |apply Permutation_sym; exact P|]; exact I.
Qed.

Lemma filter_permuted : forall A (f : A -> bool) xs ys, Permutation xs ys -> List.length (filter f xs) = List.length (filter f ys).
Proof. intros A f xs ys P. induction P; cbn [filter]; repeat (match goal with |- context [if ?b then _ else _] => destruct b end); simpl; congruence. Qed.

Lemma item_permuted : forall K diff out cfg xs ys, Permutation xs ys -> Permutation (flat_map (item K diff out cfg) xs) (flat_map (item K diff out cfg) ys).
Proof. intros. now apply Permutation_flat_map. Qed.

(** Two executions of the command, by whatever call of fixit_paths. *)
Lemma same_command : forall K Y W E opts diff m z F ps api api' vs code vs' code',
  (forall G, y_world Y G = W) -> fair_sets W -> (forall G id g, y_code Y G (id, g) = y_code Y G (id, None)) ->
  one_project Y F (Some opts) ps ->
  (forall es, run api es (Returned tt) -> unanswered es -> (forall G, In G (looks es) -> G = F) ->
     delivered Y (Some opts) m z F ps (results es) /\ (m = false -> forall mt w, ~ In (ECall mt w) es)) ->
  (forall es, run api' es (Returned tt) -> unanswered es -> (forall G, In G (looks es) -> G = F) ->
     delivered Y (Some opts) m z F ps (results es) /\ (m = false -> forall mt w, ~ In (ECall mt w) es)) ->
  crun (Cli.lint_with K E opts diff api) vs (Returned code) -> (forall G, In (ELook G) (effects vs) -> G = F) ->
  crun (Cli.lint_with K E opts diff api') vs' (Returned code') -> (forall G, In (ELook G) (effects vs') -> G = F) ->
  N.testbit code 1 = N.testbit code' 1 /\
  (N.testbit code 1 = false -> code = code' /\
     (m = false -> exists a b s, lines vs = a ++ [s] /\ lines vs' = b ++ [s] /\ Permutation a b)).
Proof.
  intros K Y W E opts diff m z F ps api api' vs code vs' code' Wf Fa Ng Pr D D' H L H' L'.
  apply lint_run in H. destruct H as (F0 & cfg & es & G & R & Ef & Un & Ec & Li).
  apply lint_run in H'. destruct H' as (F0' & cfg' & es' & G' & R' & Ef' & Un' & Ec' & Li').
  assert (F0 = F) as -> by (apply L; rewrite Ef; simpl; auto). assert (F0' = F) as -> by (apply L'; rewrite Ef'; simpl; auto).
  assert (cfg' = cfg) as -> by congruence.
  destruct (D es R Un) as ((out & Po & St & E1) & Hu). { intros X I. apply L. rewrite Ef. right. now apply in_api_effects, in_looks. }
  destruct (D' es' R' Un') as ((out' & Po' & St' & E1') & Hu'). { intros X I. apply L'. rewrite Ef'. right. now apply in_api_effects, in_looks. }
  destruct (lint_state_spec (results es)) as (_ & _ & _ & _ & _ & B1). destruct (lint_state_spec (results es')) as (_ & _ & _ & _ & _ & B1').
  rewrite <- Ec in B1. rewrite <- Ec' in B1'.
  assert (Cl : N.testbit code 1 = false -> forall x, In x (all_results out) -> x_error x = None).
  { intros T x I. destruct (x_error x) eqn:X; auto. enough (N.testbit code 1 = true) by congruence. apply B1. exists x. rewrite E1. split; auto. congruence. }
  assert (Cl' : N.testbit code' 1 = false -> forall x, In x (all_results out') -> x_error x = None).
  { intros T x I. destruct (x_error x) eqn:X; auto. enough (N.testbit code' 1 = true) by congruence. apply B1'. exists x. rewrite E1'. split; auto. congruence. }
  assert (Pm : N.testbit code 1 = false -> Permutation (results es) (results es')).
  { intro T. rewrite E1, E1'. eapply (C84_all Y W z F (Some opts) m ps); eauto. }
  assert (Pm' : N.testbit code' 1 = false -> Permutation (results es') (results es)).
  { intro T. rewrite E1, E1'. eapply (C84_all Y W z F (Some opts) m ps); eauto. }
  split.
  - destruct (N.testbit code 1) eqn:T.
    + destruct (N.testbit code' 1) eqn:T'; auto. specialize (Pm' eq_refl). rewrite <- (exit_permuted _ _ Pm') in Ec. congruence.
    + specialize (Pm eq_refl). rewrite (exit_permuted _ _ Pm) in Ec. congruence.
  - intro T. specialize (Pm T). split; [now rewrite Ec, Ec', (exit_permuted _ _ Pm)|]. intro M.
    rewrite screen_hushed in Li by auto. rewrite screen_hushed in Li' by auto.
    rewrite <- (set_of_permuted any _ _ Pm), <- (set_of_permuted dirty _ _ Pm), <- (filter_permuted _ fixable _ _ Pm) in Li'.
    eexists _, _, _. split; [exact Li|]. split; [exact Li'|]. now apply item_permuted.
Qed.

Lemma plan_serial : forall walk d args pl ps, make_plan walk d true args = Ok (Some pl) -> pl = Serial ps \/ pl = Parallel ps ->
  make_plan walk d false args = Ok (Some (Serial ps)).
Proof.
  intros walk d args pl ps P X. unfold make_plan in *. destruct args; [discriminate|]. apply bind_ok in P. destruct P as (s & Es & P). rewrite Es. cbn [bind].
  injection P as P. rewrite orb_true_r. destruct (a_stdin s); [destruct X as [->| ->]; discriminate|].
  destruct (_ || _); destruct X as [->| ->]; congruence.
Qed.

Lemma jobs_delivered : forall Y d args opts m z pool F pl ps, args <> [] ->
  make_plan (y_walk Y F) d true args = Ok (Some pl) -> pl = Serial ps \/ pl = Parallel ps ->
  (pl = Parallel ps -> delivered Y opts m z F ps (pool ps)) ->
  forall es, run (pool_paths Y d args false opts m z pool) es (Returned tt) -> unanswered es -> (forall G, In G (looks es) -> G = F) ->
    delivered Y opts m z F ps (results es) /\ (m = false -> forall mt w, ~ In (ECall mt w) es).
Proof.
  intros Y d args opts m z pool F pl ps Na P X Dl es R Un L.
  destruct (jobs_run _ _ _ _ _ _ _ _ Na R Un) as (F' & pl' & es' & -> & P' & C). assert (F' = F) as -> by (apply L; simpl; auto).
  assert (pl' = pl) as -> by congruence. change (results (ELook F :: es')) with (results es').
  assert (Nc : (m = false -> forall mt w, ~ In (ECall mt w) es') -> m = false -> forall mt w, ~ In (ECall mt w) (ELook F :: es')).
  { intros A M mt w [I|I]; [discriminate|now apply A in I]. }
  destruct X as [->| ->].
  - destruct C as (out & (Po & E & Hu) & Inc). split; auto. exists out. split; auto. split; auto. intros r G I J. apply L. right. fold (looks es').
    apply in_looks. apply in_looks in J. eauto.
  - destruct C as (E & _ & Hu). split; auto. rewrite E. now apply Dl.
Qed.

Lemma serial_delivered : forall Y d args opts m z F ps, args <> [] ->
  make_plan (y_walk Y F) d false args = Ok (Some (Serial ps)) ->
  forall es, run (whole_paths Y d args false opts m z) es (Returned tt) -> unanswered es -> (forall G, In G (looks es) -> G = F) ->
    delivered Y opts m z F ps (results es) /\ (m = false -> forall mt w, ~ In (ECall mt w) es).
Proof.
  intros Y d args opts m z F ps Na P es R Un L.
  destruct (serial_run _ _ _ _ _ _ _ Na R Un) as (F' & pl' & es' & -> & P' & C). assert (F' = F) as -> by (apply L; simpl; auto).
  assert (pl' = Serial ps) as -> by congruence. change (results (ELook F :: es')) with (results es').
  destruct C as (out & (Po & E & Hu) & Inc). split; [|intros M mt w [I|I]; [discriminate|now apply (Hu M) in I]].
  exists out. split; auto. split; auto. intros r G I J. apply L. right. fold (looks es'). apply in_looks. apply in_looks in J. eauto.
Qed.

(** [fixit lint] twice, with the same files: whatever the processes do, both fail with an error or none does; if none does, both end with the
    same exit status, and print the same lines, but for their order. *)
Theorem C84_code : forall K Y W d opts m diff paths z pool pool' F pl ps vs code vs' code',
  (forall G, y_world Y G = W) -> fair_sets W -> (forall G id g, y_code Y G (id, g) = y_code Y G (id, None)) ->
  make_plan (y_walk Y F) d true (match paths with [] => [PathArg (k_cwd K)] | _ => paths end) = Ok (Some pl) -> pl = Serial ps \/ pl = Parallel ps ->
  one_project Y F (Some opts) ps ->
  (pl = Parallel ps -> delivered Y (Some opts) m z F ps (pool ps)) -> (pl = Parallel ps -> delivered Y (Some opts) m z F ps (pool' ps)) ->
  crun (lint_jobs K Y d opts m diff paths z pool) vs (Returned code) -> (forall G, In (ELook G) (effects vs) -> G = F) ->
  crun (lint_jobs K Y d opts m diff paths z pool') vs' (Returned code') -> (forall G, In (ELook G) (effects vs') -> G = F) ->
  N.testbit code 1 = N.testbit code' 1 /\
  (N.testbit code 1 = false -> code = code' /\
     (m = false -> exists a b s, lines vs = a ++ [s] /\ lines vs' = b ++ [s] /\ Permutation a b)).
Proof.
  intros K Y W d opts m diff paths z pool pool' F pl ps vs code vs' code' Wf Fa Ng P X Pr D D' H L H' L'.
  change (match paths with [] => [PathArg (k_cwd K)] | _ => paths end) with (or_cwd K paths) in P.
  eapply (same_command K Y W (y_env Y) opts diff m z F ps); [exact Wf|exact Fa|exact Ng|exact Pr| | |exact H|exact L|exact H'|exact L'].
  - eapply jobs_delivered; eauto. apply or_cwd_some.
  - eapply jobs_delivered; eauto. apply or_cwd_some.
Qed.

(** Neither does it matter if there is a pool at all: linting the files in one process, one after the other, gives the same. *)
Theorem C84_serial : forall K Y W d opts m diff paths z pool F pl ps vs code vs' code',
  (forall G, y_world Y G = W) -> fair_sets W -> (forall G id g, y_code Y G (id, g) = y_code Y G (id, None)) ->
  make_plan (y_walk Y F) d true (match paths with [] => [PathArg (k_cwd K)] | _ => paths end) = Ok (Some pl) -> pl = Serial ps \/ pl = Parallel ps ->
  one_project Y F (Some opts) ps ->
  (pl = Parallel ps -> delivered Y (Some opts) m z F ps (pool ps)) ->
  crun (lint_jobs K Y d opts m diff paths z pool) vs (Returned code) -> (forall G, In (ELook G) (effects vs) -> G = F) ->
  crun (whole_lint K Y d opts m diff paths z) vs' (Returned code') -> (forall G, In (ELook G) (effects vs') -> G = F) ->
  N.testbit code 1 = N.testbit code' 1 /\
  (N.testbit code 1 = false -> code = code' /\
     (m = false -> exists a b s, lines vs = a ++ [s] /\ lines vs' = b ++ [s] /\ Permutation a b)).
Proof.
  intros K Y W d opts m diff paths z pool F pl ps vs code vs' code' Wf Fa Ng P X Pr D H L H' L'.
  change (match paths with [] => [PathArg (k_cwd K)] | _ => paths end) with (or_cwd K paths) in P.
  eapply (same_command K Y W (y_env Y) opts diff m z F ps); [exact Wf|exact Fa|exact Ng|exact Pr| | |exact H|exact L|exact H'|exact L'].
  - eapply jobs_delivered; eauto. apply or_cwd_some.
  - apply serial_delivered; [apply or_cwd_some|]. eapply plan_serial; eauto.
Qed.

(** ** Concrete cases *)

Definition z_py : path := [u "a"; u "y.py"].
Definition job (a b : str) (z : session) (l : list input) (p : path) : list ev :=
  fst (play (fixit_file (tool_of (system_at (system2 a b) z)) p false (Some ex_opts) false) l).

(** Two files of a project, linted by one process, or by two where the second is done first. *)
Definition together : list report :=
  [(x_py, (session0, job (u "rules") (u "rules") session0 (looking3 1) x_py)); (z_py, (session_a, job (u "rules") (u "rules") session_a (looking3 1) z_py))].
Definition apart : list report :=
  [(z_py, (session0, job (u "rules") (u "rules") session0 (looking3 1) z_py)); (x_py, (session0, job (u "rules") (u "rules") session0 (looking3 1) x_py))].
Definition jobs (out : list report) : cmd N :=
  lint_jobs ex_cli (system2 (u "rules") (u "rules")) [u "d"; u "stdin"] ex_opts false false [PathArg x_py; PathArg z_py] session0 (fun _ => all_results out).

Ltac attended := apply unattended_iff; unfold unanswered; vm_compute; repeat constructor.

Example C84_example :
  let Y := system2 (u "rules") (u "rules") in
  pooled Y false (Some ex_opts) false session0 [x_py; z_py] together /\ pooled Y false (Some ex_opts) false session0 [x_py; z_py] apart /\
  steady fs3 together /\ steady fs3 apart /\
  one_project Y fs3 (Some ex_opts) [x_py; z_py] /\
  make_plan (y_walk Y fs3) [u "d"; u "stdin"] true [PathArg x_py; PathArg z_py] = Ok (Some (Parallel [x_py; z_py])) /\
  let (vs1, o1) := perform (jobs together) fs3 [] [] false in
  let (vs2, o2) := perform (jobs apart) fs3 [] [] false in
  o1 = Returned 1%N /\ o2 = Returned 1%N /\ List.length (lines vs1) = 3 /\ lines vs1 <> lines vs2 /\
  List.length (all_results together) = 2.
Proof.
  intro Y. split; [|split; [|split; [|split; [|split; [|split]]]]].
  - exists [([x_py; z_py], map snd together)]. split; [|split; apply Permutation_refl]. constructor; [|constructor]. split.
    + cbn [fst snd map together]. constructor; [apply play_run with (l := looking3 1); vm_compute; reflexivity|].
      replace (after_file Y x_py (Some ex_opts) _ session0) with session_a by (vm_compute; reflexivity).
      constructor; [apply play_run with (l := looking3 1); vm_compute; reflexivity|constructor].
    + repeat constructor; attended.
  - exists [([x_py], map snd (skipn 1 apart)); ([z_py], map snd (firstn 1 apart))]. split; [|split; [apply Permutation_refl|apply perm_swap]].
    constructor; [|constructor; [|constructor]]; (split; [|repeat constructor; attended]); cbn [fst snd map apart skipn firstn];
      (constructor; [apply play_run with (l := looking3 1); vm_compute; reflexivity|constructor]).
  - assert (L : map (fun r => looks (events r)) together = [[fs3; fs3; fs3]; [fs3; fs3; fs3]]) by (vm_compute; reflexivity).
    intros r G I J. apply (in_map (fun r => looks (events r))) in I. rewrite L in I. simpl in I. destruct I as [I|[I|[]]]; rewrite <- I in J; simpl in J; intuition congruence.
  - assert (L : map (fun r => looks (events r)) apart = [[fs3; fs3; fs3]; [fs3; fs3; fs3]]) by (vm_compute; reflexivity).
    intros r G I J. apply (in_map (fun r => looks (events r))) in I. rewrite L in I. simpl in I. destruct I as [I|[I|[]]]; rewrite <- I in J; simpl in J; intuition congruence.
  - intros p q cfg cfg' [<-|[<-|[]]] [<-|[<-|[]]] E E'; vm_compute in E, E'; injection E as <-; injection E' as <-; cbn; auto.
  - vm_compute; reflexivity.
  - vm_compute. repeat split; auto. discriminate.
Qed.

(** With two projects it does matter: rules are imported once per process. *)
Theorem C84_projects_refuted : exists Y W z F opts ps out out',
  (forall G, y_world Y G = W) /\ fair_sets W /\ (forall G id g, y_code Y G (id, g) = y_code Y G (id, None)) /\
  pooled Y false opts false z ps out /\ steady F out /\ pooled Y false opts false z ps out' /\ steady F out' /\
  (forall x, In x (all_results out) -> x_error x = None) /\
  ~ Permutation (all_results out) (all_results out').
Proof.
  exists (system2 (u "rules") (u "rules")), world2, session0, fs2, (Some ex_opts), [x_py; y_py_],
    [(x_py, (session0, job (u "rules") (u "rules") session0 (looking 1) x_py)); (y_py_, (session_a, job (u "rules") (u "rules") session_a (looking 1) y_py_))],
    [(x_py, (session0, job (u "rules") (u "rules") session0 (looking 1) x_py)); (y_py_, (session0, job (u "rules") (u "rules") session0 (looking 2) y_py_))].
  set (out := [(x_py, _); (y_py_, (session_a, _))]). set (out' := [(x_py, _); (y_py_, (session0, _))]).
  destruct (system2_fair (u "rules") (u "rules")) as (A & B & C). split; [exact A|]. split; [exact B|]. split; [exact C|].
  split; [|split; [|split; [|split; [|split]]]].
  - exists [([x_py; y_py_], map snd out)]. split; [|split; apply Permutation_refl]. constructor; [|constructor]. split.
    + cbn [fst snd map out]. constructor; [apply play_run with (l := looking 1); vm_compute; reflexivity|].
      replace (after_file (system2 (u "rules") (u "rules")) x_py (Some ex_opts) _ session0) with session_a by (vm_compute; reflexivity).
      constructor; [apply play_run with (l := looking 1); vm_compute; reflexivity|constructor].
    + repeat constructor; attended.
  - assert (L : map (fun r => looks (events r)) out = [[fs2; fs2; fs2]; [fs2; fs2; fs2]]) by (vm_compute; reflexivity).
    intros r G I J. apply (in_map (fun r => looks (events r))) in I. rewrite L in I. simpl in I. destruct I as [I|[I|[]]]; rewrite <- I in J; simpl in J; intuition congruence.
  - exists [([x_py], map snd (firstn 1 out')); ([y_py_], map snd (skipn 1 out'))]. split; [|split; apply Permutation_refl].
    constructor; [|constructor; [|constructor]]; (split; [|repeat constructor; attended]); cbn [fst snd map out' skipn firstn];
      (constructor; [|constructor]); [apply play_run with (l := looking 1); vm_compute; reflexivity|apply play_run with (l := looking 2); vm_compute; reflexivity].
  - assert (L : map (fun r => looks (events r)) out' = [[fs2; fs2; fs2]; [fs2; fs2; fs2]]) by (vm_compute; reflexivity).
    intros r G I J. apply (in_map (fun r => looks (events r))) in I. rewrite L in I. simpl in I. destruct I as [I|[I|[]]]; rewrite <- I in J; simpl in J; intuition congruence.
  - assert (L : map x_error (all_results out) = [None; None]) by (vm_compute; reflexivity).
    intros x I. apply (in_map x_error) in I. rewrite L in I. simpl in I. intuition congruence.
  - intro P. apply Permutation_length in P. vm_compute in P. discriminate.
Qed.
