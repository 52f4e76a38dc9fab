(** * C35, C36, C47, C49-C51: the commands *)
From Coq Require Import String List NArith ZArith Bool Arith Lia.
From Verif Require Import Base PyStr Ftypes Paths Config Suppress Cst Engine EngineProps Api ApiSpec ApiFacts ApiProps Cli CliSpec CliFacts.
Import ListNotations.

(** ** The lint command *)

Definition lint_state (xs : list result) : tally := fold_left (fun t x => lint_tally t x (dirty x)) xs no_tally.

Lemma lint_state_spec : forall xs,
  l_visited (lint_state xs) = set_of any xs /\ l_dirty (lint_state xs) = set_of dirty xs /\
  l_autofixes (lint_state xs) = number fixable xs /\
  (l_exit (lint_state xs) < 4)%N /\
  (N.testbit (l_exit (lint_state xs)) 0 = true <-> exists x, In x xs /\ x_violation x <> None) /\
  (N.testbit (l_exit (lint_state xs)) 1 = true <-> exists x, In x xs /\ x_error x <> None).
Proof.
  intro xs. induction xs as [|x xs IH] using rev_ind.
  - cbn. repeat split; try lia; try discriminate; intros (x & [] & _).
  - unfold lint_state in *. rewrite fold_left_app. cbn [fold_left].
    set (t := fold_left (fun t x => lint_tally t x (dirty x)) xs no_tally) in *.
    destruct IH as (A & B & C & L & D & E). rewrite !set_of_snoc, number_snoc. unfold lint_tally. rewrite A.
    assert (Sn : forall (P : result -> Prop), (exists y, In y (xs ++ [x]) /\ P y) <-> ((exists y, In y xs /\ P y) \/ P x)).
    { intro P. split.
      - intros (y & Hy & K). apply in_app_iff in Hy. destruct Hy as [Hy|[->|[]]]; eauto.
      - intros [(y & Hy & K)|K]; [exists y|exists x]; rewrite in_app_iff; simpl; auto. }
    rewrite !Sn. cbn [any].
    assert (Lo : forall n k, (n < 4 -> k = 1 \/ k = 2 -> N.lor n k < 4)%N).
    { intros n k Hn Hk. assert (n = 0 \/ n = 1 \/ n = 2 \/ n = 3)%N as [->|[->|[->| ->]]] by lia; destruct Hk; subst; reflexivity. }
    unfold is_violation, is_error, is_fixable, dirty. destruct (x_violation x) as [v|] eqn:Ev; destruct (x_error x) as [e|] eqn:Ee;
      cbn [l_visited l_dirty l_autofixes l_exit l_fixed]; rewrite ?B, ?C; unfold fixable; rewrite ?Ev;
      repeat split; auto; rewrite ?N.lor_spec; cbn [N.testbit Pos.testbit]; rewrite ?orb_false_r, ?orb_true_r; intros;
      try tauto; try (right; discriminate); try (now apply D); try (now apply E);
      try (left; now apply D); try (left; now apply E);
      repeat match goal with H : _ \/ _ |- _ => destruct H end; try congruence; try (now apply D); try (now apply E).
Qed.

(** Nobody answers the results, and nothing that is called fails. *)
Definition unanswered (es : list ev) : Prop :=
  Forall (fun e => match e with EGive _ a => a = None | ECall _ o => o = Ok tt | _ => True end) es.

Lemma unanswered_given : forall es, unanswered es -> forall x a, In (x, a) (given es) -> a = None.
Proof.
  intros es H x a. induction H as [|e es He _ IH]; [intros []|]. destruct e; cbn [given]; auto. intros [X|X]; auto. injection X as <- <-. exact He.
Qed.

Lemma lint_sim : forall K diff cfg g xs vs o,
  crun (lint_loop K diff cfg g (lint_state xs)) vs o ->
  exists es oa, run g es oa /\ effects vs = api_effects es /\ asked vs = [] /\
    unanswered es /\
    match o with
    | Returned c =>
        let st := lint_state (xs ++ results es) in
        oa = Returned tt /\ c = l_exit st /\
        lines vs = screen K diff Std cfg es ++ [splash (l_visited st) (l_dirty st) (l_autofixes st) 0]
    | Raised _ => oa <> Returned tt
    | Stopped => True
    end.
Proof.
  intros K diff cfg g. induction g as [r|e|x k IH|k IH|q c k IH|k IH|c k IH|m k IH]; intros xs vs o H; cbn [lint_loop] in H.
  - destruct r. apply run_print_all in H. destruct H as [(-> & l1 & l2 & _ & ->)|(vs' & -> & H)].
    + exists [], Stopped. rewrite effects_prints, asked_prints. repeat split; auto using @run. constructor.
    + exists [], (Returned tt). rewrite effects_app, asked_app, lines_app, effects_prints, asked_prints, lines_prints.
      inversion H; subst; cbn [effects asked lines flat_map results given map screen app]; rewrite ?app_nil_r; repeat split; auto using @run; constructor.
  - inversion H; subst.
    + exists [], Stopped. repeat split; auto using @run. constructor.
    + exists [], (Raised e). repeat split; auto using @run; [constructor|discriminate].
  - destruct (print_result K x diff false (c_format cfg) (c_template cfg)) as [[ls b]|e] eqn:P.
    + apply print_item in P. destruct P as [-> ->]. apply run_print_all in H. destruct H as [(-> & l1 & l2 & _ & ->)|(vs' & -> & H)].
      * exists [], Stopped. rewrite effects_prints, asked_prints. repeat split; auto using @run. constructor.
      * replace (lint_tally (lint_state xs) x (dirty x)) with (lint_state (xs ++ [x])) in H by (unfold lint_state; now rewrite fold_left_app).
        destruct (IH None _ _ _ H) as (es & oa & R & E & A & G & O).
        exists (EGive x None :: es), oa. rewrite effects_app, asked_app, lines_app, effects_prints, asked_prints, lines_prints.
        split; [now constructor|]. split; [exact E|]. split; [exact A|]. split.
        { constructor; auto. }
        destruct o as [n|e|]; auto. destruct O as (-> & -> & ->). cbn [results given map fst screen flat_map].
        rewrite <- app_assoc. cbn [app]. unfold results, screen. rewrite <- !app_assoc. auto.
    + inversion H; subst.
      * exists [], Stopped. repeat split; auto using @run. constructor.
      * exists [], Stopped. repeat split; auto using @run; [constructor|discriminate].
  - inversion H as [| | | | |? F vs' ? H'| | |]; subst.
    + exists [], Stopped. repeat split; auto using @run. constructor.
    + destruct (IH F _ _ _ H') as (es & oa & R & E & A & G & O). exists (ELook F :: es), oa. split; [now constructor|].
      cbn [effects api_effects filter flat_map app]. split; [f_equal; exact E|]. split; [exact A|]. split; [now constructor|]. auto.
  - inversion H as [| | | | | |? ? ? w vs' ? H'| |]; subst.
    + exists [], Stopped. repeat split; auto using @run. constructor.
    + destruct (IH w _ _ _ H') as (es & oa & R & E & A & G & O). exists (EWrite q c w :: es), oa. split; [now constructor|].
      cbn [effects api_effects filter flat_map app]. split; [f_equal; exact E|]. split; [exact A|]. split; [now constructor|]. auto.
  - inversion H as [| | | | | | |? w vs' ? H'|]; subst.
    + exists [], Stopped. repeat split; auto using @run. constructor.
    + destruct (IH w _ _ _ H') as (es & oa & R & E & A & G & O). exists (EIn w :: es), oa. split; [now constructor|].
      cbn [effects api_effects filter flat_map app]. split; [f_equal; exact E|]. split; [exact A|]. split; [now constructor|]. auto.
  - inversion H as [| | | | | | | |? ? w vs' ? H']; subst.
    + exists [], Stopped. repeat split; auto using @run. constructor.
    + destruct (IH w _ _ _ H') as (es & oa & R & E & A & G & O). exists (EOut c w :: es), oa. split; [now constructor|].
      cbn [effects api_effects filter flat_map app]. split; [f_equal; exact E|]. split; [exact A|]. split; [now constructor|]. auto.
  - inversion H as [| | |? ? ? vs' ? H'| | | | |]; subst.
    + exists [], Stopped. repeat split; auto using @run. constructor.
    + destruct (IH (Ok tt) _ _ _ H') as (es & oa & R & E & A & G & O). exists (ECall m (Ok tt) :: es), oa. split; [now constructor|].
      cbn [effects api_effects filter flat_map app]. split; [exact E|]. split; [exact A|]. split; [now constructor|].
      destruct o as [n|e|]; auto. destruct O as (-> & -> & O). cbn [lines flat_map screen app results given]. unfold lines in O. rewrite O. auto.
Qed.

(** ** C35: the exit code of lint, for whatever fixit_paths does *)
Theorem C35_exit : forall K E opts diff api vs code,
  crun (lint_with K E opts diff api) vs (Returned code) ->
  exists F cfg es last,
    generate_config E F (k_cwd K) None (Some opts) = Ok cfg /\
    (* the execution of fixit_paths whose results are printed *)
    run api es (Returned tt) /\ effects vs = ELook F :: api_effects es /\
    lines vs = screen K diff Std cfg es ++ [last] /\
    (code < 4)%N /\
    (N.testbit code 0 = true <-> exists x, In x (results es) /\ x_violation x <> None) /\
    (N.testbit code 1 = true <-> exists x, In x (results es) /\ x_error x <> None) /\
    (code = 0%N <-> forall x, In x (results es) -> x_violation x = None /\ x_error x = None).
Proof.
  intros K E opts diff api vs code H. inversion H as [| | | | |? F vs' ? H'| | |]; subst.
  destruct (generate_config _ _ _ _ _) as [cfg|e] eqn:G; [|inversion H'].
  change no_tally with (lint_state []) in H'. apply lint_sim in H'. destruct H' as (es & oa & R & Ef & _ & _ & -> & -> & Li).
  cbn [app] in *. destruct (lint_state_spec (results es)) as (_ & _ & _ & L & B0 & B1). exists F, cfg, es. eexists.
  split; [exact G|]. split; [exact R|]. split; [cbn [effects flat_map app]; f_equal; exact Ef|]. split; [exact Li|].
  split; auto. split; auto. split; auto. split.
  - intros Z x Hx. rewrite Z in *. cbn in B0, B1. split.
    + destruct (x_violation x) eqn:V; auto. exfalso. assert (X : false = true) by (apply B0; exists x; rewrite V; split; auto; discriminate). discriminate.
    + destruct (x_error x) eqn:V; auto. exfalso. assert (X : false = true) by (apply B1; exists x; rewrite V; split; auto; discriminate). discriminate.
  - intro C. assert (Z0 : N.testbit (l_exit (lint_state (results es))) 0 = false).
    { apply not_true_iff_false. intro X. apply B0 in X. destruct X as (x & Hx & N). apply N. now apply C. }
    assert (Z1 : N.testbit (l_exit (lint_state (results es))) 1 = false).
    { apply not_true_iff_false. intro X. apply B1 in X. destruct X as (x & Hx & N). apply N. now apply C. }
    set (n := l_exit (lint_state (results es))) in *. assert (n = 0 \/ n = 1 \/ n = 2 \/ n = 3)%N as [X|[X|[X|X]]] by lia; rewrite X in *; cbn in *; congruence.
Qed.

(** Linting on the command line answers no result and so, for one file or standard input, writes nothing. *)
Theorem C35_readonly : forall K T d opts m diff paths vs o,
  crun (lint K T d opts m diff paths) vs o -> saved vs = [] /\ asked vs = [].
Proof.
  intros K T d opts m diff paths vs o H. inversion H as [| | | | |? F vs' ? H'| | |]; subst; [auto|].
  destruct (generate_config _ _ _ _ _) as [cfg|e].
  - change no_tally with (lint_state []) in H'.
    apply (lint_sim K diff cfg (fixit_paths_serial T d (or_cwd K paths) false (Some opts) m)) in H'. destruct H' as (es & oa & R & E & A & U & _). pose proof (unanswered_given es U) as G.
    split; [|exact A]. cbn [saved flat_map app].
    assert (Sv : forall vs es, effects vs = api_effects es -> saved vs = written es).
    { clear. intros vs es. assert (K1 : saved vs = written (effects vs)).
      { induction vs as [|[] vs IH]; cbn [saved effects flat_map app written] in *; auto; f_equal; exact IH. }
      assert (K2 : written (api_effects es) = written es).
      { induction es as [|[] es IH]; cbn [api_effects filter written] in *; auto; f_equal; exact IH. }
      intro H. now rewrite K1, H, K2. }
    fold (saved vs'). rewrite (Sv _ _ E). clear - R G. unfold fixit_paths_serial in R.
    inversion R as [| | | |? F' es' ? R'| | | |]; subst; [auto|]. cbn [written]. cbn [given] in G.
    apply run_lift in R'. destruct (make_plan _ _ _ _) as [pl|e]; [|destruct R' as [-> _]; reflexivity].
    assert (Se : forall ps es oa, run (serial T ps false (Some opts) m) es oa -> (forall x a, In (x, a) (given es) -> a = None) -> written es = []).
    { clear. induction ps as [|p ps IH]; intros es oa R G; cbn [serial] in R; [inversion R; reflexivity|].
      apply run_pbind in R. destruct R as [[_ R]|[(e & _ & R)|(es1 & es2 & r & -> & R1 & R2)]].
      - eapply C31_lint_only; [exact R|]. intros x I. apply G in I. discriminate.
      - eapply C31_lint_only; [exact R|]. intros x I. apply G in I. discriminate.
      - rewrite written_app, (IH _ _ R2) by (intros x a I; apply (G x); rewrite given_app, in_app_iff; auto). rewrite app_nil_r.
        eapply C31_lint_only; [exact R1|]. intros x I. assert (X : Some true = None) by (apply (G x); rewrite given_app, in_app_iff; auto). discriminate. }
    destruct pl as [[p|ps|ps]|].
    + now destruct (C32_stdin _ _ _ _ _ _ _ R') as (_ & W & _).
    + eapply Se; eauto.
    + eapply Se; eauto.
    + inversion R'; reflexivity.
  - inversion H'; subst; auto.
Qed.

(** ** The fix command *)

Definition fix_step (interactive : bool) (t : tally) (xa : result * option bool) : tally :=
  let t := fix_tally (negb interactive) t (fst xa) (dirty (fst xa)) in
  if interactive && fixable (fst xa)
  then match snd xa with Some true => taken (offered t) | _ => offered t end
  else t.

Definition fix_state (interactive : bool) (xas : list (result * option bool)) : tally :=
  fold_left (fix_step interactive) xas no_tally.

(** What the user was asked for the results so far, and the answers. *)
Definition answers (interactive : bool) (xas : list (result * option bool)) : list (option choice) :=
  flat_map (fun xa => if interactive && fixable (fst xa)
                      then [Some (match snd xa with Some true => Yes | _ => No end)] else []) xas.

(** Only fixable results can be answered True, and only interactively. *)
Definition proper (interactive : bool) (xas : list (result * option bool)) : Prop :=
  forall x a, In (x, a) xas -> a = None \/ a = Some true /\ interactive = true /\ fixable x = true.

Definition is_yes (a : option choice) : bool := match a with Some Yes => true | _ => false end.

Lemma fixable_dirty : forall x, fixable x = true -> dirty x = true.
Proof. intros x. unfold fixable, dirty. destruct (x_violation x); auto. discriminate. Qed.

Lemma fix_state_spec : forall interactive xas,
  let t := fix_state interactive xas in
  l_visited t = set_of any (map fst xas) /\ l_dirty t = set_of dirty (map fst xas) /\
  l_autofixes t = number fixable (map fst xas) /\ l_exit t = 0%N /\
  l_fixed t = if interactive then List.length (filter is_yes (answers true xas)) else number fixable (map fst xas).
Proof.
  intros i xas. induction xas as [|[x a] xas IH] using rev_ind.
  - cbn. destruct i; auto.
  - unfold fix_state in *. rewrite fold_left_app. cbn [fold_left]. set (t := fold_left (fix_step i) xas no_tally) in *.
    rewrite map_app. cbn [map fst]. rewrite !set_of_snoc, number_snoc. unfold answers in *. rewrite flat_map_app, filter_app, app_length.
    cbn [flat_map fst snd any app]. rewrite app_nil_r. destruct IH as (A & B & C & D & E). unfold fix_step, fix_tally. cbn [fst snd].
    change (is_fixable x) with (fixable x). destruct (fixable x) eqn:Fx.
    + rewrite (fixable_dirty _ Fx). destruct i; cbn [negb andb].
      * destruct a as [[|]|]; cbn [l_visited l_dirty l_autofixes l_fixed l_exit taken offered filter is_yes List.length Nat.add];
          rewrite ?A, ?B, ?C, ?D, ?E; cbn [andb]; repeat split; auto; lia.
      * cbn [l_visited l_dirty l_autofixes l_fixed l_exit Nat.add]. rewrite ?A, ?B, ?C, ?D, ?E. auto.
    + rewrite !andb_false_r. cbn [filter List.length]. rewrite Nat.add_0_r.
      destruct (dirty x); cbn [l_visited l_dirty l_autofixes l_fixed l_exit Nat.add]; rewrite ?A, ?B, ?C, ?D, ?E; auto.
Qed.

Lemma fix_sim : forall K interactive diff is_stdin cfg g xas vs o,
  crun (fix_loop K interactive diff is_stdin cfg g (fix_state interactive xas)) vs o ->
  exists es oa rest, run g es oa /\ effects vs = api_effects es /\
    asked vs = answers interactive (given es) ++ rest /\ proper interactive (given es) /\
    let scr := screen K (interactive || diff) (if is_stdin then Diag else Std) cfg in
    let sum xas := let t := fix_state interactive xas in [splash (l_visited t) (l_dirty t) (l_autofixes t) (l_fixed t)] in
    match o with
    | Returned c =>
        c = 0%N /\
        ((rest = [] /\ oa = Returned tt /\ lines vs = scr es ++ sum (xas ++ given es)) \/
         (rest = [Some Quit] /\ oa = Stopped /\ interactive = true /\
          exists x, fixable x = true /\ lines vs = scr es ++ item K true (if is_stdin then Diag else Std) cfg x ++ sum (xas ++ given es ++ [(x, None)])))
    | Raised _ => oa <> Returned tt /\ (rest = [] \/ rest = [None] /\ interactive = true)
    | Stopped => rest = [] \/ rest = [None] \/ rest = [Some Quit]
    end.
Proof.
  intros K i diff st cfg g. induction g as [r|e|x k IH|k IH|q c k IH|k IH|c k IH|m k IH]; intros xas vs o H; cbn [fix_loop] in H.
  - destruct r. unfold fix_end in H. apply run_print_all in H. destruct H as [(-> & l1 & l2 & _ & ->)|(vs' & -> & H)].
    + exists [], Stopped, []. rewrite effects_prints, asked_prints. repeat split; auto using @run; intros ? ? [].
    + exists [], (Returned tt), []. rewrite effects_app, asked_app, lines_app, effects_prints, asked_prints, lines_prints.
      destruct (fix_state_spec i xas) as (_ & _ & _ & X & _).
      inversion H; subst; cbn [effects asked lines flat_map given answers screen app]; rewrite ?app_nil_r; repeat split; auto using @run; intros ? ? [].
  - inversion H; subst.
    + exists [], Stopped, []. repeat split; auto using @run; intros ? ? [].
    + exists [], (Raised e), []. repeat split; auto using @run; [intros ? ? []|discriminate].
  - destruct (print_result K x (i || diff) st (c_format cfg) (c_template cfg)) as [[ls b]|e] eqn:P.
    + apply print_item in P. destruct P as [-> ->]. apply run_print_all in H. destruct H as [(-> & l1 & l2 & _ & ->)|(vs' & -> & H)].
      * exists [], Stopped, []. rewrite effects_prints, asked_prints. repeat split; auto using @run; intros ? ? [].
      * change (is_fixable x) with (fixable x) in H.
        assert (Go : forall a vs'', proper i [(x, a)] ->
           crun (fix_loop K i diff st cfg (k a) (fix_step i (fix_state i xas) (x, a))) vs'' o ->
           asked vs' = answers i [(x, a)] ++ asked vs'' -> effects vs' = effects vs'' -> lines vs' = lines vs'' ->
           exists es oa rest, run (Give x k) es oa /\ effects vs' = api_effects es /\
             asked vs' = answers i (given es) ++ rest /\ proper i (given es) /\
             let scr := screen K (i || diff) (if st then Diag else Std) cfg in
             let sum xas := let t := fix_state i xas in [splash (l_visited t) (l_dirty t) (l_autofixes t) (l_fixed t)] in
             match o with
             | Returned c =>
                 c = 0%N /\
                 ((rest = [] /\ oa = Returned tt /\ item K (i || diff) (if st then Diag else Std) cfg x ++ lines vs' = scr es ++ sum (xas ++ given es)) \/
                  (rest = [Some Quit] /\ oa = Stopped /\ i = true /\
                   exists x', fixable x' = true /\ item K (i || diff) (if st then Diag else Std) cfg x ++ lines vs' = scr es ++ item K true (if st then Diag else Std) cfg x' ++ sum (xas ++ given es ++ [(x', None)])))
             | Raised _ => oa <> Returned tt /\ (rest = [] \/ rest = [None] /\ i = true)
             | Stopped => rest = [] \/ rest = [None] \/ rest = [Some Quit]
             end).
        { intros a vs'' Pa C A1 A2 A3. rewrite A1, A2, A3.
          replace (fix_step i (fix_state i xas) (x, a)) with (fix_state i (xas ++ [(x, a)])) in C by (unfold fix_state; now rewrite fold_left_app).
          destruct (IH a _ _ _ C) as (es & oa & rest & R & Ef & A & G & O).
          exists (EGive x a :: es), oa, rest. split; [now constructor|]. split; [exact Ef|]. split.
          { rewrite A. cbn [given]. rewrite app_assoc. f_equal. unfold answers. now rewrite <- flat_map_app. }
          split. { intros y b [Hy|Hy]; [apply Pa; simpl; auto|apply G; auto]. }
          cbv zeta in O |- *. cbn [given screen flat_map]. destruct o as [n|e|]; auto. destruct O as (-> & O). split; auto.
          destruct O as [(-> & -> & O)|(-> & -> & I & y & Fy & O)]; [left|right].
          - repeat split; auto. rewrite O. unfold screen. rewrite <- !app_assoc. reflexivity.
          - repeat split; auto. exists y. split; auto. rewrite O. unfold screen. rewrite <- !app_assoc. reflexivity. }
        rewrite effects_app, asked_app, lines_app, effects_prints, asked_prints, lines_prints. cbn [app].
        destruct (i && fixable x) eqn:If.
        -- apply andb_true_iff in If. destruct If as [-> Fx]. cbn [negb orb] in *.
           inversion H as [| | | |? a vs'' ? H'| | | |]; subst.
           ++ exists [], Stopped, []. repeat split; auto using @run; intros ? ? [].
           ++ destruct a as [[| |]|].
              ** apply (Go (Some true) vs''); auto.
                 --- intros y b [Hy|[]]. injection Hy as <- <-. auto.
                 --- unfold fix_step. cbn [fst snd negb andb]. rewrite Fx. exact H'.
                 --- unfold answers. cbn [flat_map fst snd andb]. rewrite Fx. reflexivity.
              ** apply (Go None vs''); auto.
                 --- intros y b [Hy|[]]. injection Hy as <- <-. auto.
                 --- unfold fix_step. cbn [fst snd negb andb]. rewrite Fx. exact H'.
                 --- unfold answers. cbn [flat_map fst snd andb]. rewrite Fx. reflexivity.
              ** exists [], Stopped, [Some Quit]. unfold fix_end in H'. apply run_print_all in H'. 
                 destruct H' as [(-> & l1 & l2 & _ & ->)|(vs3 & -> & H')].
                 --- cbn [effects asked flat_map app]. fold (effects (prints l1)) (asked (prints l1)). rewrite effects_prints, asked_prints.
                     repeat split; auto using @run; intros ? ? [].
                 --- pose proof (fix_state_spec true (xas ++ [(x, None)])) as (_ & _ & _ & X & _).
                     assert (Eq : fix_state true (xas ++ [(x, None)]) = offered (fix_tally false (fix_state true xas) x (dirty x))).
                     { unfold fix_state at 1. rewrite fold_left_app. cbn [fold_left]. unfold fix_step. cbn [fst snd negb andb]. now rewrite Fx. }
                     inversion H'; subst; cbn [effects asked lines flat_map app prints map fst snd given answers screen];
                       repeat split; auto using @run; try (intros ? ? []).
                     +++ now rewrite Eq in X.
                     +++ right. repeat split; auto. exists x. split; auto. rewrite Eq. rewrite <- surjective_pairing. reflexivity.
              ** inversion H'; subst.
                 --- exists [], Stopped, [None]. repeat split; auto using @run; intros ? ? [].
                 --- exists [], Stopped, [None]. repeat split; auto using @run; [intros ? ? []|discriminate].
        -- apply (Go None vs'); auto.
           ++ intros y b [Hy|[]]. injection Hy as <- <-. auto.
           ++ unfold fix_step. cbn [fst snd]. rewrite If. exact H.
           ++ unfold answers. cbn [flat_map fst snd]. rewrite If. reflexivity.
    + inversion H; subst.
      * exists [], Stopped, []. repeat split; auto using @run; intros ? ? [].
      * exists [], Stopped, []. repeat split; auto using @run; [intros ? ? []|discriminate].
  - inversion H as [| | | | |? F vs' ? H'| | |]; subst.
    + exists [], Stopped, []. repeat split; auto using @run; intros ? ? [].
    + destruct (IH F _ _ _ H') as (es & oa & rest & R & E & A & G & O). exists (ELook F :: es), oa, rest. split; [now constructor|].
      cbn [effects api_effects filter flat_map app]. split; [f_equal; exact E|]. auto.
  - inversion H as [| | | | | |? ? ? w vs' ? H'| |]; subst.
    + exists [], Stopped, []. repeat split; auto using @run; intros ? ? [].
    + destruct (IH w _ _ _ H') as (es & oa & rest & R & E & A & G & O). exists (EWrite q c w :: es), oa, rest. split; [now constructor|].
      cbn [effects api_effects filter flat_map app]. split; [f_equal; exact E|]. auto.
  - inversion H as [| | | | | | |? w vs' ? H'|]; subst.
    + exists [], Stopped, []. repeat split; auto using @run; intros ? ? [].
    + destruct (IH w _ _ _ H') as (es & oa & rest & R & E & A & G & O). exists (EIn w :: es), oa, rest. split; [now constructor|].
      cbn [effects api_effects filter flat_map app]. split; [f_equal; exact E|]. auto.
  - inversion H as [| | | | | | | |? ? w vs' ? H']; subst.
    + exists [], Stopped, []. repeat split; auto using @run; intros ? ? [].
    + destruct (IH w _ _ _ H') as (es & oa & rest & R & E & A & G & O). exists (EOut c w :: es), oa, rest. split; [now constructor|].
      cbn [effects api_effects filter flat_map app]. split; [f_equal; exact E|]. auto.
  - inversion H as [| | |? ? ? vs' ? H'| | | | |]; subst.
    + exists [], Stopped, []. repeat split; auto using @run; intros ? ? [].
    + destruct (IH (Ok tt) _ _ _ H') as (es & oa & rest & R & E & A & G & O). exists (ECall m (Ok tt) :: es), oa, rest. split; [now constructor|].
      cbn [effects api_effects filter flat_map app]. split; [exact E|]. split; [exact A|]. split; [exact G|].
      cbv zeta in O |- *. cbn [given screen lines flat_map app]. unfold lines in O. destruct o as [n|e|]; auto. destruct O as (-> & O). split; auto.
      destruct O as [(-> & -> & O)|(-> & -> & I & y & Fy & O)]; [left|right].
      * repeat split; auto. rewrite O. reflexivity.
      * repeat split; auto. exists y. split; auto. rewrite O. reflexivity.
Qed.

Lemma effects_saved : forall vs es, effects vs = api_effects es -> saved vs = written es.
Proof.
  intros vs es. assert (K1 : saved vs = written (effects vs)).
  { induction vs as [|[] vs IH]; cbn [saved effects flat_map app written] in *; auto; f_equal; exact IH. }
  assert (K2 : written (api_effects es) = written es).
  { induction es as [|[] es IH]; cbn [api_effects filter written] in *; auto; f_equal; exact IH. }
  intro H. now rewrite K1, H, K2.
Qed.

(** Everything the fix command does. *)
Lemma fix_run : forall K T d opts m interactive diff paths vs o,
  crun (fix_ K T d opts m interactive diff paths) vs o ->
  let paths := or_cwd K paths in
  let is_stdin := first_is_dash paths in
  let interactive := interactive && negb is_stdin in
  (vs = [] /\ o = Stopped) \/
  (exists F, vs = [VLook F] /\ (o = Stopped \/ exists e, o = Raised e /\ generate_config (t_env T) F (k_cwd K) None (Some opts) = Err e)) \/
  exists F cfg vs', vs = VLook F :: vs' /\ generate_config (t_env T) F (k_cwd K) None (Some opts) = Ok cfg /\
    crun (fix_loop K interactive diff is_stdin cfg
            (fixit_paths_serial T d paths (negb interactive) (Some opts) m) (fix_state interactive [])) vs' o.
Proof.
  intros K T d opts m interactive diff paths vs o H. cbv zeta. unfold fix_ in H. inversion H as [| | | | |? F vs' ? H'| | |]; subst; [auto|].
  right. destruct (generate_config _ _ _ _ _) as [cfg|e] eqn:G.
  - right. exists F, cfg, vs'. auto.
  - left. exists F. inversion H'; subst; split; auto. right. eauto.
Qed.

(** ** C36: interactive fixing *)

(** The fixes offered are the violations that have one, in order; exactly those answered "y" are
    accepted, up to "q" or an interruption. *)
Theorem C36_answers : forall K T d opts m diff paths vs o,
  first_is_dash (or_cwd K paths) = false ->
  crun (fix_ K T d opts m true diff paths) vs o ->
  exists es oa rest,
    run (fixit_paths_serial T d (or_cwd K paths) false (Some opts) m) es oa /\
    saved vs = written es /\
    asked vs = flat_map (fun xa => if fixable (fst xa)
                           then [Some (match snd xa with Some true => Yes | _ => No end)] else []) (given es) ++ rest /\
    (forall x a, In (x, a) (given es) -> a = None \/ (a = Some true /\ fixable x = true)) /\
    match o with
    | Returned c => c = 0%N /\ (rest = [] /\ oa = Returned tt \/ rest = [Some Quit] /\ oa = Stopped)
    | Raised _ => rest = [] \/ rest = [None]
    | Stopped => rest = [] \/ rest = [None] \/ rest = [Some Quit]
    end.
Proof.
  intros K T d opts m diff paths vs o D H. apply fix_run in H. cbv zeta in H. rewrite D in H. cbn [negb andb] in H.
  destruct H as [(-> & ->)|[(F & -> & H)|(F & cfg & vs' & -> & G & H)]].
  - exists [], Stopped, []. repeat split; auto using @run. intros ? ? [].
  - exists [], Stopped, []. cbn [saved asked flat_map given written app]. repeat split; auto using @run. { intros ? ? []. }
    destruct H as [->|(e & -> & _)]; auto.
  - apply fix_sim in H. destruct H as (es & oa & rest & R & E & A & P & O). cbn [negb] in R. exists es, oa, rest.
    cbn [saved asked flat_map app]. fold (saved vs') (asked vs'). split; [exact R|]. split; [now apply effects_saved|].
    split; [exact A|]. split. { intros x a I. destruct (P x a I) as [?|(? & _ & ?)]; auto. }
    destruct o as [c|e|]; cbv zeta in O.
    + destruct O as (-> & [(-> & -> & _)|(-> & -> & _)]); auto.
    + destruct O as (_ & [O|[O _]]); auto.
    + exact O.
Qed.

(** When the user never quits, every file is fixed with the fixes answered "y": these are the
    accepted ones in the executions of fixit_file, to which C30 and C31 apply. *)
Theorem C36_applied : forall K T d opts m diff paths vs c,
  first_is_dash (or_cwd K paths) = false ->
  crun (fix_ K T d opts m true diff paths) vs (Returned c) -> ~ In (Some Quit) (asked vs) ->
  exists F pl es ps ess,
    make_plan (t_walk T F) d false (or_cwd K paths) = Ok pl /\
    match pl with Some (Serial l) | Some (Parallel l) => ps = l | _ => ps = [] end /\
    es = concat ess /\ Forall2 (fun p e => run (fixit_file T p false (Some opts) m) e (Returned tt)) ps ess /\
    saved vs = written es /\
    accepted false (given es) =
      flat_map (fun xa => match x_violation (fst xa), snd xa with Some v, Some true => [v] | _, _ => [] end) (given es) /\
    asked vs = flat_map (fun xa => if fixable (fst xa)
                           then [Some (match snd xa with Some true => Yes | _ => No end)] else []) (given es).
Proof.
  intros K T d opts m diff paths vs c D H Q. destruct (C36_answers _ _ _ _ _ _ _ _ _ D H) as (es & oa & rest & R & W & A & P & _ & O).
  destruct O as [(-> & ->)|(-> & _)]; [|exfalso; apply Q; rewrite A, in_app_iff; simpl; auto].
  rewrite app_nil_r in A. unfold fixit_paths_serial in R. inversion R as [| | | |? F es' ? R'| | | |]; subst.
  cbn [given written] in *. apply run_lift in R'. destruct (make_plan _ _ _ _) as [pl|e] eqn:M; [|destruct R' as [_ [X|X]]; discriminate].
  assert (Acc : accepted false (given es') =
      flat_map (fun xa => match x_violation (fst xa), snd xa with Some v, Some true => [v] | _, _ => [] end) (given es')).
  { unfold accepted. apply flat_map_ext. intros [x [[|]|]]; cbn; destruct (x_violation x); reflexivity. }
  destruct pl as [[p|ps|ps]|].
  - exfalso. clear - M D. unfold make_plan in M. destruct (or_cwd K paths) as [|[|q] rest] eqn:Eq; [discriminate|discriminate|].
    change (make_plan (t_walk T F) d false (PathArg q :: rest) = Ok (Some (Input p))) in M. rewrite C34_files in M.
    apply bind_ok in M. destruct M as (f & _ & M). injection M as M. destruct (_ || _); discriminate.
  - destruct (C34_serial _ _ _ _ _ _ R') as (ess & -> & Fa). exists F, (Some (Serial ps)), (concat ess), ps, ess. auto 10.
  - destruct (C34_serial _ _ _ _ _ _ R') as (ess & -> & Fa). exists F, (Some (Parallel ps)), (concat ess), ps, ess. auto 10.
  - inversion R'; subst. exists F, None, [], [], []. auto 10.
Qed.

(** ** C47: what is printed *)

Theorem C47_lint : forall K E opts diff api vs code,
  crun (lint_with K E opts diff api) vs (Returned code) ->
  exists F cfg es visited dirty_,
    generate_config E F (k_cwd K) None (Some opts) = Ok cfg /\
    run api es (Returned tt) /\ effects vs = ELook F :: api_effects es /\
    distinct_paths any (results es) visited /\ distinct_paths dirty (results es) dirty_ /\
    lines vs = screen K diff Std cfg es ++
      [(Diag, summary (List.length visited) (List.length dirty_) (List.length (filter fixable (results es))) 0)].
Proof.
  intros K E opts diff api vs code H. inversion H as [| | | | |? F vs' ? H'| | |]; subst.
  destruct (generate_config _ _ _ _ _) as [cfg|e] eqn:G; [|inversion H'].
  change no_tally with (lint_state []) in H'. apply lint_sim in H'. destruct H' as (es & oa & R & Ef & _ & _ & -> & _ & L).
  cbn [app] in L. destruct (lint_state_spec (results es)) as (A & B & C & _). rewrite splash_summary, A, B, C in L.
  exists F, cfg, es, (set_of any (results es)), (set_of dirty (results es)). split; auto. split; auto.
  split; [cbn [effects flat_map app]; f_equal; exact Ef|]. split; [apply set_of_distinct|]. split; [apply set_of_distinct|]. exact L.
Qed.

(** For fix: in automatic mode all fixes count as applied, interactively those answered "y". *)
Theorem C47_fix : forall K T d opts m interactive diff paths vs c,
  crun (fix_ K T d opts m interactive diff paths) vs (Returned c) -> ~ In (Some Quit) (asked vs) ->
  let is_stdin := first_is_dash (or_cwd K paths) in
  let inter := interactive && negb is_stdin in
  exists F cfg es visited dirty_,
    generate_config (t_env T) F (k_cwd K) None (Some opts) = Ok cfg /\
    run (fixit_paths_serial T d (or_cwd K paths) (negb inter) (Some opts) m) es (Returned tt) /\
    effects vs = ELook F :: api_effects es /\
    distinct_paths any (results es) visited /\ distinct_paths dirty (results es) dirty_ /\
    let n := List.length (filter fixable (results es)) in
    lines vs = screen K (inter || diff) (if is_stdin then Diag else Std) cfg es ++
      [(Diag, summary (List.length visited) (List.length dirty_) n
                (if inter then List.length (filter is_yes (asked vs)) else n))].
Proof.
  intros K T d opts m interactive diff paths vs c H Q. cbv zeta. apply fix_run in H. cbv zeta in H.
  destruct H as [(-> & X)|[(F & -> & [X|(e & X & _)])|(F & cfg & vs' & -> & G & H)]]; try discriminate.
  set (i := interactive && negb (first_is_dash (or_cwd K paths))) in *. clearbody i.
  apply fix_sim in H. destruct H as (es & oa & rest & R & E & A & P & _ & O). cbn [asked flat_map app] in *. fold (asked vs') in *.
  destruct O as [(-> & -> & L)|(-> & _)]; [|exfalso; apply Q; rewrite A, in_app_iff; simpl; auto].
  cbn [app] in L. rewrite app_nil_r in A. destruct (fix_state_spec i (given es)) as (S1 & S2 & S3 & _ & S5).
  rewrite splash_summary, S1, S2, S3, S5 in L. exists F, cfg, es, (set_of any (results es)), (set_of dirty (results es)).
  split; auto. split; auto. split; [cbn [effects flat_map app]; f_equal; exact E|]. split; [apply set_of_distinct|]. split; [apply set_of_distinct|].
  cbn [lines flat_map app]. fold (lines vs'). rewrite L, A. unfold number, results. destruct i; reflexivity.
Qed.

(** ** C49: fixing standard input *)

Lemma stdout_lines : forall vs, (forall t, ~ In (Std, t) (lines vs)) -> stdout vs = printed (effects vs).
Proof.
  induction vs as [|[s t|a|F|p c o|i|c o] vs IH]; intro H; cbn [stdout effects flat_map app printed] in *; auto.
  - destruct s.
    + exfalso. apply (H t). simpl. auto.
    + apply IH. intros t' I. apply (H t'). simpl. auto.
  - f_equal. apply IH. exact H.
Qed.

(** Generators that never call the metrics hook. *)
Fixpoint nocall {R} (g : prog R) : Prop :=
  match g with
  | Ret _ | Raise _ => True
  | Give _ k => forall a, nocall (k a)
  | Look k => forall F, nocall (k F)
  | Write _ _ k => forall o, nocall (k o)
  | Stdin k => forall i, nocall (k i)
  | Stdout _ k => forall o, nocall (k o)
  | Call _ _ => False
  end.

Lemma nocall_pbind : forall A B (g : prog A) (f : A -> prog B), nocall g -> (forall a, nocall (f a)) -> nocall (pbind g f).
Proof. intros A B g f. induction g; cbn [nocall pbind]; auto. Qed.
Lemma nocall_catch : forall A (g : prog A) h, nocall g -> (forall e, nocall (h e)) -> nocall (catch g h).
Proof. intros A g h. induction g; cbn [nocall catch]; auto. Qed.
Lemma nocall_lift : forall A B (r : res A) (f : A -> prog B), (forall a, nocall (f a)) -> nocall (lift r f).
Proof. intros A B [a|e] f H; cbn [lift nocall]; auto. Qed.

Lemma nocall_loop : forall p autofix k evs r clean pending,
  (forall x, In x evs -> exists v, x = Yield v) -> (forall c l, nocall (k c l)) ->
  nocall (Api.lint_loop p autofix evs r clean pending k).
Proof.
  intros p autofix k evs r. induction evs as [|e evs IH]; intros clean pending He Hk; cbn [Api.lint_loop].
  - apply nocall_lift. auto.
  - destruct (He e) as [v ->]; [simpl; auto|]. cbn [nocall]. intro a. apply IH; auto. intros x Hx. apply He. simpl. auto.
Qed.

Transparent fixit_bytes.
Lemma nocall_bytes : forall T p content cfg autofix, nocall (fixit_bytes T p content cfg autofix false).
Proof.
  intros T p content cfg autofix. unfold fixit_bytes. apply nocall_catch; [|cbn; auto]. cbn [nocall]. intro F.
  apply nocall_lift. intros rules.
  assert (K : nocall (lift (t_parse T content) (fun md =>
               let (evs, r) := collect_violations (t_udiff T p) md (t_visit T F cfg md rules) false in
               Api.lint_loop p autofix evs r true [] (fun clean pending =>
                 if clean : bool then Give (clean_result p) (fun _ => finish_fixes T p cfg md pending)
                 else finish_fixes T p cfg md pending)))).
  { apply nocall_lift. intro md. pose proof (collect_hook (t_udiff T p) md (t_visit T F cfg md rules)) as C.
    destruct (collect_violations _ _ _ false) as [evs r]. destruct C as [C _]. apply nocall_loop; auto.
    assert (Fi : forall pending, nocall (finish_fixes T p cfg md pending)).
    { intro pending. unfold finish_fixes. destruct pending; cbn [nocall]; auto. apply nocall_lift. intros [m|]; cbn [nocall]; auto.
      intro G. apply nocall_lift. cbn. auto. }
    intros [|] l; cbn [nocall]; auto. }
  destruct rules; [cbn; auto|exact K].
Qed.
Opaque fixit_bytes.

Lemma nocall_stdin : forall T p autofix opts, nocall (fixit_stdin T p autofix opts false).
Proof.
  intros T p autofix opts. unfold fixit_stdin. apply nocall_catch; [|cbn; auto]. cbn [nocall]. intro i. apply nocall_lift. intro content.
  cbn [nocall]. intro F. apply nocall_lift. intro cfg. apply nocall_pbind; [apply nocall_bytes|]. intro r.
  destruct autofix; cbn [nocall]; auto. intro o. apply nocall_lift. cbn. auto.
Qed.

Lemma nocall_file : forall T p autofix opts, nocall (fixit_file T p autofix opts false).
Proof.
  intros T p autofix opts. unfold fixit_file. apply nocall_catch; [|cbn; auto]. cbn [nocall]. intro F. destruct (f_file F p) as [content|]; cbn [nocall]; auto.
  intro F2. apply nocall_lift. intro cfg. apply nocall_pbind; [apply nocall_bytes|]. intros [[|c l]|]; cbn [nocall]; auto.
  destruct (negb _); cbn [nocall]; auto. intro o. apply nocall_lift. cbn. auto.
Qed.

Lemma nocall_paths : forall T d paths autofix opts, nocall (fixit_paths_serial T d paths autofix opts false).
Proof.
  intros T d paths autofix opts. unfold fixit_paths_serial. cbn [nocall]. intro F. apply nocall_lift.
  assert (Se : forall ps, nocall (serial T ps autofix opts false)).
  { induction ps as [|p ps IH]; cbn [serial nocall]; auto. apply nocall_pbind; auto using nocall_file. }
  intros [[p|ps|ps]|]; cbn [nocall]; auto. apply nocall_stdin.
Qed.

Lemma quiet_item : forall K cfg x t, ~ In (Std, t) (item K false Diag cfg x).
Proof.
  intros K cfg x t. unfold item. destruct (x_violation x); [|destruct (x_error x)]; simpl; intuition discriminate.
Qed.

Lemma fix_quiet : forall K cfg g t vs o, nocall g -> crun (fix_loop K false false true cfg g t) vs o ->
  forall s, ~ In (Std, s) (lines vs).
Proof.
  intros K cfg g. induction g as [r|e|x k IH|k IH|q c k IH|k IH|c k IH|m k IH]; intros t vs o N H s; cbn [fix_loop] in H; cbn [nocall] in N.
  - unfold fix_end in H. apply run_print_all in H. destruct H as [(_ & l1 & l2 & L & ->)|(vs' & -> & H)].
    + rewrite lines_prints. intro I. assert (J : In (Std, s) [splash (l_visited t) (l_dirty t) (l_autofixes t) (l_fixed t)]) by (rewrite L, in_app_iff; auto).
      rewrite splash_summary in J. destruct J as [J|[]]; discriminate.
    + rewrite lines_app, lines_prints, splash_summary. inversion H; subst; cbn; intros [J|[]]; discriminate.
  - inversion H; subst; intros [].
  - destruct (print_result K x (false || false) true (c_format cfg) (c_template cfg)) as [[ls b]|e] eqn:P.
    + apply print_item in P. destruct P as [-> ->]. cbn [orb andb] in H. apply run_print_all in H.
      destruct H as [(_ & l1 & l2 & L & ->)|(vs' & -> & H)].
      * rewrite lines_prints. intro I. apply (quiet_item K cfg x s). rewrite L, in_app_iff. auto.
      * rewrite lines_app, lines_prints, in_app_iff. intros [I|I]; [now apply quiet_item in I|]. eapply IH; eauto.
    + inversion H; subst; intros [].
  - inversion H as [| | | | |? F vs' ? H'| | |]; subst; [intros []|]. cbn [lines flat_map app]. eapply IH; eauto.
  - inversion H as [| | | | | |? ? ? w vs' ? H'| |]; subst; [intros []|]. cbn [lines flat_map app]. eapply IH; eauto.
  - inversion H as [| | | | | | |? w vs' ? H'|]; subst; [intros []|]. cbn [lines flat_map app]. eapply IH; eauto.
  - inversion H as [| | | | | | | |? ? w vs' ? H']; subst; [intros []|]. cbn [lines flat_map app]. eapply IH; eauto.
  - contradiction.
Qed.

Lemma auto_asked : forall K diff st cfg g t vs o, crun (fix_loop K false diff st cfg g t) vs o -> asked vs = [].
Proof.
  intros K diff st cfg g. induction g as [r|e|x k IH|k IH|q c k IH|k IH|c k IH|m k IH]; intros t vs o H; cbn [fix_loop] in H.
  - unfold fix_end in H; apply run_print_all in H; destruct H as [(_ & l1 & l2 & _ & ->)|(vs' & -> & H)];
      [apply asked_prints|rewrite asked_app, asked_prints; inversion H; reflexivity].
  - inversion H; reflexivity.
  - destruct (print_result _ _ _ _ _ _) as [[ls b]|e]; cbn [andb] in H;
      [apply run_print_all in H; destruct H as [(_ & l1 & l2 & _ & ->)|(vs' & -> & H)];
        [apply asked_prints|rewrite asked_app, asked_prints; eapply IH; eauto]
      |inversion H; reflexivity].
  - inversion H; subst; auto; cbn [asked flat_map app]; eapply IH; eauto.
  - inversion H; subst; auto; cbn [asked flat_map app]; eapply IH; eauto.
  - inversion H; subst; auto; cbn [asked flat_map app]; eapply IH; eauto.
  - inversion H; subst; auto; cbn [asked flat_map app]; eapply IH; eauto.
  - inversion H; subst; auto; cbn [asked flat_map app]; eapply IH; eauto.
Qed.

Lemma run_plan : forall T d paths autofix opts m es oa, run (fixit_paths_serial T d paths autofix opts m) es oa ->
  (es = [] /\ oa = Stopped) \/
  exists F es', es = ELook F :: es' /\
    run (lift (make_plan (t_walk T F) d false paths) (fun pl =>
      match pl with
      | None => Ret tt
      | Some (Input p) => fixit_stdin T p autofix opts m
      | Some (Serial ps) | Some (Parallel ps) => serial T ps autofix opts m
      end)) es' oa.
Proof.
  intros T d paths autofix opts m es oa R. unfold fixit_paths_serial in R.
  inversion R as [| | | |? F es' ? R'| | | |]; subst; [auto|]. right. eauto.
Qed.

(** Standard output is exactly what fixit_stdin writes there, if neither diffs nor metrics are
    wanted: with C32, the fixed content or the input. *)
Theorem C49_stdin_output : forall K T d opts interactive rest vs o,
  crun (fix_ K T d opts false interactive false (Dash :: rest)) vs o ->
  saved vs = [] /\ asked vs = [] /\
  (stdout vs = [] \/
   exists F F' es oa, run (fixit_stdin T (match rest with PathArg q :: _ => q | _ => d end) true (Some opts) false) es oa /\
     effects vs = ELook F :: ELook F' :: api_effects es /\
     stdout vs = printed es /\ (o = Returned 0%N -> oa = Returned tt)) /\
  (* an exit status of 0 means that everything was done *)
  (o = Returned 0%N -> exists F F' es, run (fixit_stdin T (match rest with PathArg q :: _ => q | _ => d end) true (Some opts) false) es (Returned tt) /\
     effects vs = ELook F :: ELook F' :: api_effects es /\ stdout vs = printed es).
Proof.
  intros K T d opts interactive rest vs o H. apply fix_run in H. cbv zeta in H. cbn [or_cwd first_is_dash negb] in H.
  rewrite andb_false_r in H. cbn [negb] in H.
  destruct H as [(-> & ->)|[(F & -> & X)|(F & cfg & vs' & -> & G & H)]].
  - repeat split; auto. discriminate.
  - repeat split; auto. destruct X as [->|(e & -> & _)]; discriminate.
  - pose proof H as H2. apply fix_sim in H. destruct H as (es & oa & more & R & E & A & P & O). cbn [answers andb] in A.
    assert (A' : forall l, answers false l = []) by (induction l; auto). rewrite A' in A. cbn [app] in A.
    cbn [saved asked stdout flat_map app]. fold (saved vs') (asked vs') (stdout vs').
    assert (Mo : more = []).
    { cbv zeta in O. destruct o as [c|e|].
      - destruct O as (_ & [(-> & _)|(_ & _ & X & _)]); [auto|discriminate].
      - destruct O as (_ & [O|[_ X]]); [auto|discriminate].
      - rewrite (auto_asked _ _ _ _ _ _ _ _ H2) in A. auto. }
    rewrite Mo in A. rewrite A. assert (Sv : saved vs' = written es) by now apply effects_saved.
    pose proof (fix_quiet _ _ _ _ _ _ (nocall_paths _ _ _ _ _) H2) as Q. rewrite (stdout_lines _ Q).
    assert (Pr : printed (effects vs') = printed es).
    { rewrite E. clear. induction es as [|[] es IH]; cbn [api_effects filter printed] in *; auto; f_equal; exact IH. }
    rewrite Pr, Sv. cbv zeta in O.
    assert (Oa : o = Returned 0%N -> oa = Returned tt).
    { intros ->. destruct O as (_ & [(_ & X & _)|(_ & _ & X & _)]); [auto|discriminate]. }
    destruct (run_plan _ _ _ _ _ _ _ _ R) as [(-> & ->)|(F' & es' & -> & R')].
    + repeat split; auto. intro X. apply Oa in X. discriminate.
    + cbn [written printed]. rewrite C34_stdin in R'. apply run_lift in R'. 
      assert (In_ : forall p, run (fixit_stdin T p true (Some opts) false) es' oa -> p = match rest with PathArg q :: _ => q | _ => d end ->
         written es' = [] /\ [] = @nil (option choice) /\
         (printed es' = [] \/ exists F0 F1 es oa, run (fixit_stdin T (match rest with PathArg q :: _ => q | _ => d end) true (Some opts) false) es oa /\
            effects (VLook F :: vs') = ELook F0 :: ELook F1 :: api_effects es /\
            printed es' = printed es /\ (o = Returned 0%N -> oa = Returned tt)) /\
         (o = Returned 0%N -> exists F0 F1 es, run (fixit_stdin T (match rest with PathArg q :: _ => q | _ => d end) true (Some opts) false) es (Returned tt) /\
            effects (VLook F :: vs') = ELook F0 :: ELook F1 :: api_effects es /\ printed es' = printed es)).
      { intros p Rp ->. destruct (C32_stdin _ _ _ _ _ _ _ Rp) as (_ & W & _). repeat split; auto.
        - right. exists F, F', es', oa. split; auto. split; [cbn [effects flat_map app]; f_equal; exact E|]. auto.
        - intro X. apply Oa in X. subst oa. exists F, F', es'. split; auto. split; [cbn [effects flat_map app]; f_equal; exact E|]. auto. }
      destruct rest as [|x more']; [eapply In_; eauto|]. destruct (flat_map named more').
      * eapply In_; eauto.
      * destruct R' as [-> R']. cbn [written printed]. repeat split; auto. intro X. apply Oa in X. destruct R'; congruence.
Qed.

(** ** C51: upgrade *)

(** upgrade fixes automatically, and only with the rules of fixit.upgrade, whatever is configured. *)
Theorem C51_upgrade : forall K T d opts m paths vs o,
  crun (upgrade K T d opts m paths) vs o ->
  asked vs = [] /\
  exists es oa,
    run (fixit_paths_serial T d (or_cwd K paths) true (Some (upgrade_options opts)) m) es oa /\
    effects vs = (match vs with VLook F :: _ => [ELook F] | _ => [] end) ++ api_effects es /\
    (o = Returned 0%N -> oa = Returned tt) /\
    forall E F p cfg, generate_config E F p None (Some (upgrade_options opts)) = Ok cfg ->
      c_enable cfg = [QRule (u "fixit.upgrade") None None None] /\ c_disable cfg = [].
Proof.
  intros K T d opts m paths vs o H.
  assert (Cf : forall E F p cfg, generate_config E F p None (Some (upgrade_options opts)) = Ok cfg ->
      c_enable cfg = [QRule (u "fixit.upgrade") None None None] /\ c_disable cfg = []).
  { intros E F p cfg G. unfold generate_config in G. apply bind_ok in G. destruct G as (ps & _ & G).
    apply bind_ok in G. destruct G as (raws & _ & G). apply bind_ok in G. destruct G as ((c & ?) & _ & G). injection G as <-. auto. }
  apply fix_run in H. cbv zeta in H. cbn [andb] in H.
  destruct H as [(-> & ->)|[(F & -> & X)|(F & cfg & vs' & -> & G & H)]].
  - split; [reflexivity|]. exists [], Stopped. repeat split; auto using @run; try discriminate; now destruct (Cf E F p cfg H).
  - split; [reflexivity|]. exists [], Stopped. repeat split; auto using @run; try (now destruct (Cf E F0 p cfg H)).
    destruct X as [->|(e & -> & _)]; discriminate.
  - pose proof (auto_asked _ _ _ _ _ _ _ _ H) as A. apply fix_sim in H. destruct H as (es & oa & rest & R & E & _ & _ & O).
    split; [exact A|]. exists es, oa. cbn [negb] in R. split; [exact R|]. split; [cbn [effects flat_map app]; f_equal; exact E|].
    split; [|exact Cf]. intros ->. destruct O as (_ & [(_ & -> & _)|(_ & _ & X & _)]); [auto|discriminate].
Qed.

(** What it prints: each violation without its diff, and the summary, in which all fixes count as
    applied. *)
Theorem C51_output : forall K T d opts m paths vs c,
  crun (upgrade K T d opts m paths) vs (Returned c) ->
  exists F cfg es visited dirty_,
    let opts' := Options (o_config_file opts) (o_tags opts) [QRule (u "fixit.upgrade") None None None] (o_format opts) (o_template opts) in
    generate_config (t_env T) F (k_cwd K) None (Some opts') = Ok cfg /\
    run (fixit_paths_serial T d (match paths with [] => [PathArg (k_cwd K)] | _ => paths end) true (Some opts') m) es (Returned tt) /\
    distinct_paths any (results es) visited /\ distinct_paths dirty (results es) dirty_ /\
    let n := List.length (filter fixable (results es)) in
    lines vs = screen K false (match paths with Dash :: _ => Diag | _ => Std end) cfg es ++
      [(Diag, summary (List.length visited) (List.length dirty_) n n)].
Proof.
  intros K T d opts m paths vs c H. assert (A : asked vs = []) by now apply C51_upgrade in H.
  unfold upgrade in H. apply C47_fix in H; [|rewrite A; simpl; tauto]. cbv zeta in H. cbn [andb negb orb] in H.
  destruct H as (F & cfg & es & vi & di & H1 & H2 & _ & H4 & H5 & H6). exists F, cfg, es, vi, di. cbv zeta.
  split; auto. split; auto. split; auto. split; auto. rewrite H6. destruct paths as [|[] ?]; reflexivity.
Qed.

(** ** The path shown *)

Lemma is_prefix_app : forall q t, is_prefix q (q ++ t) = true.
Proof. intros. apply is_prefix_spec. eauto. Qed.

(** Components of paths are not empty, not "." and contain no slash. *)
Definition component (s : str) : Prop := s <> [] /\ s <> u "." /\ ~ In 47%N s.

Lemma parts_join : forall l, Forall component l -> parts (join_parts l) = l.
Proof.
  intros l H. unfold parts.
  assert (Keep : forall s, component s -> negb (str_eqb s [] || str_eqb s (u ".")) = true).
  { intros s (A & B & _). apply negb_true_iff, orb_false_iff. split; now apply str_eqb_neq. }
  assert (G : l <> [] -> split 47 (join_parts l) = l).
  { induction H as [|x l Hx H IH]; [congruence|]. intros _. destruct l as [|y l].
    - cbn [join_parts]. apply split_no_sep. apply Hx.
    - change (join_parts (x :: y :: l)) with (x ++ 47%N :: join_parts (y :: l)). rewrite split_app_sep by apply Hx. f_equal. apply IH. discriminate. }
  destruct l as [|x l]; [reflexivity|]. rewrite G by discriminate. clear G.
  induction H as [|y l' Hy H IH]; [reflexivity|]. cbn [filter]. rewrite Keep by auto. f_equal. exact IH.
Qed.

(** The path shown leads to the file, relative to the current directory if the file is below it. *)
Theorem C47_path : forall cwd p, Forall component p ->
  joinpath cwd (show_path cwd p) = p /\
  (is_absolute (show_path cwd p) = false <-> exists t, p = cwd ++ t) /\
  show_path cwd p <> [].
Proof.
  intros cwd p H. apply and_assoc. split; [revert H|].
  2: { unfold show_path. destruct (is_prefix cwd p) eqn:E; [|unfold show_abs; destruct p; discriminate].
       apply is_prefix_spec in E. destruct E as (t & ->). rewrite skipn_app, skipn_all, Nat.sub_diag. cbn [app skipn].
       apply Forall_app in H. destruct H as [_ H]. destruct t as [|x t]; [discriminate|].
       inversion H as [|? ? (N & _) _]; subst. unfold show_rel. destruct x as [|c x]; [congruence|]. destruct t; discriminate. }
  intro H. unfold show_path. destruct (is_prefix cwd p) eqn:E.
  - apply is_prefix_spec in E. destruct E as (t & ->). rewrite skipn_app, skipn_all, Nat.sub_diag. cbn [app skipn].
    apply Forall_app in H. destruct H as [_ H].
    assert (A : is_absolute (show_rel t) = false /\ parts (show_rel t) = t).
    { destruct t as [|x t]; [now split|]. unfold show_rel. split; [|now apply parts_join].
      inversion H as [|? ? (N & _ & S) _]; subst. destruct x as [|c x]; [congruence|].
      assert (Nc : N.eqb 47 c = false) by (apply N.eqb_neq; intros <-; apply S; simpl; auto).
      unfold is_absolute, startswith. destruct t; cbn -[N.eqb]; rewrite ?Nc; auto; now rewrite N.eqb_sym, Nc. }
    destruct A as [A1 A2]. unfold joinpath. rewrite A1, A2. split; auto. split; eauto.
  - assert (A : is_absolute (show_abs p) = true) by reflexivity. unfold joinpath. rewrite A. split.
    + unfold show_abs. destruct p as [|x p].
      { reflexivity. }
      assert (G : parts (slash ++ join_parts (x :: p)) = parts (join_parts (x :: p))) by reflexivity. rewrite G. now apply parts_join.
    + split; [discriminate|]. intros (t & ->). rewrite is_prefix_app in E. discriminate.
Qed.

(** ** Concrete cases *)

(** One execution: a file system, the user's answers (interrupting when there are no more), the
    content of standard input and which writes fail. *)
Fixpoint perform {R} (c : cmd R) (F : fs) (ans : list choice) (inp : str) (full : bool) : list cev * outcome R :=
  match c with
  | CRet r => ([], Returned r)
  | CFail e => ([], Raised e)
  | CPrint s t k => let (vs, o) := perform k F ans inp full in (VPrint s t :: vs, o)
  | CPrompt k => let a := match ans with [] => None | a :: _ => Some a end in
                 let (vs, o) := perform (k a) F (tl ans) inp full in (VPrompt a :: vs, o)
  | CLook k => let (vs, o) := perform (k F) F ans inp full in (VLook F :: vs, o)
  | CWrite p c k => let w := if full then Err OSError else Ok tt in
                    let (vs, o) := perform (k w) F ans inp full in (VWrite p c w :: vs, o)
  | CStdin k => let (vs, o) := perform (k (Ok inp)) F ans inp full in (VIn (Ok inp) :: vs, o)
  | CStdout c k => let (vs, o) := perform (k (Ok tt)) F ans inp full in (VOut c (Ok tt) :: vs, o)
  end.

Lemma perform_run : forall R (c : cmd R) F ans inp full, crun c (fst (perform c F ans inp full)) (snd (perform c F ans inp full)).
Proof.
  intros R c. induction c as [r|e|s t k IH|k IH|k IH|p c k IH|k IH|c k IH]; intros F ans inp full; cbn [perform]; try constructor.
  - specialize (IH F ans inp full). destruct (perform k F ans inp full). constructor. exact IH.
  - set (a := match ans with [] => None | a :: _ => Some a end). specialize (IH a F (tl ans) inp full). destruct (perform (k a) F (tl ans) inp full). constructor. exact IH.
  - specialize (IH F F ans inp full). destruct (perform (k F) F ans inp full). constructor. exact IH.
  - set (w := if full then Err OSError else Ok tt). specialize (IH w F ans inp full). destruct (perform (k w) F ans inp full). constructor. exact IH.
  - specialize (IH (Ok inp) F ans inp full). destruct (perform (k (Ok inp)) F ans inp full). constructor. exact IH.
  - specialize (IH (Ok tt) F ans inp full). destruct (perform (k (Ok tt)) F ans inp full). constructor. exact IH.
Qed.

Definition ex_cli : cli :=
  Cli [u "d"] (fun t msg p x r c l => Ok msg) (fun _ => u "{}") (fun _ => u "boom") (fun _ => u "Traceback").
Definition ex_opts : options := Options None None [] None [].
Definition ex_fix (metrics_ interactive diff : bool) (paths : list arg) : cmd N :=
  fix_ ex_cli (ex_tool false ex_rules) [u "d"; u "stdin"] ex_opts metrics_ interactive diff paths.
Definition ex_F : fs := ex_fs (code ex_module).


(** Three violations: the first fix is not taken, the second is, the third has none. *)
Example C36_example :
  let (vs, o) := perform (ex_fix false true false [PathArg ex_file]) ex_F [No; Yes] [] false in
  o = Returned 0%N /\ asked vs = [Some No; Some Yes] /\
  saved vs = [(ex_file, u "import a" ++ nl ++ u "x = f(99, 2)" ++ nl)] /\
  In (Diag, summary 1 1 2 1) (lines vs) /\ In (Std, u "a.py@1:0 B: m") (lines vs).
Proof. vm_compute. repeat split; auto 20. Qed.

Definition ex_lint (paths : list arg) : cmd N :=
  lint ex_cli (ex_tool false ex_rules) [u "d"; u "stdin"] ex_opts false false paths.

Example C35_example :
  let (vs, o) := perform (ex_lint [PathArg ex_file]) ex_F [] [] false in
  o = Returned 1%N /\ saved vs = [] /\ In (Diag, summary 1 1 2 0) (lines vs).
Proof. vm_compute. repeat split; auto 20. Qed.

(** ** What does not hold *)

(** The status 1 does not mean that there is a violation: an exception ends the command with it
    too, here [fixit lint - a b], before anything is checked. *)
Theorem C35_crash_refuted :
  ~ (forall K T d opts m diff paths vs o, crun (lint K T d opts m diff paths) vs o -> status o = Some 1%N -> lines vs <> []).
Proof.
  intro H. set (c := ex_lint [Dash; PathArg ex_file; PathArg ex_file]).
  pose proof (perform_run _ c ex_F [] [] false) as R. specialize (H _ _ _ _ _ _ _ _ _ R eq_refl). apply H. vm_compute. reflexivity.
Qed.

(** Quitting drops the fixes accepted before in the same file, but the summary counts them. *)
Theorem C36_quit_refuted :
  ~ (forall K T d opts m diff paths vs n, crun (fix_ K T d opts m true diff paths) vs (Returned 0%N) ->
       In (Diag, summary 1 1 n 1) (lines vs) -> saved vs <> []).
Proof.
  intro H. set (c := ex_fix false true false [PathArg ex_file]).
  pose proof (perform_run _ c ex_F [Yes; Quit] [] false) as R.
  refine (H _ _ _ _ _ _ _ _ 2 R _ _); vm_compute; auto 20.
Qed.

(** Nor does the summary tell whether writing succeeded: the error follows as another result, and
    the fix stays counted. *)
Theorem C36_failed_refuted :
  ~ (forall K T d opts m diff paths vs n p s, crun (fix_ K T d opts m true diff paths) vs (Returned 0%N) ->
       In (Diag, summary 1 1 n 1) (lines vs) -> ~ In (VWrite p s (Err OSError)) vs).
Proof.
  intro H. set (c := ex_fix false true false [PathArg ex_file]).
  pose proof (perform_run _ c ex_F [No; Yes] [] true) as R.
  refine (H _ _ _ _ _ _ _ _ 2 ex_file (u "import a" ++ nl ++ u "x = f(99, 2)" ++ nl) R _ _); vm_compute; auto 30.
Qed.

(** With [--diff], or with [--print-metrics], other text is on standard output before the fixed
    content. *)
Theorem C49_diff_refuted :
  ~ (forall K T d opts vs, crun (fix_ K T d opts false false true [Dash]) vs (Returned 0%N) ->
       (List.length (stdout vs) <= 1)%nat).
Proof.
  intro H. set (c := ex_fix false false true [Dash]).
  pose proof (perform_run _ c ex_F [] (code ex_module) false) as R.
  assert (N : forall vs o, crun c vs o -> o = Returned 0%N -> (List.length (stdout vs) <= 1)%nat) by (intros vs o X ->; exact (H _ _ _ _ _ X)).
  specialize (N _ _ R eq_refl). vm_compute in N. repeat (apply le_S_n in N). inversion N.
Qed.

Theorem C49_metrics_refuted :
  ~ (forall K T d opts vs, crun (fix_ K T d opts true false false [Dash]) vs (Returned 0%N) ->
       (List.length (stdout vs) <= 1)%nat).
Proof.
  intro H. set (c := ex_fix true false false [Dash]).
  pose proof (perform_run _ c ex_F [] (code ex_module) false) as R.
  assert (N : forall vs o, crun c vs o -> o = Returned 0%N -> (List.length (stdout vs) <= 1)%nat) by (intros vs o X ->; exact (H _ _ _ _ _ X)).
  specialize (N _ _ R eq_refl). vm_compute in N. repeat (apply le_S_n in N). inversion N.
Qed.

Example C49_example :
  let (vs, o) := perform (ex_fix false true false [Dash]) ex_F [] (code ex_module) false in
  o = Returned 0%N /\ asked vs = [] /\ stdout vs = [u "x = f(99, 2)" ++ nl].
Proof. vm_compute. repeat split. Qed.

Example C47_example :
  show_path [u "d"] [u "d"; u "e"; u "a.py"] = u "e/a.py" /\ show_path [u "d"] [u "f"; u "a.py"] = u "/f/a.py" /\
  summary 3 0 0 0 = bubbles ++ u " 3 files clean " ++ bubbles /\
  summary 2 1 3 1 = wrench ++ u "  2 files checked, 1 file with errors, 3 auto-fixes available, 1 fix applied " ++ wrench.
Proof. vm_compute. auto. Qed.
