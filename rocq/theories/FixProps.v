(** * C85: fixing as the user decides, and fixing standard input, with everything below *)
From Coq Require Import String List NArith ZArith Bool Arith Lia Permutation.
From Verif Require Import Base PyStr Ftypes Paths Config Collect CollectSpec CollectFacts CollectSelect CollectProps CollectTotal Suppress SuppressSpec
  SuppressProps Cst Engine EngineProps Batch BatchProps Api ApiSpec ApiFacts ApiProps ApiPaths System SystemSpec SystemProps SystemSame Session SessionSpec
  SessionFacts SessionProps Cli CliSpec CliFacts CliProps Commands CommandsSpec CommandsProps Jobs JobsSpec JobsProps FixSpec.
Import ListNotations.

(** ** Decisions *)

Lemma answers_questions : forall es, answers true (given es) = questions es.
Proof.
  intro es. unfold answers, questions, decisions. induction (given es) as [|[x a] l IH]; [reflexivity|]. cbn [flat_map fst snd]. rewrite map_app, IH. f_equal. cbn [andb].
  unfold fixable. destruct (x_violation x) as [v|]; [|reflexivity]. destruct (autofixable v); [|reflexivity]. destruct a as [[|]|]; reflexivity.
Qed.

Lemma chosen_accepted : forall es, proper true (given es) -> accepted false (given es) = chosen es.
Proof.
  intros es P. unfold accepted, chosen, decisions, proper in *. induction (given es) as [|[x a] l IH]; [reflexivity|]. cbn [flat_map fst snd].
  rewrite filter_app, map_app, IH by (intros y b I; apply P; simpl; auto). f_equal.
  destruct (P x a) as [->|(-> & _ & Fx)]; [simpl; auto| |].
  - destruct (x_violation x) as [v|]; [|reflexivity]. destruct (autofixable v); reflexivity.
  - unfold fixable in Fx. destruct (x_violation x) as [v|]; [|discriminate]. rewrite Fx. reflexivity.
Qed.

Lemma proper_app : forall i a b, proper i (a ++ b) -> proper i a /\ proper i b.
Proof. intros i a b H. split; intros x y I; apply H; apply in_or_app; auto. Qed.

Lemma answers_app : forall i a b, answers i (a ++ b) = answers i a ++ answers i b.
Proof. intros. apply flat_map_app. Qed.

Lemma file_told : forall Y p opts hook es, (forall F, fair_sets (y_world Y F)) -> proper true (given es) ->
  run (fixit_file (tool_of Y) p false opts hook) es (Returned tt) -> no_errors es -> fixed_as_told Y p opts es.
Proof.
  intros Y p opts hook es Fa Pr R Ne.
  destruct (C78_exactly _ _ _ _ _ _ Fa R Ne) as (F & content & F1 & cfg & F2 & es' & ks & E & Ef & Eg & Nd & Sel & X).
  destruct (C31_done _ _ _ _ _ _ R Ne) as (F' & content' & F1' & cfg' & F2' & rest & E' & Ef' & Eg' & D). rewrite E in E'. injection E' as <- <- <- <-.
  assert (content' = content) as -> by congruence. cbn [tool_of t_env] in Eg'. assert (cfg' = cfg) as -> by congruence. clear Ef' Eg'.
  rewrite (chosen_accepted _ Pr) in D. exists F, F1, F2, (looks es'), content, cfg. split; [rewrite E; reflexivity|]. split; auto. split; auto.
  destruct X as [[-> V]|(md & M & parts & Ep & Ew & Hp & V & Sf)].
  - left. split; [intros k S; now apply Sel in S|]. split; auto. destruct D as [[_ D]|[D _]]; [auto|].
    exfalso. apply D. destruct (chosen es) as [|v vs] eqn:Ch; auto. exfalso.
    assert (I : In v (accepted false (given es))) by (rewrite (chosen_accepted _ Pr), Ch; simpl; auto).
    unfold accepted in I. apply in_flat_map in I. destruct I as ([x a] & I & J). cbn [fst snd] in J.
    enough (In v (violations (results es))) by (rewrite V in *; contradiction). apply in_violations. exists x.
    split; [unfold results; apply in_map_iff; exists (x, a); auto|]. destruct (x_violation x) as [w|]; [|contradiction].
    destruct a as [[|]|]; try contradiction. destruct J as [->|[]]; reflexivity.
  - right. exists md, M. split; auto. split; auto. split.
    { exists ks, parts. rewrite V. auto. }
    destruct D as [D|(Nn & F3 & c & _ & Fx & D)]; auto. right. split; auto. unfold fixed_content in Fx. cbn [tool_of t_parse t_bytes t_style] in Fx.
    apply bind_ok in Fx. destruct Fx as (md0 & Ep0 & Fx). assert (md0 = md) as -> by congruence.
    apply bind_ok in Fx. destruct Fx as (up & Eap & Fx). destruct up as [md'|]; [|discriminate].
    exists F3, md', c. split; auto. split; auto. unfold formatted. destruct (c_formatter cfg) as [style|].
    + destruct (y_style Y style) as [fmt|] eqn:Es; [|discriminate]. apply bind_ok in Fx. destruct Fx as (b & Eb & Fx). eauto.
    + eauto.
Qed.

Lemma visits_told : forall Y opts hook, (forall F, fair_sets (y_world Y F)) -> forall z ps l, visits Y false opts hook z ps l ->
  proper true (given (concat (map snd l))) ->
  forall p zp es, In (p, (zp, es)) (combine ps l) -> no_errors es -> fixed_as_told (system_at Y zp) p opts es.
Proof.
  intros Y opts hook Fa z ps l H. induction H as [z|z p es ps l R _ IH]; intros Pr q zq eq_ I Ne; [contradiction|].
  cbn [map snd concat] in Pr. rewrite given_app in Pr. apply proper_app in Pr. destruct Pr as [P1 P2]. cbn [combine] in I. destruct I as [I|I].
  - injection I as <- <- <-. eapply file_told; eauto using fair_at.
  - eapply IH; eauto.
Qed.

Lemma questions_all : forall (l : list (session * list ev)), questions (concat (map snd l)) = flat_map (fun v => questions (snd v)) l.
Proof.
  induction l as [|v l IH]; [reflexivity|]. cbn [map concat flat_map]. rewrite <- IH, <- !answers_questions, given_app. apply answers_app.
Qed.

Lemma written_all : forall (l : list (session * list ev)), written (concat (map snd l)) = flat_map (fun v => written (snd v)) l.
Proof. induction l as [|v l IH]; [reflexivity|]. cbn [map concat flat_map]. now rewrite written_app, IH. Qed.

Lemma serial_plan : forall K walk d paths pl, first_is_dash paths = false -> make_plan walk d false (or_cwd K paths) = Ok pl -> exists ps, pl = Some (Serial ps).
Proof.
  intros K walk d paths pl Da P. destruct (or_cwd K paths) as [|[|p0] rest] eqn:Ea; [destruct paths; discriminate|destruct paths as [|[|] ?]; discriminate|].
  rewrite C34_files in P. apply bind_ok in P. destruct P as (found & _ & P). cbn [negb] in P. rewrite orb_true_r in P. injection P as <-. eauto.
Qed.

Lemma or_cwd_dash : forall K paths, first_is_dash paths = false -> first_is_dash (or_cwd K paths) = false.
Proof. intros K [|[|p] l] H; auto. Qed.

(** [fixit fix] (interactive) of files, run to its end by a user who does not quit: a question is asked for every violation that can be
    fixed, and nothing else; every file for which no error is reported has been fixed as the user said; nothing else is written. *)
Theorem C85_interactive : forall K Y d opts m diff paths z vs code,
  (forall F, fair_sets (y_world Y F)) -> first_is_dash paths = false ->
  crun (whole_fix K Y d opts m true diff paths z) vs (Returned code) -> ~ In (Some Quit) (asked vs) ->
  code = 0%N /\ exists F0 F ps l,
    make_plan (y_walk Y F) d false (match paths with [] => [PathArg (k_cwd K)] | _ => paths end) = Ok (Some (Serial ps)) /\
    visits Y false (Some opts) m z ps l /\ effects vs = ELook F0 :: ELook F :: api_effects (concat (map snd l)) /\
    saved vs = flat_map (fun v => written (snd v)) l /\ asked vs = flat_map (fun v => questions (snd v)) l /\
    forall p zp ep, In (p, (zp, ep)) (combine ps l) -> no_errors ep -> fixed_as_told (system_at Y zp) p (Some opts) ep.
Proof.
  intros K Y d opts m diff paths z vs code Fa Da H Q. unfold whole_fix in H. cbv zeta in H. rewrite (or_cwd_dash K _ Da) in H. cbn [andb negb] in H.
  inversion H as [| | | | |? F0 vs' ? H'| | |]; subst. destruct (generate_config _ _ _ _ _) as [cfg|e] eqn:G; [|inversion H'].
  change no_tally with (fix_state true []) in H'.
  apply (fix_sim K true diff false cfg (whole_paths Y d (or_cwd K paths) false (Some opts) m z)) in H'. destruct H' as (es & oa & rest & R & Ef & A & Pr & O).
  cbv zeta in O. cbn [asked flat_map app] in Q. fold (asked vs') in Q.
  destruct O as (-> & [(-> & -> & _)|(-> & _)]); [|exfalso; apply Q; rewrite A; apply in_or_app; simpl; auto]. split; auto. rewrite app_nil_r in A.
  unfold whole_paths in R. inversion R as [| | | |? F es' ? R'| | | |]; subst. apply run_lift in R'.
  destruct (make_plan (y_walk Y F) d false (or_cwd K paths)) as [pl|e] eqn:P; [|destruct R' as [_ [X|X]]; discriminate].
  destruct (serial_plan _ _ _ _ _ Da P) as (ps & ->). exists F0, F, ps.
  apply run_pbind in R'. destruct R' as [[X _]|[(e & X & _)|(es1 & es2 & z' & -> & R1 & R2)]]; try discriminate. inversion R2; subst. rewrite app_nil_r in *.
  apply session_visits in R1. destruct R1 as (l & Vi & ->). exists l. split; [exact P|]. split; auto.
  split; [cbn [effects flat_map app]; f_equal; exact Ef|]. split; [|split].
  - cbn [saved flat_map app]. fold (saved vs'). rewrite (effects_saved _ _ Ef). cbn [written]. apply written_all.
  - cbn [asked flat_map app]. fold (asked vs'). rewrite A, answers_questions. exact (questions_all l).
  - eapply visits_told; eauto.
Qed.

(** ** Quitting *)

Lemma fix_quit : forall K diff st cfg g xas vs o,
  crun (fix_loop K true diff st cfg g (fix_state true xas)) vs o -> In (Some Quit) (asked vs) ->
  exists es x, run g (es ++ [EGive x None]) Stopped /\ fixable x = true /\ effects vs = api_effects es /\
    asked vs = answers true (given es) ++ [Some Quit] /\ proper true (given es) /\
    forall c, o = Returned c -> c = 0%N /\
      lines vs = screen K true (if st then Diag else Std) cfg (es ++ [EGive x None]) ++
        (let t := fix_state true (xas ++ given es ++ [(x, None)]) in [splash (l_visited t) (l_dirty t) (l_autofixes t) (l_fixed t)]).
Proof.
  intros K diff st cfg g. induction g as [r|e|x k IH|k IH|q c k IH|k IH|c k IH|m k IH]; intros xas vs o H Q; cbn [fix_loop] in H.
  - unfold fix_end in H. apply run_print_all in H. destruct H as [(-> & l1 & l2 & _ & ->)|(vs' & -> & H)].
    + rewrite asked_prints in Q. contradiction.
    + rewrite asked_app, asked_prints in Q. inversion H; subst; contradiction.
  - inversion H; subst; contradiction.
  - destruct (print_result K x (true || diff) st (c_format cfg) (c_template cfg)) as [[ls b]|e] eqn:P; [|inversion H; subst; contradiction].
    apply print_item in P. destruct P as [-> ->]. cbn [orb] in *. apply run_print_all in H. destruct H as [(-> & l1 & l2 & _ & ->)|(vs' & -> & H)].
    { rewrite asked_prints in Q. contradiction. }
    rewrite asked_app, asked_prints in Q. rewrite effects_app, effects_prints, lines_app, lines_prints, asked_app, asked_prints. cbn [app] in *.
    change (is_fixable x) with (fixable x) in H.
    assert (Go : forall a vs'', proper true [(x, a)] ->
       crun (fix_loop K true diff st cfg (k a) (fix_step true (fix_state true xas) (x, a))) vs'' o -> In (Some Quit) (asked vs'') ->
       asked vs' = answers true [(x, a)] ++ asked vs'' -> effects vs' = effects vs'' -> lines vs' = lines vs'' ->
       exists es x0, run (Give x k) (es ++ [EGive x0 None]) Stopped /\ fixable x0 = true /\ effects vs' = api_effects es /\
         asked vs' = answers true (given es) ++ [Some Quit] /\ proper true (given es) /\
         forall c, o = Returned c -> c = 0%N /\
           item K true (if st then Diag else Std) cfg x ++ lines vs' = screen K true (if st then Diag else Std) cfg (es ++ [EGive x0 None]) ++
             (let t := fix_state true (xas ++ given es ++ [(x0, None)]) in [splash (l_visited t) (l_dirty t) (l_autofixes t) (l_fixed t)])).
    { intros a vs'' Pa C Qa A1 A2 A3. rewrite A1, A2, A3.
      replace (fix_step true (fix_state true xas) (x, a)) with (fix_state true (xas ++ [(x, a)])) in C by (unfold fix_state; now rewrite fold_left_app).
      destruct (IH a _ _ _ C Qa) as (es & x0 & R & Fx & E & A & Pr & L). exists (EGive x a :: es), x0. cbn [app]. split; [now constructor|]. split; auto.
      split; [exact E|]. split; [cbn [given answers flat_map]; rewrite A, app_nil_r, <- app_assoc; reflexivity|]. split.
      { cbn [given]. intros y b0 [I|I]; [apply Pa; left; exact I|now apply Pr]. }
      intros c Ec. destruct (L c Ec) as (-> & Ls). split; auto. rewrite Ls. cbn [given screen flat_map]. rewrite <- !app_assoc. cbn [app]. reflexivity. }
    cbn [andb] in H. destruct (fixable x) eqn:Fx.
    + inversion H as [| | | |? a vs'' ? H'| | | |]; subst; [contradiction|]. cbn [asked flat_map app] in *. fold (asked vs'') in *.
      destruct a as [[| |]|].
      * apply (Go (Some true) vs''); [intros y b0 [I|[]]; injection I as <- <-; auto| | | | |]; cbn [effects lines flat_map app answers andb fst snd]; rewrite ?Fx; auto.
        { unfold fix_step. cbn [fst snd andb]. rewrite Fx. exact H'. }
        { destruct Q as [Q|Q]; [discriminate|exact Q]. }
      * apply (Go None vs''); [intros y b0 [I|[]]; injection I as <- <-; auto| | | | |]; cbn [effects lines flat_map app answers andb fst snd]; rewrite ?Fx; auto.
        { unfold fix_step. cbn [fst snd andb]. rewrite Fx. exact H'. }
        { destruct Q as [Q|Q]; [discriminate|exact Q]. }
      * exists [], x. cbn [app given]. split; [constructor; constructor|]. split; auto. unfold fix_end in H'. apply run_print_all in H'.
        cbn [effects lines flat_map app]. fold (effects vs'') (lines vs'').
        destruct H' as [(-> & l1 & l2 & _ & ->)|(vs3 & -> & H')].
        { rewrite effects_prints, asked_prints. split; auto. split; auto. split; [intros ? ? []|discriminate]. }
        rewrite effects_app, effects_prints, asked_app, asked_prints, lines_app, lines_prints.
        inversion H'; subst; (split; [reflexivity|]); (split; [reflexivity|]); (split; [intros ? ? []|]); intros c Ec; [discriminate|].
        injection Ec as <-. cbn [screen flat_map app]. rewrite !app_nil_r.
        assert (St : fix_state true (xas ++ [(x, None)]) = offered (fix_tally (negb true) (fix_state true xas) x (dirty x))).
        { unfold fix_state at 1. rewrite fold_left_app. cbn [fold_left]. unfold fix_step. cbn [fst snd andb]. rewrite Fx. reflexivity. }
        split; [|cbv zeta; rewrite St; reflexivity].
        destruct (fix_state_spec true (xas ++ [(x, None)])) as (_ & _ & _ & X & _). rewrite St in X. exact X.
      * inversion H'; subst; destruct Q as [Q|[]]; discriminate.
    + apply (Go None vs'); [intros y b0 [I|[]]; injection I as <- <-; auto| | | | |]; cbn [answers flat_map andb fst snd app]; rewrite ?Fx; auto.
      unfold fix_step. cbn [fst snd andb]. rewrite Fx. exact H.
  - inversion H as [| | | | |? F vs' ? H'| | |]; subst; [contradiction|]. destruct (IH F _ _ _ H' Q) as (es & x & R & Fx & E & A & Pr & L).
    exists (ELook F :: es), x. cbn [app]. split; [now constructor|]. split; auto. split; [cbn [effects flat_map app api_effects filter]; f_equal; exact E|]. auto.
  - inversion H as [| | | | | |? ? ? w vs' ? H'| |]; subst; [contradiction|]. destruct (IH w _ _ _ H' Q) as (es & x & R & Fx & E & A & Pr & L).
    exists (EWrite q c w :: es), x. cbn [app]. split; [now constructor|]. split; auto. split; [cbn [effects flat_map app api_effects filter]; f_equal; exact E|]. auto.
  - inversion H as [| | | | | | |? i vs' ? H'|]; subst; [contradiction|]. destruct (IH i _ _ _ H' Q) as (es & x & R & Fx & E & A & Pr & L).
    exists (EIn i :: es), x. cbn [app]. split; [now constructor|]. split; auto. split; [cbn [effects flat_map app api_effects filter]; f_equal; exact E|]. auto.
  - inversion H as [| | | | | | | |? ? w vs' ? H']; subst; [contradiction|]. destruct (IH w _ _ _ H' Q) as (es & x & R & Fx & E & A & Pr & L).
    exists (EOut c w :: es), x. cbn [app]. split; [now constructor|]. split; auto. split; [cbn [effects flat_map app api_effects filter]; f_equal; exact E|]. auto.
  - inversion H as [| | |? ? ? vs' ? H'| | | | |]; subst; [contradiction|]. destruct (IH (Ok tt) _ _ _ H' Q) as (es & x & R & Fx & E & A & Pr & L).
    exists (ECall m (Ok tt) :: es), x. cbn [app]. split; [now constructor|]. split; auto. split; [exact E|]. split; auto. split; auto.
    intros c Ec. destruct (L c Ec) as (-> & Ls). split; auto. cbn [lines flat_map app screen]. f_equal. exact Ls.
Qed.

(** Where a session is interrupted. *)
Lemma run_pbind_stopped : forall A B (p : prog A) (f : A -> prog B) es, run (pbind p f) es Stopped ->
  run p es Stopped \/ exists es1 es2 r, es = es1 ++ es2 /\ run p es1 (Returned r) /\ run (f r) es2 Stopped.
Proof. intros A B p f es H. apply run_pbind in H. destruct H as [[_ H]|[(e & X & _)|H]]; [auto|discriminate|auto]. Qed.

Lemma stop_later : forall A (p : prog A) es o, run p es o -> run p es Stopped.
Proof. intros A p es o H. induction H; constructor; auto. Qed.

Lemma session_until : forall Y autofix opts hook ps z es x, run (in_session Y ps autofix opts hook z) (es ++ [EGive x None]) Stopped ->
  exists ps1 p ps2 l es1, ps = ps1 ++ p :: ps2 /\ visits Y autofix opts hook z ps1 l /\ es = concat (map snd l) ++ es1 /\
    run (fixit_file (tool_of (system_at Y (reached Y opts z ps1 l))) p autofix opts hook) (es1 ++ [EGive x None]) Stopped.
Proof.
  intros Y autofix opts hook. induction ps as [|p ps IH]; intros z es x H; cbn [in_session] in H.
  - inversion H as [? A B C| | | | | | | |]. destruct es; discriminate.
  - apply run_pbind_stopped in H. destruct H as [H|(es1 & es2 & [[] seen] & E & H1 & H2)].
    + apply track_run in H. exists [], p, ps, [], es. repeat split; auto. constructor.
    + apply track_run in H1. destruct H1 as [H1 ->]. cbn [app snd] in H2. destruct es2 as [|e2 es2] using rev_ind.
      * rewrite app_nil_r in E. subst es1. exists [], p, ps, [], es. split; [reflexivity|]. split; [constructor|]. split; [reflexivity|]. eapply stop_later; eauto.
      * clear IHes2. rewrite app_assoc in E. apply app_inj_tail in E. destruct E as [-> <-].
        destruct (IH _ _ _ H2) as (ps1 & q & ps2 & l & es3 & -> & Vi & -> & R). exists (p :: ps1), q, ps2, ((z, es1) :: l), es3.
        split; [reflexivity|]. split; [now constructor|]. split; [cbn [map concat snd]; now rewrite app_assoc|exact R].
Qed.

Lemma quit_unwritten : forall T p opts hook es x a o, run (fixit_file T p false opts hook) (es ++ [EGive x a]) o -> fixable x = true -> written es = [].
Proof.
  intros T p opts hook es x a o R Fx. destruct (C31_writes _ _ _ _ _ _ _ R) as (_ & _ & [W|(F & content & F1 & cfg & es1 & c & w & es2 & acc & E & A)]).
  - rewrite written_app in W. now apply app_eq_nil in W.
  - exfalso. destruct A as (_ & _ & _ & _ & _ & _ & _ & _ & _ & _ & Oe). destruct es2 as [|e2 es2] using rev_ind.
    + change (ELook F :: ELook F1 :: es1 ++ [EWrite p c w]) with ((ELook F :: ELook F1 :: es1) ++ [EWrite p c w]) in E. apply app_inj_tail in E. destruct E; discriminate.
    + change (ELook F :: ELook F1 :: es1 ++ EWrite p c w :: es2 ++ [e2]) with ((ELook F :: ELook F1 :: es1) ++ (EWrite p c w :: es2) ++ [e2]) in E.
      rewrite app_assoc in E. apply app_inj_tail in E. destruct E as [_ <-]. destruct Oe as (_ & _ & Oe).
      destruct w as [[]|e]; [destruct es2; discriminate|]. destruct Oe as [Oe|(a' & Oe)]; [destruct es2; discriminate|].
      destruct es2 as [|? [|? ?]]; [|discriminate|discriminate]. injection Oe as -> _. discriminate.
Qed.

(** Quitting: the files before are as in C85_interactive, nothing of the file at hand is written, and the files after it are left alone. *)
Theorem C85_quit : forall K Y d opts m diff paths z vs o,
  (forall F, fair_sets (y_world Y F)) -> first_is_dash paths = false ->
  crun (whole_fix K Y d opts m true diff paths z) vs o -> In (Some Quit) (asked vs) ->
  exists F0 F ps1 p ps2 l es x cfg visited dirty_,
    make_plan (y_walk Y F) d false (match paths with [] => [PathArg (k_cwd K)] | _ => paths end) = Ok (Some (Serial (ps1 ++ p :: ps2))) /\
    visits Y false (Some opts) m z ps1 l /\
    run (fixit_file (tool_of (system_at Y (reached Y (Some opts) z ps1 l))) p false (Some opts) m) (es ++ [EGive x None]) Stopped /\ fixable x = true /\
    effects vs = ELook F0 :: ELook F :: api_effects (concat (map snd l) ++ es) /\
    saved vs = flat_map (fun v => written (snd v)) l /\
    asked vs = flat_map (fun v => questions (snd v)) l ++ questions es ++ [Some Quit] /\
    (forall q zq eq_, In (q, (zq, eq_)) (combine ps1 l) -> no_errors eq_ -> fixed_as_told (system_at Y zq) q (Some opts) eq_) /\
    let es0 := concat (map snd l) ++ es ++ [EGive x None] in
    generate_config (y_env Y) F0 (k_cwd K) None (Some opts) = Ok cfg /\
    distinct_paths any (results es0) visited /\ distinct_paths dirty (results es0) dirty_ /\
    forall c, o = Returned c -> c = 0%N /\
      lines vs = screen K true Std cfg es0 ++
        [(Diag, summary (List.length visited) (List.length dirty_) (List.length (asked vs)) (List.length (filter is_yes (asked vs))))].
Proof.
  intros K Y d opts m diff paths z vs o Fa Da H Q. unfold whole_fix in H. cbv zeta in H. rewrite (or_cwd_dash K _ Da) in H. cbn [andb negb] in H.
  inversion H as [| | | | |? F0 vs' ? H'| | |]; subst; [contradiction|]. destruct (generate_config _ _ _ _ _) as [cfg|e] eqn:G; [|inversion H'; subst; contradiction].
  change no_tally with (fix_state true []) in H'. cbn [asked flat_map app] in Q. fold (asked vs') in Q.
  apply (fix_quit K diff false cfg (whole_paths Y d (or_cwd K paths) false (Some opts) m z)) in H'; auto. destruct H' as (es & x & R & Fx & Ef & A & Pr & L).
  unfold whole_paths in R. destruct es as [|e0 es]; cbn [app] in R; [inversion R|]. inversion R as [| | | |? F es' ? R'| | | |]; subst. apply run_lift in R'.
  destruct (make_plan (y_walk Y F) d false (or_cwd K paths)) as [pl|e] eqn:P; [|destruct R' as [X _]; destruct es; discriminate].
  destruct (serial_plan _ _ _ _ _ Da P) as (ps & ->).
  assert (R1 : run (in_session Y ps false (Some opts) m z) (es ++ [EGive x None]) Stopped).
  { apply run_pbind_stopped in R'. destruct R' as [R'|(es1 & es2 & r & E & R1 & R2)]; auto. inversion R2; subst. rewrite app_nil_r in E. rewrite E. eapply stop_later; eauto. }
  apply session_until in R1. destruct R1 as (ps1 & p & ps2 & l & es1 & -> & Vi & -> & R1).
  set (es0 := concat (map snd l) ++ es1 ++ [EGive x None]).
  exists F0, F, ps1, p, ps2, l, es1, x, cfg, (set_of any (results es0)), (set_of dirty (results es0)).
  split; [exact P|]. split; auto. split; auto. split; auto. split; [cbn [effects flat_map app]; f_equal; exact Ef|]. cbn [given] in *.
  rewrite given_app in Pr. apply proper_app in Pr. destruct Pr as [Pr _]. split; [|split; [|split]].
  - cbn [saved flat_map app]. fold (saved vs'). rewrite (effects_saved _ _ Ef). cbn [written]. rewrite written_app, (quit_unwritten _ _ _ _ _ _ _ _ R1 Fx), app_nil_r.
    apply written_all.
  - cbn [asked flat_map app]. fold (asked vs'). rewrite A, given_app, answers_app, !answers_questions, questions_all. now rewrite <- app_assoc.
  - eapply visits_told; eauto.
  - cbv zeta. split; auto. split; [apply set_of_distinct|]. split; [apply set_of_distinct|]. intros c Ec. destruct (L c Ec) as (-> & Ls). split; auto.
    cbn [lines asked flat_map app]. fold (lines vs') (asked vs'). rewrite Ls. cbv zeta. cbn [app]. rewrite splash_summary.
    replace (given (concat (map snd l) ++ es1) ++ [(x, None)]) with (given es0) by (unfold es0; rewrite !given_app, <- app_assoc; reflexivity).
    destruct (fix_state_spec true (given es0)) as (S1 & S2 & S3 & _ & S5). rewrite S1, S2, S3, S5. f_equal.
    + unfold es0. cbn [screen flat_map app]. rewrite <- app_assoc. reflexivity.
    + assert (Nu : answers true (given es0) = answers true (given (concat (map snd l) ++ es1)) ++ [Some No]).
      { unfold es0. rewrite app_assoc, (given_app (_ ++ es1)), answers_app. f_equal. unfold answers. cbn [given flat_map fst snd andb]. rewrite Fx. reflexivity. }
      f_equal. f_equal. unfold results, number in *. f_equal.
      * assert (Nn : forall xas, List.length (filter fixable (map fst xas)) = List.length (answers true xas)).
        { induction xas as [|[y b] xas IH]; [reflexivity|]. change ((y, b) :: xas) with ([(y, b)] ++ xas). rewrite answers_app, app_length, <- IH.
          cbn [map fst filter app answers flat_map andb]. destruct (fixable y); reflexivity. }
        rewrite Nn, Nu, A, !app_length. reflexivity.
      * rewrite Nu, A, !filter_app. reflexivity.
Qed.

(** ** What is displayed *)

(** What [fixit fix] of files displays, when it is not quit: every result in the order of the files, in the format configured for the current
    directory, and a summary. *)
Theorem C85_screen : forall K Y d opts m interactive diff paths z vs code,
  first_is_dash paths = false ->
  crun (whole_fix K Y d opts m interactive diff paths z) vs (Returned code) -> ~ In (Some Quit) (asked vs) ->
  exists F0 F cfg ps l visited dirty_,
    generate_config (y_env Y) F0 (k_cwd K) None (Some opts) = Ok cfg /\
    make_plan (y_walk Y F) d false (match paths with [] => [PathArg (k_cwd K)] | _ => paths end) = Ok (Some (Serial ps)) /\
    visits Y (negb interactive) (Some opts) m z ps l /\ effects vs = ELook F0 :: ELook F :: api_effects (concat (map snd l)) /\
    let es := concat (map snd l) in
    distinct_paths any (results es) visited /\ distinct_paths dirty (results es) dirty_ /\
    let n := List.length (filter fixable (results es)) in
    lines vs = screen K (interactive || diff) Std cfg es ++
      [(Diag, summary (List.length visited) (List.length dirty_) n (if interactive then List.length (filter is_yes (asked vs)) else n))].
Proof.
  intros K Y d opts m interactive diff paths z vs code Da H Q. unfold whole_fix in H. cbv zeta in H. rewrite (or_cwd_dash K _ Da) in H. cbn [negb] in H.
  rewrite andb_true_r in H.
  inversion H as [| | | | |? F0 vs' ? H'| | |]; subst. destruct (generate_config _ _ _ _ _) as [cfg|e] eqn:G; [|inversion H'].
  change no_tally with (fix_state interactive []) in H'.
  apply (fix_sim K interactive diff false cfg (whole_paths Y d (or_cwd K paths) (negb interactive) (Some opts) m z)) in H'. destruct H' as (es & oa & rest & R & Ef & A & Pr & O).
  cbv zeta in O. cbn [asked flat_map app] in Q. fold (asked vs') in Q.
  destruct O as (-> & [(-> & -> & L)|(-> & _)]); [|exfalso; apply Q; rewrite A; apply in_or_app; simpl; auto]. rewrite app_nil_r in A.
  unfold whole_paths in R. inversion R as [| | | |? F es' ? R'| | | |]; subst. apply run_lift in R'.
  destruct (make_plan (y_walk Y F) d false (or_cwd K paths)) as [pl|e] eqn:P; [|destruct R' as [_ [X|X]]; discriminate].
  destruct (serial_plan _ _ _ _ _ Da P) as (ps & ->).
  apply run_pbind in R'. destruct R' as [[X _]|[(e & X & _)|(es1 & es2 & z' & -> & R1 & R2)]]; try discriminate. inversion R2; subst. rewrite app_nil_r in *.
  apply session_visits in R1. destruct R1 as (l & Vi & ->). set (es := concat (map snd l)) in *.
  exists F0, F, cfg, ps, l, (set_of any (results es)), (set_of dirty (results es)). split; auto. split; [exact P|]. split; auto.
  split; [cbn [effects flat_map app]; f_equal; exact Ef|]. cbv zeta. fold es. split; [apply set_of_distinct|]. split; [apply set_of_distinct|].
  cbn [app given] in *. destruct (fix_state_spec interactive (given es)) as (S1 & S2 & S3 & _ & S5).
  cbn [lines asked flat_map app]. fold (lines vs') (asked vs'). rewrite L, splash_summary, S1, S2, S3, S5, A. unfold number, results. destruct interactive; reflexivity.
Qed.

(** ** Standard input *)

Opaque fixit_bytes.
Lemma stdin_run : forall T p opts hook es, run (fixit_stdin T p true opts hook) es (Returned tt) -> no_errors es ->
  exists content F cfg es1 r, let c := match r with Some ((_ :: _) as c) => c | _ => content end in
    es = EIn (Ok content) :: ELook F :: es1 ++ [EOut c (Ok tt)] /\ generate_config (t_env T) F p None opts = Ok cfg /\
    run (fixit_bytes T p content cfg true hook) es1 (Returned r).
Proof.
  intros T p opts hook es H Ne. unfold fixit_stdin in H. apply run_catch in H.
  destruct H as [[X _]|[([] & _ & H)|(es1 & es2 & e & -> & _ & H2)]]; [discriminate| |].
  - inversion H as [| | | | | |? i es' ? H'| |]; subst. apply run_lift in H'. destruct i as [content|e]; [|destruct H' as [_ [X|X]]; discriminate].
    inversion H' as [| | | |? F es1 ? H1| | | |]; subst. apply run_lift in H1.
    destruct (generate_config (t_env T) F p None opts) as [cfg|e] eqn:Eg; [|destruct H1 as [_ [X|X]]; discriminate].
    apply run_pbind in H1. destruct H1 as [[X _]|[(e & X & _)|(es2 & es3 & r & -> & H2 & H3)]]; try discriminate.
    inversion H3 as [| | | | | | |? ? w es4 ? H4|]; subst. apply run_lift in H4. destruct w as [[]|e]; [|destruct H4 as [_ [X|X]]; discriminate].
    inversion H4; subst. exists content, F, cfg, es2, r. cbv zeta. auto.
  - exfalso. inversion H2 as [| | |? ? a es3 ? H3| | | | |]; subst. inversion H3; subst.
    enough (x_error (error_result p e) = None) by discriminate. apply Ne. rewrite results_app. apply in_or_app. right. simpl. auto.
Qed.

Transparent fixit_bytes.

Lemma report_violations : forall p vs, violations (report_of p vs None) = vs.
Proof.
  intros p vs. unfold report_of, violations. rewrite flat_map_app. replace (flat_map _ (match vs with [] => _ | _ => _ end)) with (@nil viol) by (destruct vs; reflexivity).
  rewrite app_nil_r. induction vs as [|v vs IH]; [reflexivity|]. cbn [map flat_map x_violation app]. now f_equal.
Qed.

Lemma stdin_fixed : forall Y p opts hook es, (forall F, fair_sets (y_world Y F)) ->
  run (fixit_stdin (tool_of Y) p true opts hook) es (Returned tt) -> no_errors es -> exists c, printed es = [c] /\ fixed_text Y p opts es c.
Proof.
  intros Y p opts hook es Fa R Ne. destruct (stdin_run _ _ _ _ _ R Ne) as (content & F & cfg & es1 & r & E). cbv zeta in E.
  set (c := match r with Some ((_ :: _) as c) => c | _ => content end) in *. destruct E as (-> & Eg & R1). exists c.
  pose proof R1 as R2. apply bytes_run in R2. destruct R2 as [Qu [[_ X]|(F2 & es' & -> & R2)]]; [discriminate|].
  split. { cbn [printed]. change (ELook F2 :: es') with ([ELook F2] ++ es'). cbn [app]. apply quiet_printed in Qu. cbn [printed] in Qu |- *.
           assert (X : forall a b, printed (a ++ b) = printed a ++ printed b).
           { clear. induction a as [|e a IH]; intro b; [reflexivity|]. destruct e; cbn [app printed]; rewrite ?IH; reflexivity. }
           rewrite X, Qu. reflexivity. }
  destruct (lint_of (tool_of Y) F2 p content cfg) as [vs err] eqn:L. cbv zeta in R2. destruct R2 as (err' & Rr & R2).
  assert (err' = None) as ->.
  { destruct err' as [e|]; auto. exfalso. enough (x_error (Result p None (Some e)) = None) by discriminate. apply Ne.
    change (results (EIn (Ok content) :: ELook F :: (ELook F2 :: es') ++ [EOut c (Ok tt)])) with (results ((ELook F2 :: es') ++ [EOut c (Ok tt)])).
    rewrite results_app. apply in_or_app. left. rewrite Rr. unfold report_of. apply in_or_app. right. simpl. auto. }
  destruct R2 as [-> R2]. rewrite accepted_all, Rr, report_violations in R2.
  apply lint_exact in L. destruct L as (ks & d & s & Ec & L). destruct (selected_in _ _ _ _ _ _ (Fa F2) Ec) as [Nd Sel].
  exists content, F, F2, (looks (es' ++ [EOut c (Ok tt)])), cfg, (ELook F :: (ELook F2 :: es') ++ [EOut c (Ok tt)]).
  split; [reflexivity|]. split; [reflexivity|]. split; auto.
  destruct L as [[-> ->]|(md & M & parts & Ep & Ew & Hp & Ev & Sf)].
  - left. split; [intros k S; now apply Sel in S|]. subst r. reflexivity.
  - right. exists md, M, vs. split; auto. split; auto. split; [exists ks, parts; auto|]. destruct vs as [|v vs0]; [left; split; auto; subst r; reflexivity|].
    right. split; [discriminate|]. destruct R2 as (F3 & b & _ & Fx & ->). unfold fixed_content in Fx. cbn [tool_of t_parse t_bytes t_style] in Fx.
    apply bind_ok in Fx. destruct Fx as (md0 & Ep0 & Fx). assert (md0 = md) as -> by congruence.
    apply bind_ok in Fx. destruct Fx as (up & Eap & Fx). destruct up as [md'|]; [|discriminate].
    exists F3, md', b. split; auto. split.
    { unfold formatted. destruct (c_formatter cfg) as [style|]; [|eauto].
      destruct (y_style Y style) as [fmt|] eqn:Es; [|discriminate]. apply bind_ok in Fx. destruct Fx as (b0 & Eb & Fx). eauto. }
    subst c. destruct b; [left; auto|right; split; [discriminate|auto]].
Qed.

Lemma stdin_plan : forall walk d rest pl, make_plan walk d false (Dash :: rest) = Ok pl ->
  pl = Some (Input (match rest with PathArg q :: _ => q | _ => d end)).
Proof.
  intros walk d rest pl P. rewrite C34_stdin in P. destruct rest as [|x more]; [now injection P as <-|].
  destruct (flat_map named more); [|discriminate]. injection P as <-. now destruct x.
Qed.

Lemma nocall_whole : forall Y d rest opts z, nocall (whole_paths Y d (Dash :: rest) true opts false z).
Proof.
  intros Y d rest opts z. unfold whole_paths. cbn [nocall]. intro F. destruct (make_plan (y_walk Y F) d false (Dash :: rest)) as [pl|e] eqn:P; [|exact Logic.I].
  cbn [lift]. rewrite (stdin_plan _ _ _ _ P). apply nocall_stdin.
Qed.

(** [fixit fix -], run to its end: no file is written, nothing is asked, and if no error is reported, then what arrives on standard output is
    exactly the fixed text. The reports go to the other stream. *)
Theorem C85_stdin : forall K Y d opts interactive rest z vs code,
  (forall F, fair_sets (y_world Y F)) ->
  crun (whole_fix K Y d opts false interactive false (Dash :: rest) z) vs (Returned code) ->
  code = 0%N /\ saved vs = [] /\ asked vs = [] /\
  let p := match rest with PathArg q :: _ => q | _ => d end in
  exists F0 F cfg es visited dirty_,
    generate_config (y_env Y) F0 (k_cwd K) None (Some opts) = Ok cfg /\
    run (fixit_stdin (tool_of (system_at Y z)) p true (Some opts) false) es (Returned tt) /\
    effects vs = ELook F0 :: ELook F :: api_effects es /\
    distinct_paths any (results es) visited /\ distinct_paths dirty (results es) dirty_ /\
    (let n := List.length (filter fixable (results es)) in
     lines vs = screen K false Diag cfg es ++ [(Diag, summary (List.length visited) (List.length dirty_) n n)]) /\
    (no_errors es -> exists c, stdout vs = [c] /\ fixed_text (system_at Y z) p (Some opts) es c).
Proof.
  intros K Y d opts interactive rest z vs code Fa H. unfold whole_fix in H. cbv zeta in H. cbn [or_cwd first_is_dash negb] in H. rewrite andb_false_r in H. cbn [negb] in H.
  inversion H as [| | | | |? F0 vs' ? H'| | |]; subst. destruct (generate_config _ _ _ _ _) as [cfg|e] eqn:G; [|inversion H'].
  change (crun (fix_loop K false false true cfg (whole_paths Y d (Dash :: rest) true (Some opts) false z) no_tally) vs' (Returned code)) in H'.
  pose proof (auto_asked _ _ _ _ _ _ _ _ H') as Aa. pose proof (fix_quiet _ _ _ _ _ _ (nocall_whole _ _ _ _ _) H') as Qt.
  change no_tally with (fix_state false []) in H'. clear H. remember (Dash :: rest) as paths eqn:Ed.
  assert (Sp : forall walk pl, make_plan walk d false paths = Ok pl -> pl = Some (Input (match rest with PathArg q :: _ => q | _ => d end))).
  { rewrite Ed. intros walk pl. apply stdin_plan. }
  clear Ed.
  apply (fix_sim K false false true cfg (whole_paths Y d paths true (Some opts) false z)) in H'. destruct H' as (es & oa & rest' & R & Ef & A & Pr & O).
  cbv zeta in O. destruct O as (-> & [(-> & -> & L)|(_ & _ & X & _)]); [|discriminate]. split; auto.
  unfold whole_paths in R. inversion R as [| | | |? F es' ? R'| | | |]; subst. apply run_lift in R'.
  destruct (make_plan (y_walk Y F) d false paths) as [pl|e] eqn:P; [|destruct R' as [_ [X|X]]; discriminate]. rewrite (Sp _ _ P) in R'.
  set (p := match rest with PathArg q :: _ => q | _ => d end) in *.
  split. { cbn [saved flat_map app]. fold (saved vs'). rewrite (effects_saved _ _ Ef). cbn [written]. apply C32_stdin in R'. tauto. }
  split; [exact Aa|]. cbv zeta. exists F0, F, cfg, es', (set_of any (results es')), (set_of dirty (results es')). split; auto. split; auto.
  split; [cbn [effects flat_map app]; f_equal; exact Ef|]. split; [apply set_of_distinct|]. split; [apply set_of_distinct|]. split.
  - cbn [app given] in L. destruct (fix_state_spec false (given es')) as (S1 & S2 & S3 & _ & S5).
    cbn [lines flat_map app]. fold (lines vs'). rewrite L, splash_summary, S1, S2, S3, S5. reflexivity.
  - intro Ne. destruct (stdin_fixed _ _ _ _ _ (fair_at Y Fa z) R' Ne) as (c & Pc & Fx). exists c. split; auto.
    cbn [stdout flat_map app]. fold (stdout vs'). rewrite (stdout_lines _ Qt), Ef. rewrite <- Pc. clear.
    change (printed (api_effects (ELook F :: es'))) with (printed (api_effects es')).
    induction es' as [|[] es IH]; cbn [api_effects filter printed] in *; auto; f_equal; exact IH.
Qed.

(** ** Concrete cases *)

(** Two files of a project whose rule proposes a fix: the first is accepted, the second is not; quitting at the second; a text. *)
Definition ask (paths : list arg) (F : fs) (l : list choice) : list cev * outcome N :=
  perform (whole_fix ex_cli (system2 (u "rules") (u "rules")) [u "d"; u "stdin"] ex_opts false true false paths session0) F l [] false.
Definition a_y : path := [u "a"; u "y.py"].

Definition type_in (rest : list arg) (text : str) : list cev * outcome N :=
  perform (whole_fix ex_cli (system2 (u "rules") (u "rules")) [u "d"; u "stdin"] ex_opts false true false (Dash :: rest) session0) fs3 [] text false.

Example C85_example :
  let (vs1, o1) := ask [PathArg x_py; PathArg a_y] fs3 [Yes; No] in
  let (vs2, o2) := ask [PathArg x_py; PathArg a_y] fs3 [Yes; Quit] in
  let (vs3, o3) := ask [PathArg x_py; PathArg a_y] fs3 [No; Yes] in
  let (vs4, o4) := type_in [PathArg x_py] text0 in
  o1 = Returned 0%N /\ asked vs1 = [Some Yes; Some No] /\ map fst (saved vs1) = [x_py] /\ ~ In (Some Quit) (asked vs1) /\
  o2 = Returned 0%N /\ asked vs2 = [Some Yes; Some Quit] /\ map fst (saved vs2) = [x_py] /\ In (Some Quit) (asked vs2) /\
  o3 = Returned 0%N /\ map fst (saved vs3) = [a_y] /\
  o4 = Returned 0%N /\ saved vs4 = [] /\ List.length (stdout vs4) = 1 /\ stdout vs4 <> [text0] /\ List.length (lines vs4) = 2 /\
  (forall F, fair_sets (y_world (system2 (u "rules") (u "rules")) F)).
Proof. vm_compute. repeat split; auto; try discriminate; intuition discriminate. Qed.
