(** * Facts about executions of the API *)
From Coq Require Import String List NArith Bool Arith Lia.
From Verif Require Import Base PyStr Ftypes Paths Config Suppress Cst Engine EngineProps Api ApiSpec.
Import ListNotations.

Lemma given_app : forall a b, given (a ++ b) = given a ++ given b.
Proof. induction a as [|[] a IH]; intro b; cbn [app given]; rewrite ?IH; auto. Qed.
Lemma results_app : forall a b, results (a ++ b) = results a ++ results b.
Proof. intros. unfold results. now rewrite given_app, map_app. Qed.
Lemma written_app : forall a b, written (a ++ b) = written a ++ written b.
Proof. induction a as [|[] a IH]; intro b; cbn [app written]; rewrite ?IH; auto. Qed.
Lemma printed_app : forall a b, printed (a ++ b) = printed a ++ printed b.
Proof. induction a as [|[] a IH]; intro b; cbn [app printed]; rewrite ?IH; auto. Qed.
Lemma accepted_app : forall f a b, accepted f (a ++ b) = accepted f a ++ accepted f b.
Proof. intros. unfold accepted. apply flat_map_app. Qed.

(** ** Executions of composed generators *)

Lemma run_stopped_nil : forall R (p : prog R) o, run p [] o ->
  o = Stopped \/ (exists r, p = Ret r /\ o = Returned r) \/ (exists e, p = Raise e /\ o = Raised e).
Proof. intros R p o H. inversion H; subst; eauto 6. Qed.

Lemma run_catch : forall R (p : prog R) h es o, run (catch p h) es o ->
  (o = Stopped /\ run p es Stopped) \/ (exists r, o = Returned r /\ run p es (Returned r)) \/
  (exists es1 es2 e, es = es1 ++ es2 /\ run p es1 (Raised e) /\ run (h e) es2 o).
Proof.
  intros R p h. induction p as [r|e|x k IH|k IH|q c k IH|k IH|c k IH|m k IH]; intros es o H; cbn [catch] in H.
  - inversion H; subst; [left|right;left]; eauto using @run.
  - right. right. exists [], es, e. repeat split; auto using @run.
  - inversion H as [| | |? ? a es' ? H'| | | | |]; subst; [left; auto using @run|].
    destruct (IH a _ _ H') as [[-> K]|[(r & -> & K)|(es1 & es2 & e & -> & K & L)]];
      [left|right;left|right;right]; eauto using @run. exists (EGive x a :: es1), es2, e. auto using @run.
  - inversion H as [| | | |? F es' ? H'| | | |]; subst; [left; auto using @run|].
    destruct (IH F _ _ H') as [[-> K]|[(r & -> & K)|(es1 & es2 & e & -> & K & L)]];
      [left|right;left|right;right]; eauto using @run. exists (ELook F :: es1), es2, e. auto using @run.
  - inversion H as [| | | | |? ? ? w es' ? H'| | |]; subst; [left; auto using @run|].
    destruct (IH w _ _ H') as [[-> K]|[(r & -> & K)|(es1 & es2 & e & -> & K & L)]];
      [left|right;left|right;right]; eauto using @run. exists (EWrite q c w :: es1), es2, e. auto using @run.
  - inversion H as [| | | | | |? i es' ? H'| |]; subst; [left; auto using @run|].
    destruct (IH i _ _ H') as [[-> K]|[(r & -> & K)|(es1 & es2 & e & -> & K & L)]];
      [left|right;left|right;right]; eauto using @run. exists (EIn i :: es1), es2, e. auto using @run.
  - inversion H as [| | | | | | |? ? w es' ? H'|]; subst; [left; auto using @run|].
    destruct (IH w _ _ H') as [[-> K]|[(r & -> & K)|(es1 & es2 & e & -> & K & L)]];
      [left|right;left|right;right]; eauto using @run. exists (EOut c w :: es1), es2, e. auto using @run.
  - inversion H as [| | | | | | | |? ? w es' ? H']; subst; [left; auto using @run|].
    destruct (IH w _ _ H') as [[-> K]|[(r & -> & K)|(es1 & es2 & e & -> & K & L)]];
      [left|right;left|right;right]; eauto using @run. exists (ECall m w :: es1), es2, e. auto using @run.
Qed.

Lemma run_pbind : forall A B (p : prog A) (f : A -> prog B) es o, run (pbind p f) es o ->
  (o = Stopped /\ run p es Stopped) \/ (exists e, o = Raised e /\ run p es (Raised e)) \/
  (exists es1 es2 r, es = es1 ++ es2 /\ run p es1 (Returned r) /\ run (f r) es2 o).
Proof.
  intros A B p f. induction p as [r|e|x k IH|k IH|q c k IH|k IH|c k IH|m k IH]; intros es o H; cbn [pbind] in H.
  - right. right. exists [], es, r. repeat split; auto using @run.
  - inversion H; subst; [left|right;left]; eauto using @run.
  - inversion H as [| | |? ? a es' ? H'| | | | |]; subst; [left; auto using @run|].
    destruct (IH a _ _ H') as [[-> K]|[(r & -> & K)|(es1 & es2 & e & -> & K & L)]];
      [left|right;left|right;right]; eauto using @run. exists (EGive x a :: es1), es2, e. auto using @run.
  - inversion H as [| | | |? F es' ? H'| | | |]; subst; [left; auto using @run|].
    destruct (IH F _ _ H') as [[-> K]|[(r & -> & K)|(es1 & es2 & e & -> & K & L)]];
      [left|right;left|right;right]; eauto using @run. exists (ELook F :: es1), es2, e. auto using @run.
  - inversion H as [| | | | |? ? ? w es' ? H'| | |]; subst; [left; auto using @run|].
    destruct (IH w _ _ H') as [[-> K]|[(r & -> & K)|(es1 & es2 & e & -> & K & L)]];
      [left|right;left|right;right]; eauto using @run. exists (EWrite q c w :: es1), es2, e. auto using @run.
  - inversion H as [| | | | | |? i es' ? H'| |]; subst; [left; auto using @run|].
    destruct (IH i _ _ H') as [[-> K]|[(r & -> & K)|(es1 & es2 & e & -> & K & L)]];
      [left|right;left|right;right]; eauto using @run. exists (EIn i :: es1), es2, e. auto using @run.
  - inversion H as [| | | | | | |? ? w es' ? H'|]; subst; [left; auto using @run|].
    destruct (IH w _ _ H') as [[-> K]|[(r & -> & K)|(es1 & es2 & e & -> & K & L)]];
      [left|right;left|right;right]; eauto using @run. exists (EOut c w :: es1), es2, e. auto using @run.
  - inversion H as [| | | | | | | |? ? w es' ? H']; subst; [left; auto using @run|].
    destruct (IH w _ _ H') as [[-> K]|[(r & -> & K)|(es1 & es2 & e & -> & K & L)]];
      [left|right;left|right;right]; eauto using @run. exists (ECall m w :: es1), es2, e. auto using @run.
Qed.

Lemma run_lift : forall A B (r : res A) (f : A -> prog B) es o, run (lift r f) es o ->
  match r with
  | Ok a => run (f a) es o
  | Err e => es = [] /\ (o = Stopped \/ o = Raised e)
  end.
Proof. intros A B [a|e] f es o H; cbn [lift] in H; auto. inversion H; subst; auto. Qed.

(** ** Linting does not write *)

Definition quiet (es : list ev) : Prop :=
  Forall (fun e => match e with EGive _ _ | ELook _ | ECall _ _ => True | _ => False end) es.

Lemma quiet_written : forall es, quiet es -> written es = [].
Proof. induction 1 as [|[] es H H' IH]; cbn [written]; auto; contradiction. Qed.
Lemma quiet_printed : forall es, quiet es -> printed es = [].
Proof. induction 1 as [|[] es H H' IH]; cbn [printed]; auto; contradiction. Qed.
Lemma quiet_app : forall a b, quiet a -> quiet b -> quiet (a ++ b).
Proof. intros. now apply Forall_app. Qed.
Lemma quiet_cons : forall e es, match e with EGive _ _ | ELook _ | ECall _ _ => True | _ => False end ->
  quiet es -> quiet (e :: es).
Proof. intros. now constructor. Qed.
Lemma quiet_nil : quiet [].
Proof. constructor. Qed.
#[global] Hint Resolve quiet_app quiet_cons quiet_nil : core.

(** ** The loop over violations *)

Definition vio (evs : list event) : list viol :=
  flat_map (fun e => match e with Yield v => [v] | Hook _ => [] end) evs.

Definition prefix {A} (a b : list A) : Prop := exists c, b = a ++ c.

Lemma loop_run : forall p autofix k evs r clean pending es o,
  run (lint_loop p autofix evs r clean pending k) es o ->
  (o = Stopped /\ quiet es /\ prefix (results es) (map (violation_result p) (vio evs))) \/
  (exists es1 es2, es = es1 ++ es2 /\ quiet es1 /\
     results es1 = map (violation_result p) (vio evs) /\
     match r with
     | Err e => o = Raised e /\ es2 = []
     | Ok _ => run (k (match vio evs with [] => clean | _ => false end) (pending ++ accepted autofix (given es1))) es2 o
     end) \/
  (exists evs1 m evs2 e, evs = evs1 ++ Hook m :: evs2 /\ quiet es /\ results es = map (violation_result p) (vio evs1) /\
     o = Raised e /\ In (ECall m (Err e)) es).
Proof.
  intros p autofix k. induction evs as [|[v|m] evs IH]; intros r clean pending es o H; cbn [lint_loop] in H.
  - apply run_lift in H. destruct r as [n|e].
    + right. left. exists [], es. cbn. rewrite app_nil_r. auto.
    + destruct H as [-> [->| ->]].
      * left. repeat split; auto. exists []. reflexivity.
      * right. left. exists [], []. auto.
  - inversion H as [| | |? ? a es' ? H'| | | | |]; subst.
    { left. repeat split; auto. exists (map (violation_result p) (vio (Yield v :: evs))). reflexivity. }
    destruct (IH _ _ _ _ _ H') as [(-> & Q & (c & Hc))|[(es1 & es2 & -> & Q & Hr & K)|(evs1 & m & evs2 & e & -> & Q & Hr & -> & I)]].
    + left. repeat split; auto. exists c. unfold results, vio in *. cbn [given map flat_map app fst]. rewrite Hc. reflexivity.
    + right. left. exists (EGive (violation_result p v) a :: es1), es2. repeat split; auto.
      * unfold results, vio in *. cbn [given map flat_map app fst]. rewrite Hr. reflexivity.
      * destruct r; auto. unfold vio. cbn [flat_map app]. fold (vio evs). 
        cbn [given]. unfold accepted. cbn [flat_map fst snd x_violation violation_result].
        fold (accepted autofix (given es1)).
        replace (pending ++ _) with ((if truthy_answer a || autofix then pending ++ [v] else pending) ++ accepted autofix (given es1)).
        { destruct (vio evs); exact K. }
        destruct a as [[|]|], autofix; cbn [truthy_answer orb]; rewrite <- ?app_assoc; reflexivity.
    + right. right. exists (Yield v :: evs1), m, evs2, e. repeat split; simpl; auto.
      unfold results, vio in *. cbn [given map flat_map app fst]. rewrite Hr. reflexivity.
  - inversion H as [| | | | | | | |? ? w es' ? H']; subst.
    { left. repeat split; auto. exists (map (violation_result p) (vio (Hook m :: evs))). reflexivity. }
    apply run_lift in H'. destruct w as [t|e].
    + destruct (IH _ _ _ _ _ H') as [(-> & Q & (c & Hc))|[(es1 & es2 & -> & Q & Hr & K)|(evs1 & m' & evs2 & e & -> & Q & Hr & -> & I)]].
      * left. repeat split; auto. exists c. exact Hc.
      * right. left. exists (ECall m (Ok t) :: es1), es2. repeat split; auto.
      * right. right. exists (Hook m :: evs1), m', evs2, e. repeat split; simpl; auto.
    + destruct H' as [-> [->| ->]].
      * left. repeat split; auto. exists (map (violation_result p) (vio (Hook m :: evs))). reflexivity.
      * right. right. exists [], m, evs, e. repeat split; simpl; auto.
Qed.

Lemma finish_run : forall T p cfg md pending es o, run (finish_fixes T p cfg md pending) es o ->
  o = Stopped /\ quiet es /\ results es = [] \/
  (pending = [] /\ es = [] /\ o = Returned None) \/
  (pending <> [] /\ quiet es /\ results es = [] /\ given es = [] /\
   exists r, match r with Ok c => o = Returned (Some c) | Err e => o = Raised e end /\
     match apply_replacements md pending with
     | Err e => r = Err e
     | Ok None => r = Err AttributeError
     | Ok (Some m) => exists F, In (ELook F) es /\ r = format_module T F m p cfg
     end).
Proof.
  intros T p cfg md pending es o H. unfold finish_fixes in H. destruct pending as [|v vs].
  - inversion H; subst; auto 6.
  - apply run_lift in H. destruct (apply_replacements md (v :: vs)) as [[m|]|e].
    + inversion H as [| | | |? F es' ? H'| | | |]; subst; [left; auto|].
      apply run_lift in H'. destruct (format_module T F m p cfg) as [c|e] eqn:E.
      * inversion H'; subst; [left; repeat split; auto|]. right. right. repeat split; auto; [discriminate|].
        exists (Ok c). split; auto. exists F. split; simpl; auto.
      * destruct H' as [-> [->| ->]]; [left; repeat split; auto|]. right. right. repeat split; auto; [discriminate|].
        exists (Err e). split; auto. exists F. split; simpl; auto.
    + inversion H; subst; [left; auto|]. right. right. repeat split; auto; [discriminate|].
      exists (Err AttributeError). auto.
    + destruct H as [-> [->| ->]]; [left; auto|]. right. right. repeat split; auto; [discriminate|].
      exists (Err e). auto.
Qed.

(** With a hook there is one more event, the last one. *)
Lemma collect_hook : forall ud md vis,
  let (evs, r) := collect_violations ud md vis false in
  (forall x, In x evs -> exists v, x = Yield v) /\
  exists m, collect_violations ud md vis true = (evs ++ match r with Ok _ => [Hook m] | Err _ => [] end, r).
Proof.
  intros ud md [[rules m0]|e]; unfold collect_violations.
  - destruct (yield_rules ud md rules m0 0) as [evs r] eqn:Y.
    destruct (yield_rules_spec _ _ _ _ _ _ _ Y) as [A _]. destruct r as [[m c]|e].
    + split; [|eexists; rewrite app_nil_r; reflexivity]. rewrite app_nil_r. exact A.
    + split; auto. exists []. now rewrite app_nil_r.
  - split; [intros x []|]. exists []. reflexivity.
Qed.

Lemma vio_app : forall a b, vio (a ++ b) = vio a ++ vio b.
Proof. intros. apply flat_map_app. Qed.

(** Everything an execution of [fixit_bytes] can be. *)
Lemma bytes_run : forall T p content cfg autofix hook es o,
  run (fixit_bytes T p content cfg autofix hook) es o ->
  quiet es /\
  ((es = [] /\ o = Stopped) \/
   exists F es', es = ELook F :: es' /\
     let (vs, err) := lint_of T F p content cfg in
     match o with
     | Raised _ => False
     | Stopped => exists err', prefix (results es) (report_of p vs err')
     | Returned r =>
         let acc := accepted autofix (given es) in
         exists err', results es = report_of p vs err' /\
           match err' with
           | None => err = None /\
               match acc with
               | [] => r = None
               | _ => exists F' c, In (ELook F') es' /\ fixed_content T F' p content cfg acc = Ok c /\ r = Some c
               end
           | Some e => r = None /\
               (err = Some e \/
                (err = None /\ hook = true /\ exists m, In (ECall m (Err e)) es) \/
                (err = None /\ acc <> [] /\ exists F', fixed_content T F' p content cfg acc = Err e))
           end
     end).
Proof.
  intros T p content cfg autofix hook es o H. unfold fixit_bytes in H.
  (* the body without the handler *)
  assert (B : forall es o,
    run (Look (fun F => lift (t_collect T F cfg) (fun rules =>
         match rules with
         | [] => Give (clean_result p) (fun _ => Ret None)
         | _ =>
             lift (t_parse T content) (fun md =>
               let (evs, r) := collect_violations (t_udiff T p) md (t_visit T F cfg md rules) hook in
               lint_loop p autofix evs r true [] (fun clean pending =>
                 if clean : bool then Give (clean_result p) (fun _ => finish_fixes T p cfg md pending)
                 else finish_fixes T p cfg md pending))
         end))) es o ->
    quiet es /\
    ((es = [] /\ o = Stopped) \/
     exists F es', es = ELook F :: es' /\
     let (vs, err) := lint_of T F p content cfg in
     let acc := accepted autofix (given es) in
     match o with
     | Stopped => prefix (results es) (report_of p vs None)
     | Returned r => results es = report_of p vs None /\ err = None /\
               match acc with
               | [] => r = None
               | _ => exists F' c, In (ELook F') es' /\ fixed_content T F' p content cfg acc = Ok c /\ r = Some c
               end
     | Raised e => results es = map (violation_result p) vs /\
               (err = Some e \/
                (err = None /\ hook = true /\ exists m, In (ECall m (Err e)) es) \/
                (err = None /\ acc <> [] /\ exists F', fixed_content T F' p content cfg acc = Err e))
     end)).
  { clear es o H. intros es o H.
    inversion H as [| | | |? F es' ? H'| | | |]; subst; [split; auto|]. clear H. unfold lint_of.
    apply run_lift in H'. destruct (t_collect T F cfg) as [rules|e0] eqn:Ec.
    2:{ destruct H' as [-> [->| ->]]; (split; [auto|]); right; exists F, []; (split; [reflexivity|]); rewrite Ec.
        - eexists. reflexivity.
        - split; auto. }
    destruct rules as [|rl rls].
    { inversion H' as [| | |? ? a es'' ? H''| | | | |]; subst; (split; [auto|]).
      - right. exists F, []. split; auto. rewrite Ec. eexists. reflexivity.
      - inversion H''; subst; auto.
      - right. exists F. eexists. split; [reflexivity|]. rewrite Ec. inversion H''; subst.
        + exists []. reflexivity.
        + cbn. auto. }
    apply run_lift in H'. destruct (t_parse T content) as [md|e0] eqn:Ep.
    2:{ destruct H' as [-> [->| ->]]; (split; [auto|]); right; exists F, []; (split; [reflexivity|]); rewrite Ec.
        - eexists. reflexivity.
        - split; auto. }
    pose proof (collect_hook (t_udiff T p) md (t_visit T F cfg md (rl :: rls))) as CH.
    destruct (collect_violations (t_udiff T p) md (t_visit T F cfg md (rl :: rls)) false) as [evs0 r0] eqn:E0.
    destruct CH as (Yi & m & E1).
    assert (VH : forall (x : res nat), vio (evs0 ++ match x with Ok _ => [Hook m] | Err _ => [] end) = vio evs0).
    { intros [x|x]; rewrite vio_app; cbn; apply app_nil_r. }
    set (evs := if hook then evs0 ++ match r0 with Ok _ => [Hook m] | Err _ => [] end else evs0).
    assert (Ev : collect_violations (t_udiff T p) md (t_visit T F cfg md (rl :: rls)) hook = (evs, r0)).
    { unfold evs. destruct hook; auto. }
    rewrite Ev in H'.
    assert (Vv : vio evs = vio evs0). { unfold evs. destruct hook; auto. }
    apply loop_run in H'. cbn [app] in H'.
    destruct H' as [(-> & Q & (c & Hc))|[(es1 & es2 & -> & Q & Hr & K)|(evs1 & m1 & evs2 & e & Hs & Q & Hr & -> & I)]].
    - split; auto. right. exists F, es'. split; auto. rewrite Ec, E0; fold (vio evs0). rewrite Vv in Hc.
      exists (c ++ match vio evs0 with [] => [clean_result p] | _ => [] end). unfold report_of.
      change (map (fun v => Result p (Some v) None) ?l) with (map (violation_result p) l). rewrite Hc, <- app_assoc. reflexivity.
    - rewrite Vv in *.
      assert (G : forall es3 o', run (finish_fixes T p cfg md (accepted autofix (given es1))) es3 o' ->
        forall extra, results extra = match vio evs0 with [] => [clean_result p] | _ => [] end -> quiet extra ->
        accepted autofix (given extra) = [] -> r0 = Ok (match r0 with Ok n => n | Err _ => 0 end) ->
        quiet (ELook F :: es1 ++ extra ++ es3) /\
        let acc := accepted autofix (given (ELook F :: es1 ++ extra ++ es3)) in
        match o' with
         | Stopped => prefix (results (ELook F :: es1 ++ extra ++ es3)) (report_of p (vio evs0) None)
         | Returned r => results (ELook F :: es1 ++ extra ++ es3) = report_of p (vio evs0) None /\
                   match acc with
                   | [] => r = None
                   | _ => exists F' c, In (ELook F') (es1 ++ extra ++ es3) /\ fixed_content T F' p content cfg acc = Ok c /\ r = Some c
                   end
         | Raised e => extra = [] -> results (ELook F :: es1 ++ extra ++ es3) = map (violation_result p) (vio evs0) /\
                    (acc <> [] /\ exists F', fixed_content T F' p content cfg acc = Err e)
        end).
      { intros es3 o' K' extra X1 X2 X3 X4. apply finish_run in K'.
        assert (Rr : results es3 = [] -> results (ELook F :: es1 ++ extra ++ es3) = report_of p (vio evs0) None).
        { intro R3. change (ELook F :: es1 ++ extra ++ es3) with ([ELook F] ++ es1 ++ extra ++ es3).
          rewrite !results_app, Hr, X1, R3, app_nil_r. cbn [results given map app]. unfold report_of. reflexivity. }
        destruct K' as [(-> & Q3 & R3)|[(P3 & -> & ->)|(P3 & Q3 & R3 & G3 & r & Hr1 & Hr2)]].
        - split; auto. exists []. rewrite app_nil_r. symmetry. now apply Rr.
        - split; auto. cbn zeta. split; [now apply Rr|]. cbn [given]. rewrite !given_app, !accepted_app, P3, X3. reflexivity.
        - split; auto. cbn [given]. rewrite !given_app, !accepted_app, X3, G3. cbn [accepted flat_map]. rewrite !app_nil_r.
          cbn zeta. set (acc := accepted autofix (given es1)) in *. unfold fixed_content. rewrite Ep. cbn [bind].
          destruct (apply_replacements md acc) as [[mm|]|e1] eqn:Ea; cbn [bind].
          + destruct Hr2 as (F' & IF & ->). destruct (format_module T F' mm p cfg) as [c|e1] eqn:Ef; subst o'.
            * split; [now apply Rr|]. destruct acc; [congruence|]. exists F', c. repeat split; auto.
              rewrite !in_app_iff. auto.
            * intros ->. split; [|split; eauto].
              change (ELook F :: es1 ++ [] ++ es3) with ([ELook F] ++ es1 ++ es3).
              rewrite !results_app, Hr, R3, app_nil_r. reflexivity.
          + subst r o'. intros ->. split; [|split; eauto].
            change (ELook F :: es1 ++ [] ++ es3) with ([ELook F] ++ es1 ++ es3).
            rewrite !results_app, Hr, R3, app_nil_r. reflexivity.
          + subst r o'. intros ->. split; [|split; eauto].
            change (ELook F :: es1 ++ [] ++ es3) with ([ELook F] ++ es1 ++ es3).
            rewrite !results_app, Hr, R3, app_nil_r. reflexivity. }
      destruct r0 as [n|e].
      + destruct (vio evs0) as [|v0 vs0] eqn:Vs.
        * (* clean *)
          assert (A0 : accepted autofix (given es1) = []).
          { unfold results in Hr. destruct (given es1); [reflexivity|discriminate]. }
          inversion K as [| | |? ? a es3 ? K'| | | | |]; subst.
          -- rewrite app_nil_r. split; auto. right. exists F, es1. split; auto. rewrite Ec, E0; fold (vio evs0); rewrite Vs.
             exists [clean_result p]. unfold results in *. cbn [given]. rewrite Hr. reflexivity.
          -- destruct (G es3 o K' [EGive (clean_result p) a]) as [G1 G2]; auto.
             split; auto. right. exists F, (es1 ++ EGive (clean_result p) a :: es3). split; auto. rewrite Ec, E0; fold (vio evs0); rewrite Vs.
             change (EGive (clean_result p) a :: es3) with ([EGive (clean_result p) a] ++ es3).
             destruct o as [r|e|]; auto.
             { destruct G2 as [G2 G3]. auto. }
             { exfalso. rewrite A0 in K'. inversion K'. }
        * destruct (G es2 o K []) as [G1 G2]; auto. cbn [app] in G1, G2. split; auto.
          right. exists F, (es1 ++ es2). split; auto. rewrite Ec, E0; fold (vio evs0); rewrite Vs. destruct o as [r|e|]; auto.
          -- destruct G2 as [G2 G3]. auto.
          -- destruct (G2 eq_refl) as [G3 G4]. auto.
      + destruct K as [-> ->]. rewrite app_nil_r in *. split; auto. right. exists F, es1. split; auto. rewrite Ec, E0; fold (vio evs0).
        split; auto.
    - split; auto. right. exists F, es'. split; auto. rewrite Ec, E0; fold (vio evs0).
      (* the hook raised *)
      assert (Hh : hook = true /\ evs1 = evs0 /\ exists n, r0 = Ok n).
      { unfold evs in Hs. destruct hook.
        - destruct r0 as [n|e'].
          + split; auto. split; [|eauto].
            assert (D : evs2 = []).
            { destruct evs2 as [|x evs2 _] using rev_ind; auto. exfalso.
              rewrite app_comm_cons, app_assoc in Hs. apply app_inj_tail in Hs. destruct Hs as [Hs _].
              destruct (Yi (Hook m1)) as (w & Hw); [rewrite Hs, in_app_iff; simpl; auto|]. discriminate. }
            subst evs2. apply app_inj_tail in Hs. now destruct Hs.
          + exfalso. rewrite app_nil_r in Hs. destruct (Yi (Hook m1)) as (w & Hw); [rewrite Hs, in_app_iff; simpl; auto|]. discriminate.
        - exfalso. destruct (Yi (Hook m1)) as (w & Hw); [rewrite Hs, in_app_iff; simpl; auto|]. discriminate. }
      destruct Hh as (Hh & -> & n & ->). split; [exact Hr|]. right. left. repeat split; auto. exists m1. simpl. auto. }
  apply run_catch in H. destruct H as [[-> H]|[(r & -> & H)|(es1 & es2 & e & -> & H1 & H2)]].
  - destruct (B _ _ H) as [Q [[-> _]|(F & es' & -> & K)]]; split; auto. right. exists F, es'. split; auto.
    destruct (lint_of T F p content cfg) as [vs err]. eauto.
  - destruct (B _ _ H) as [Q [[_ X]|(F & es' & -> & K)]]; [discriminate|]. split; auto. right. exists F, es'. split; auto.
    destruct (lint_of T F p content cfg) as [vs err]. destruct K as (K1 & K2 & K3). exists None. auto.
  - destruct (B _ _ H1) as [Q [[_ X]|(F & es' & -> & K)]]; [discriminate|].
    assert (Q2 : quiet es2 /\ accepted autofix (given es2) = [] /\
                 match o with Raised _ => False | Stopped => prefix (results es2) [error_result p e]
                 | Returned r => r = None /\ results es2 = [error_result p e] end).
    { inversion H2 as [| | |? ? a es3 ? H3| | | | |]; subst; [repeat split; auto; exists [error_result p e]; reflexivity|].
      inversion H3; subst; repeat split; auto. exists []. reflexivity. }
    destruct Q2 as (Q2 & A2 & K2). split; auto. right. exists F, (es' ++ es2). split; auto.
    destruct (lint_of T F p content cfg) as [vs err]. destruct K as (K1 & K3).
    assert (Ra : report_of p vs (Some e) = map (violation_result p) vs ++ [error_result p e]) by (unfold report_of; destruct vs; reflexivity).
    rewrite !given_app, accepted_app, A2, app_nil_r, results_app, K1. destruct o as [r|e'|]; [| |].
    + destruct K2 as [-> K2]. exists (Some e). rewrite Ra, K2. repeat split; auto.
      destruct K3 as [K3|[(X & Y & m & I)|(X & Y & F' & Z)]]; auto.
      * right. left. repeat split; auto. exists m. apply in_app_iff. auto.
      * right. right. repeat split; eauto.
    + contradiction.
    + exists (Some e). rewrite Ra. destruct K2 as (c & K2). exists c. rewrite K2, app_assoc. reflexivity.
Qed.
