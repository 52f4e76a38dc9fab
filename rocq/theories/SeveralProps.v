(** * C100: linting several paths at once *)
From Coq Require Import String List NArith ZArith Bool Arith Lia Permutation.
From Verif Require Import Base PyStr Ftypes Paths Config Suppress Cst Engine EngineProps Batch Api ApiSpec ApiFacts ApiProps ApiPaths System SystemSpec SystemSame Cli CliSpec CliFacts CliProps InputProps.
Import ListNotations.

(** ** Specification *)

(** While nobody changes a file in [F], a command prints [ls] and then a summary, and returns [code]. *)
Definition reports (F : fs) (c : cmd N) (ls : list (stream * str)) (code : N) : Prop :=
  exists vs summary, crun c vs (Returned code) /\ (forall F', In (VLook F') vs -> F' = F) /\ lines vs = ls ++ [summary].

(** [each] are the outputs of linting the paths [ps] one by one. *)
Definition one_by_one (F : fs) (lint_ : list arg -> cmd N) (ps : list path) (each : list (list (stream * str) * N)) : Prop :=
  Forall2 (fun p out => reports F (lint_ [PathArg p]) (fst out) (snd out)) ps each.

(** ** Proofs *)

(** What the loop of the command does with a generator that ends, but for the summary; the results it is given *)
Inductive steps (K : cli) (diff : bool) (cfg : config) : prog unit -> list cev -> list result -> Prop :=
| st_ret : forall r, steps K diff cfg (Ret r) [] []
| st_give : forall x k ls d vs xs, print_result K x diff false (c_format cfg) (c_template cfg) = Ok (ls, d) -> steps K diff cfg (k None) vs xs ->
    steps K diff cfg (Give x k) (map (fun l => VPrint (fst l) (snd l)) ls ++ vs) (x :: xs)
| st_look : forall k F vs xs, steps K diff cfg (k F) vs xs -> steps K diff cfg (Look k) (VLook F :: vs) xs
| st_write : forall p c k w vs xs, steps K diff cfg (k w) vs xs -> steps K diff cfg (Write p c k) (VWrite p c w :: vs) xs
| st_in : forall k i vs xs, steps K diff cfg (k i) vs xs -> steps K diff cfg (Stdin k) (VIn i :: vs) xs
| st_out : forall c k w vs xs, steps K diff cfg (k w) vs xs -> steps K diff cfg (Stdout c k) (VOut c w :: vs) xs
| st_call : forall m k vs xs, steps K diff cfg (k (Ok tt)) vs xs -> steps K diff cfg (Call m k) (VPrint Std (k_metrics K m) :: vs) xs.

Lemma print_all_ends : forall R ls (k : cmd R) vs r, crun (print_all ls k) vs (Returned r) <->
  exists vs2, vs = map (fun x => VPrint (fst x) (snd x)) ls ++ vs2 /\ crun k vs2 (Returned r).
Proof.
  intros R ls k. induction ls as [|[s t] ls IH]; intros vs r; cbn [print_all map app].
  - split; [eauto|]. intros (vs2 & -> & H). exact H.
  - split.
    + intro H. inversion H; subst. match goal with H : crun (print_all _ _) _ _ |- _ => apply IH in H; destruct H as (vs2 & -> & H) end. eauto.
    + intros (vs2 & -> & H). constructor. apply IH. eauto.
Qed.

Lemma printed_dirty : forall K x diff stderr fmt tmpl ls d, print_result K x diff stderr fmt tmpl = Ok (ls, d) -> d = dirty x.
Proof.
  intros K x diff stderr fmt tmpl ls d. unfold print_result, dirty. destruct (x_violation x).
  - match goal with |- bind ?e _ = _ -> _ => destruct e end; cbn [bind]; [|discriminate]. intro H. injection H as _ <-. reflexivity.
  - destruct (x_error x); intro H; injection H as _ <-; reflexivity.
Qed.

Definition summed (xs : list result) : stream * str := let t := lint_state xs in splash (l_visited t) (l_dirty t) (l_autofixes t) 0.

Lemma lint_state_snoc : forall xs x, lint_tally (lint_state xs) x (dirty x) = lint_state (xs ++ [x]).
Proof. intros. unfold lint_state. now rewrite fold_left_app. Qed.

Lemma loop_steps : forall K diff cfg g xs0 vs c, crun (Cli.lint_loop K diff cfg g (lint_state xs0)) vs (Returned c) <->
  exists vs0 xs, steps K diff cfg g vs0 xs /\ vs = vs0 ++ [VPrint (fst (summed (xs0 ++ xs))) (snd (summed (xs0 ++ xs)))] /\ c = l_exit (lint_state (xs0 ++ xs)).
Proof.
  intros K diff cfg g. induction g as [r|e|x k IH|k IH|q c0 k IH|k IH|c0 k IH|m k IH]; intros xs0 vs c; cbn [Cli.lint_loop].
  - split.
    + intro H. apply print_all_ends in H. destruct H as (vs2 & -> & H). inversion H; subst. exists [], []. split; [constructor|]. rewrite (app_nil_r xs0). split; reflexivity.
    + intros (vs0 & xs & H & -> & ->). inversion H; subst. rewrite (app_nil_r xs0). apply print_all_ends. eexists. split; [|constructor]. reflexivity.
  - split; intro H; [inversion H|]. destruct H as (vs0 & xs & H & _). inversion H.
  - destruct (print_result K x diff false (c_format cfg) (c_template cfg)) as [[ls d]|e] eqn:E.
    + pose proof (printed_dirty _ _ _ _ _ _ _ _ E) as ->. rewrite lint_state_snoc. split.
      * intro H. apply print_all_ends in H. destruct H as (vs2 & -> & H). apply IH in H. destruct H as (vs0 & xs & H & -> & ->).
        exists (map (fun l => VPrint (fst l) (snd l)) ls ++ vs0), (x :: xs). split; [econstructor; eauto|]. rewrite <- !app_assoc. auto.
      * intros (vs0 & xs & H & -> & ->). inversion H as [|? ? ls' d' vs1 xs1 E' H1| | | | |]; subst. rewrite E in E'. injection E' as <- _.
        apply print_all_ends. rewrite <- app_assoc. eexists. split; [reflexivity|]. apply IH. exists vs1, xs1. split; auto. rewrite <- !app_assoc. auto.
    + split; intro H; [inversion H|]. destruct H as (vs0 & xs & H & _). inversion H; congruence.
  - split.
    + intro H. inversion H; subst. match goal with H : crun _ _ _ |- _ => apply IH in H; destruct H as (vs9 & xs9 & H9 & -> & ->) end. eexists (_ :: vs9), xs9. split; [constructor; exact H9|auto].
    + intros (vs0 & xs & H & -> & ->). inversion H; subst. constructor. apply IH. eauto.
  - split.
    + intro H. inversion H; subst. match goal with H : crun _ _ _ |- _ => apply IH in H; destruct H as (vs9 & xs9 & H9 & -> & ->) end. eexists (_ :: vs9), xs9. split; [constructor; exact H9|auto].
    + intros (vs0 & xs & H & -> & ->). inversion H; subst. constructor. apply IH. eauto.
  - split.
    + intro H. inversion H; subst. match goal with H : crun _ _ _ |- _ => apply IH in H; destruct H as (vs9 & xs9 & H9 & -> & ->) end. eexists (_ :: vs9), xs9. split; [constructor; exact H9|auto].
    + intros (vs0 & xs & H & -> & ->). inversion H; subst. constructor. apply IH. eauto.
  - split.
    + intro H. inversion H; subst. match goal with H : crun _ _ _ |- _ => apply IH in H; destruct H as (vs9 & xs9 & H9 & -> & ->) end. eexists (_ :: vs9), xs9. split; [constructor; exact H9|auto].
    + intros (vs0 & xs & H & -> & ->). inversion H; subst. constructor. apply IH. eauto.
  - split.
    + intro H. inversion H; subst. match goal with H : crun _ _ _ |- _ => apply IH in H; destruct H as (vs9 & xs9 & H9 & -> & ->) end. eexists (_ :: vs9), xs9. split; [constructor; exact H9|auto].
    + intros (vs0 & xs & H & -> & ->). inversion H; subst. constructor. apply IH. eauto.
Qed.

Lemma steps_bind : forall K diff cfg (g h : prog unit) vs xs, steps K diff cfg (pbind g (fun _ => h)) vs xs <->
  exists vs1 xs1 vs2 xs2, steps K diff cfg g vs1 xs1 /\ steps K diff cfg h vs2 xs2 /\ vs = vs1 ++ vs2 /\ xs = xs1 ++ xs2.
Proof.
  intros K diff cfg g h. induction g as [r|e|x k IH|k IH|q c0 k IH|k IH|c0 k IH|m k IH]; intros vs xs; cbn [pbind].
  - split.
    + intro H. exists [], [], vs, xs. repeat split; auto. constructor.
    + intros (vs1 & xs1 & vs2 & xs2 & H & H2 & -> & ->). inversion H; subst. exact H2.
  - split; intro H; [inversion H|]. destruct H as (? & ? & ? & ? & H & _). inversion H.
  - split.
    + intro H. inversion H as [|? ? ls d vs0 xs0 E H1| | | | |]; subst. apply IH in H1. destruct H1 as (vs1 & xs1 & vs2 & xs2 & H1 & H2 & -> & ->).
      eexists (_ ++ vs1), (x :: xs1), vs2, xs2. split; [econstructor; eauto|]. split; auto. rewrite <- app_assoc. auto.
    + intros (vs1 & xs1 & vs2 & xs2 & H & H2 & -> & ->). inversion H as [|? ? ls d vs0 xs0 E H1| | | | |]; subst. rewrite <- app_assoc. cbn [app]. econstructor; eauto. apply IH. eauto 8.
  - split.
    + intro H. inversion H; subst. match goal with H : steps _ _ _ _ _ _ |- _ => apply IH in H; destruct H as (vs1 & xs1 & vs2 & xs2 & H1 & H2 & -> & ->) end.
      eexists (_ :: vs1), xs1, vs2, xs2. split; [constructor; eassumption|auto].
    + intros (vs1 & xs1 & vs2 & xs2 & H & H2 & -> & ->). inversion H; subst. cbn [app]. constructor. apply IH. eauto 8.
  - split.
    + intro H. inversion H; subst. match goal with H : steps _ _ _ _ _ _ |- _ => apply IH in H; destruct H as (vs1 & xs1 & vs2 & xs2 & H1 & H2 & -> & ->) end.
      eexists (_ :: vs1), xs1, vs2, xs2. split; [constructor; eassumption|auto].
    + intros (vs1 & xs1 & vs2 & xs2 & H & H2 & -> & ->). inversion H; subst. cbn [app]. constructor. apply IH. eauto 8.
  - split.
    + intro H. inversion H; subst. match goal with H : steps _ _ _ _ _ _ |- _ => apply IH in H; destruct H as (vs1 & xs1 & vs2 & xs2 & H1 & H2 & -> & ->) end.
      eexists (_ :: vs1), xs1, vs2, xs2. split; [constructor; eassumption|auto].
    + intros (vs1 & xs1 & vs2 & xs2 & H & H2 & -> & ->). inversion H; subst. cbn [app]. constructor. apply IH. eauto 8.
  - split.
    + intro H. inversion H; subst. match goal with H : steps _ _ _ _ _ _ |- _ => apply IH in H; destruct H as (vs1 & xs1 & vs2 & xs2 & H1 & H2 & -> & ->) end.
      eexists (_ :: vs1), xs1, vs2, xs2. split; [constructor; eassumption|auto].
    + intros (vs1 & xs1 & vs2 & xs2 & H & H2 & -> & ->). inversion H; subst. cbn [app]. constructor. apply IH. eauto 8.
  - split.
    + intro H. inversion H; subst. match goal with H : steps _ _ _ _ _ _ |- _ => apply IH in H; destruct H as (vs1 & xs1 & vs2 & xs2 & H1 & H2 & -> & ->) end.
      eexists (_ :: vs1), xs1, vs2, xs2. split; [constructor; eassumption|auto].
    + intros (vs1 & xs1 & vs2 & xs2 & H & H2 & -> & ->). inversion H; subst. cbn [app]. constructor. apply IH. eauto 8.
Qed.

Lemma steps_serial : forall K diff cfg T autofix opts hook ps qs vs xs, steps K diff cfg (serial T (ps ++ qs) autofix opts hook) vs xs <->
  exists vs1 xs1 vs2 xs2, steps K diff cfg (serial T ps autofix opts hook) vs1 xs1 /\ steps K diff cfg (serial T qs autofix opts hook) vs2 xs2 /\ vs = vs1 ++ vs2 /\ xs = xs1 ++ xs2.
Proof.
  intros K diff cfg T autofix opts hook ps qs. induction ps as [|p ps IH]; intros vs xs; cbn [app serial].
  - split.
    + intro H. exists [], [], vs, xs. repeat split; auto. constructor.
    + intros (vs1 & xs1 & vs2 & xs2 & H & H2 & -> & ->). inversion H; subst. exact H2.
  - rewrite steps_bind. split.
    + intros (vs1 & xs1 & vs2 & xs2 & H & H2 & -> & ->). apply IH in H2. destruct H2 as (vs3 & xs3 & vs4 & xs4 & H3 & H4 & -> & ->).
      exists (vs1 ++ vs3), (xs1 ++ xs3), vs4, xs4. rewrite <- !app_assoc. repeat split; auto. apply steps_bind. eauto 8.
    + intros (vs1 & xs1 & vs2 & xs2 & H & H2 & -> & ->). apply steps_bind in H. destruct H as (vs3 & xs3 & vs4 & xs4 & H3 & H4 & -> & ->).
      exists vs3, xs3, (vs4 ++ vs2), (xs4 ++ xs2). rewrite <- !app_assoc. repeat split; auto. apply IH. eauto 8.
Qed.

(** The exit codes *)
Lemma exit_fold : forall xs t, l_exit (fold_left (fun t x => lint_tally t x (dirty x)) xs t) = N.lor (l_exit t) (l_exit (lint_state xs)).
Proof.
  induction xs as [|x xs IH]; intro t; cbn [fold_left].
  - unfold lint_state. cbn. now rewrite N.lor_0_r.
  - unfold lint_state. cbn [fold_left]. rewrite IH, (IH (lint_tally no_tally x (dirty x))). rewrite N.lor_assoc. f_equal.
    unfold lint_tally. destruct (dirty x); cbn [l_exit no_tally]; [|now rewrite N.lor_0_r].
    destruct (is_violation x), (is_error x); cbn [l_exit]; rewrite ?N.lor_0_r, ?N.lor_0_l, <- ?N.lor_assoc; reflexivity.
Qed.
Lemma exit_app : forall xs ys, l_exit (lint_state (xs ++ ys)) = N.lor (l_exit (lint_state xs)) (l_exit (lint_state ys)).
Proof. intros. unfold lint_state at 1. rewrite fold_left_app. apply exit_fold. Qed.

Lemma lines_app : forall a b, lines (a ++ b) = lines a ++ lines b.
Proof. intros. apply flat_map_app. Qed.

Opaque make_plan.

(** Linting paths in files that nobody changes *)
Lemma lint_reports : forall K T d opts m diff F p ps ls c, reports F (lint K T d opts m diff (map PathArg (p :: ps))) ls c <->
  exists cfg found vs xs, generate_config (t_env T) F (k_cwd K) None (Some opts) = Ok cfg /\ map_res (t_walk T F) (p :: ps) = Ok found /\
    steps K diff cfg (serial T (concat found) false (Some opts) m) vs xs /\ (forall F', In (VLook F') vs -> F' = F) /\ ls = lines vs /\ c = l_exit (lint_state xs).
Proof.
  intros K T d opts m diff F p ps ls c. unfold reports, lint, lint_with. cbn [map or_cwd].
  assert (Nm : flat_map named (map PathArg ps) = ps) by (induction ps as [|q ps IH]; [reflexivity|]; cbn [map flat_map named app]; now rewrite IH).
  split.
  - intros (vs & s & H & Fr & L). inversion H as [| | | | |? F0 vs0 ? H0| | |]; subst. assert (F0 = F) as -> by (apply Fr; left; reflexivity).
    destruct (generate_config (t_env T) F (k_cwd K) None (Some opts)) as [cfg|e]; [|inversion H0].
    change no_tally with (lint_state []) in H0. apply (loop_steps K diff cfg (fixit_paths_serial T d (PathArg p :: map PathArg ps) false (Some opts) m) []) in H0. destruct H0 as (vs1 & xs & H1 & -> & ->). unfold fixit_paths_serial in H1.
    inversion H1 as [| |? F1 vs2 ? H2| | | |]; subst. assert (F1 = F) as -> by (apply Fr; right; left; reflexivity). rewrite C34_files, Nm in H2.
    destruct (map_res (t_walk T F) (p :: ps)) as [found|e]; cbn [bind lift] in H2; [|inversion H2].
    exists cfg, found, vs2, xs. cbn [negb] in H2. rewrite orb_true_r in H2. repeat split; auto.
    + intros F' I. apply Fr. right. right. apply in_or_app. auto.
    + change (lines ((VLook F :: VLook F :: vs2) ++ [VPrint (fst (summed ([] ++ xs))) (snd (summed ([] ++ xs)))]) = ls ++ [s]) in L.
      rewrite lines_app in L. cbn [lines flat_map app] in L. apply app_inj_tail in L. destruct L as [<- _]. reflexivity.
  - intros (cfg & found & vs & xs & G & W & H & Fr & -> & ->).
    exists (VLook F :: VLook F :: vs ++ [VPrint (fst (summed xs)) (snd (summed xs))]), (fst (summed xs), snd (summed xs)). split; [|split].
    + constructor. rewrite G. change no_tally with (lint_state []). apply (loop_steps K diff cfg (fixit_paths_serial T d (PathArg p :: map PathArg ps) false (Some opts) m) []). exists (VLook F :: vs), xs. split; [|auto].
      unfold fixit_paths_serial. constructor. rewrite C34_files, Nm, W. cbn [bind lift negb]. rewrite orb_true_r. exact H.
    + intros F' [E|[E|I]]; [congruence..|]. apply in_app_iff in I. destruct I as [I|[X|[]]]; [auto|discriminate].
    + change (lines ((VLook F :: VLook F :: vs) ++ [VPrint (fst (summed xs)) (snd (summed xs))]) = lines vs ++ [(fst (summed xs), snd (summed xs))]).
      rewrite lines_app. reflexivity.
Qed.

Lemma map_res_cons : forall A B (f : A -> res B) x l ys, map_res f (x :: l) = Ok ys <-> exists y ys', f x = Ok y /\ map_res f l = Ok ys' /\ ys = y :: ys'.
Proof.
  intros A B f x l ys. cbn [map_res]. destruct (f x) as [y|e]; cbn [bind]; [|split; [discriminate|intros (? & ? & X & _); discriminate]].
  destruct (map_res f l) as [ys'|e]; cbn [bind]; [|split; [discriminate|intros (? & ? & _ & X & _); discriminate]].
  split; [intro H; injection H as <-; eauto|]. intros (y0 & ys0 & E1 & E2 & ->). congruence.
Qed.

(** ** C100 *)

(** Linting several paths prints what linting each of them prints, in the order of the paths and with one summary at the end,
    and the exit code has the bits of all their exit codes. *)
Theorem C100_each : forall K T d opts m diff F ps ls code, ps <> [] ->
  (reports F (lint K T d opts m diff (map PathArg ps)) ls code <->
   exists each, one_by_one F (lint K T d opts m diff) ps each /\ ls = concat (map fst each) /\ code = fold_right N.lor 0%N (map snd each)).
Proof.
  intros K T d opts m diff F ps. induction ps as [|p ps IH]; [congruence|]. intros ls code _. destruct ps as [|q ps].
  - split.
    + intro H. exists [(ls, code)]. split; [|cbn; now rewrite app_nil_r, N.lor_0_r]. constructor; [exact H|constructor].
    + intros (each & H & -> & ->). inversion H as [|? [ls1 c1] ? ? H1 H2]; subst. inversion H2; subst. cbn. rewrite app_nil_r, N.lor_0_r. exact H1.
  - assert (Two : reports F (lint K T d opts m diff (map PathArg (p :: q :: ps))) ls code <->
      exists l1 c1 l2 c2, reports F (lint K T d opts m diff [PathArg p]) l1 c1 /\ reports F (lint K T d opts m diff (map PathArg (q :: ps))) l2 c2 /\
        ls = l1 ++ l2 /\ code = N.lor c1 c2).
    { rewrite lint_reports. split.
      - intros (cfg & found & vs & xs & G & W & H & Fr & -> & ->). apply map_res_cons in W. destruct W as (f1 & f2 & W1 & W2 & ->). cbn [concat] in H.
        apply steps_serial in H. destruct H as (vs1 & xs1 & vs2 & xs2 & H1 & H2 & -> & ->).
        exists (lines vs1), (l_exit (lint_state xs1)), (lines vs2), (l_exit (lint_state xs2)).
        assert (F1 : forall F', In (VLook F') vs1 -> F' = F) by (intros; apply Fr; apply in_or_app; auto).
        assert (F2 : forall F', In (VLook F') vs2 -> F' = F) by (intros; apply Fr; apply in_or_app; auto).
        split; [|split; [|split; [apply lines_app|apply exit_app]]].
        + apply (lint_reports K T d opts m diff F p []). exists cfg, [f1], vs1, xs1. cbn [concat]. rewrite app_nil_r. repeat split; auto. apply map_res_cons. exists f1, []. auto.
        + apply lint_reports. exists cfg, f2, vs2, xs2. auto 10.
      - intros (l1 & c1 & l2 & c2 & H1 & H2 & -> & ->). apply (lint_reports K T d opts m diff F p []) in H1. apply lint_reports in H2.
        destruct H1 as (cfg & found & vs1 & xs1 & G & W & H1 & F1 & -> & ->), H2 as (cfg2 & f2 & vs2 & xs2 & G2 & W2 & H2 & F2 & -> & ->).
        assert (cfg2 = cfg) as -> by congruence. apply map_res_cons in W. destruct W as (f1 & f0 & W1 & W0 & ->). injection W0 as <-. cbn [concat] in H1. rewrite app_nil_r in H1.
        exists cfg, (f1 :: f2), (vs1 ++ vs2), (xs1 ++ xs2). rewrite lines_app, exit_app. repeat split; auto.
        + apply map_res_cons. eauto.
        + cbn [concat]. apply steps_serial. eauto 8.
        + intros F' I. apply in_app_iff in I. destruct I; auto. }
    rewrite Two. split.
    + intros (l1 & c1 & l2 & c2 & H1 & H2 & -> & ->). apply IH in H2; [|discriminate]. destruct H2 as (each & H2 & -> & ->).
      exists ((l1, c1) :: each). split; [constructor; auto|auto].
    + intros (each & H & -> & ->). inversion H as [|? [l1 c1] ? each' H1 H2]; subst. cbn [map fst snd concat fold_right].
      exists l1, c1, (concat (map fst each')), (fold_right N.lor 0%N (map snd each')). repeat split; auto. apply IH; [discriminate|]. eauto.
Qed.

Lemma lor_perm : forall a b, Permutation a b -> fold_right N.lor 0%N a = fold_right N.lor 0%N b.
Proof. intros a b H. induction H; cbn [fold_right]; try congruence. now rewrite !N.lor_assoc, (N.lor_comm y x). Qed.

Lemma forall2_perm : forall A B (P : A -> B -> Prop) l l' m, Permutation l l' -> Forall2 P l m -> exists m', Permutation m m' /\ Forall2 P l' m'.
Proof.
  intros A B P l l' m H. revert m. induction H as [|x l l' H IH|x y l|l l1 l2 H1 IH1 H2 IH2]; intros m F.
  - inversion F; subst. eauto.
  - inversion F as [|? b ? m1 Hb F1]; subst. destruct (IH _ F1) as (m' & Pm & F'). exists (b :: m'). auto.
  - inversion F as [|? b ? m1 Hb F1]; subst. inversion F1 as [|? b2 ? m2 Hb2 F2]; subst. exists (b2 :: b :: m2). split; [constructor|auto].
  - destruct (IH1 _ F) as (m1 & P1 & F1). destruct (IH2 _ F1) as (m2 & P2 & F2). exists m2. split; auto. eapply perm_trans; eauto.
Qed.

(** The order of the paths decides about the order of the lines and nothing else. *)
Theorem C100_order : forall K T d opts m diff F ps qs ls code, Permutation ps qs -> ps <> [] ->
  reports F (lint K T d opts m diff (map PathArg ps)) ls code ->
  exists ls', Permutation ls ls' /\ reports F (lint K T d opts m diff (map PathArg qs)) ls' code.
Proof.
  intros K T d opts m diff F ps qs ls code Pm Ne H. apply C100_each in H; auto. destruct H as (each & H & -> & ->).
  destruct (forall2_perm _ _ _ _ _ _ Pm H) as (each' & Pe & H'). exists (concat (map fst each')). split.
  - clear - Pe. induction Pe as [|x l l' P IH|x y l|l1 l2 l3 P1 IH1 P2 IH2]; cbn [map concat]; auto.
    + now apply Permutation_app_head.
    + rewrite !app_assoc. apply Permutation_app_tail. apply Permutation_app_comm.
    + eapply perm_trans; eauto.
  - apply C100_each.
    + intros ->. apply Permutation_sym, Permutation_nil in Pm. contradiction.
    + exists each'. split; [exact H'|]. split; [reflexivity|]. apply lor_perm. now apply Permutation_map.
Qed.

(** Nothing is left to chance. *)
Lemma ends_bind : forall A R (P : A -> Prop) (Q : R -> Prop) (q : prog A) (f : A -> prog R), ends_in P q -> (forall a, P a -> ends_in Q (f a)) -> ends_in Q (pbind q f).
Proof. intros A R P Q q f H Hf. induction H; cbn [pbind]; auto; constructor; auto. Qed.

Lemma file_ends : forall T p opts hook, ends_in (fun _ => True) (fixit_file T p false opts hook).
Proof.
  intros T p opts hook. unfold fixit_file. apply ends_catch; [|intro e; repeat constructor]. constructor. intro F. destruct (f_file F p) as [content|]; [|constructor].
  constructor. intro F1. apply ends_lift. intro cfg. eapply ends_bind; [apply bytes_none|]. intros a ->. constructor. exact Logic.I.
Qed.

Lemma serial_ends : forall T ps opts hook, ends_in (fun _ => True) (serial T ps false opts hook).
Proof.
  intros T ps opts hook. induction ps as [|p ps IH]; cbn [serial]; [constructor; exact Logic.I|]. eapply ends_bind; [apply file_ends|]. auto.
Qed.

Lemma steps_unique : forall K diff cfg F (g : prog unit), ends_in (fun _ => True) g -> forall vs xs vs' xs', steps K diff cfg g vs xs -> steps K diff cfg g vs' xs' ->
  (forall F', In (VLook F') vs -> F' = F) -> (forall F', In (VLook F') vs' -> F' = F) -> vs = vs' /\ xs = xs'.
Proof.
  intros K diff cfg F g H. induction H as [r _|e|x k H IH|k H IH|m k H IH]; intros vs xs vs' xs' S1 S2 F1 F2; inversion S1; subst; inversion S2; subst; auto.
  - match goal with A : print_result _ _ _ _ _ _ = Ok (?l, _), B : print_result _ _ _ _ _ _ = Ok (?l', _) |- _ => rewrite A in B; injection B as <- <- end.
    match goal with A : steps _ _ _ (k None) ?v ?x0, B : steps _ _ _ (k None) ?v' ?x0' |- _ => destruct (IH v x0 v' x0' A B) as [-> ->]; auto; intros F' I; [apply F1|apply F2]; apply in_or_app; auto end.
  - match goal with A : steps _ _ _ (k ?f) ?v ?x0, B : steps _ _ _ (k ?f') ?v' ?x0' |- _ =>
      assert (f = F) as -> by (first [apply F1; left; reflexivity|apply F2; left; reflexivity]) end.
    match goal with A : steps _ _ _ (k F) ?v ?x0, B : steps _ _ _ (k ?f') ?v' ?x0' |- _ =>
      assert (f' = F) as -> by (first [apply F2; left; reflexivity|apply F1; left; reflexivity]); destruct (IH F v x0 v' x0' A B) as [-> ->]; auto; intros F' I; [apply F1|apply F2]; right; auto end.
  - match goal with A : steps _ _ _ (k _) ?v ?x0, B : steps _ _ _ (k _) ?v' ?x0' |- _ => destruct (IH (Ok tt) v x0 v' x0' A B) as [-> ->]; auto; intros F' I; [apply F1|apply F2]; right; auto end.
Qed.

(** Linting the same files again prints the same and returns the same. *)
Theorem C100_same : forall K T d opts m diff F ps ls code ls' code', ps <> [] ->
  reports F (lint K T d opts m diff (map PathArg ps)) ls code -> reports F (lint K T d opts m diff (map PathArg ps)) ls' code' -> ls = ls' /\ code = code'.
Proof.
  intros K T d opts m diff F [|p ps] ls code ls' code' Ne H H'; [congruence|]. apply lint_reports in H, H'.
  destruct H as (cfg & found & vs & xs & G & W & H & Fr & -> & ->), H' as (cfg' & found' & vs' & xs' & G' & W' & H' & Fr' & -> & ->).
  assert (cfg' = cfg) as -> by congruence. assert (found' = found) as -> by congruence.
  destruct (steps_unique _ _ _ _ _ (serial_ends _ _ _ _) _ _ _ _ H H' Fr Fr') as [-> ->]. auto.
Qed.

(** Linting several paths finds nothing to complain about exactly if linting each of them does not. *)
Theorem C100_success : forall K T d opts m diff F ps each ls code, ps <> [] ->
  one_by_one F (lint K T d opts m diff) ps each -> reports F (lint K T d opts m diff (map PathArg ps)) ls code -> 
  (code = 0%N <-> Forall (fun out => snd out = 0%N) each).
Proof.
  intros K T d opts m diff F ps each ls code Ne H R. apply C100_each in R; auto. destruct R as (each' & H' & _ & ->).
  assert (E : each = each').
  { revert each' H'. unfold one_by_one in *. clear Ne. induction H as [|p [l c] ps each H1 H IH]; intros each' H'; inversion H' as [|? [l' c'] ? e' H2 H3]; subst; [reflexivity|].
    f_equal; [|apply IH; auto]. destruct (C100_same K T d opts m diff F [p] l c l' c') as [-> ->]; auto. discriminate. }
  rewrite <- E. clear. induction each as [|[l c] each IH]; cbn [map snd fold_right]; [split; auto|]. split.
  - intro X. apply N.lor_eq_0_iff in X. destruct X as [-> X]. constructor; [reflexivity|]. now apply IH.
  - intro X. inversion X as [|? ? X1 X2]; subst. cbn [snd] in X1. rewrite X1. apply IH in X2. now rewrite X2.
Qed.

(** ** The claims are not vacuous *)

(** A file with violations and one that is missing: linting both, and each of them. *)
Lemma performed : forall F (c : cmd N) vs s code ls, perform c F [] [] false = (vs, Returned code) -> lines vs = ls ++ [s] -> reports F c ls code.
Proof.
  intros F c vs s code ls H L. exists vs, s. pose proof (perform_run _ c F [] [] false) as R. rewrite H in R. split; [exact R|]. split; [|exact L].
  clear - H. intros F' I. revert vs code H I. induction c as [r|e|s t k IH|k IH|k IH|p c k IH|k IH|c k IH]; intros vs code H I; cbn [perform] in H.
  - injection H as <- _. contradiction.
  - discriminate.
  - destruct (perform k F [] [] false) as [vs1 o1] eqn:E. injection H as <- ->. destruct I as [I|I]; [discriminate|]. eauto.
  - cbn [tl] in H; destruct (perform (k None) F [] [] false) as [vs1 o1] eqn:E. injection H as <- ->. destruct I as [I|I]; [discriminate|]. eauto.
  - destruct (perform (k F) F [] [] false) as [vs1 o1] eqn:E. injection H as <- ->. destruct I as [I|I]; [now injection I|]. eauto.
  - destruct (perform (k (Ok tt)) F [] [] false) as [vs1 o1] eqn:E. injection H as <- ->. destruct I as [I|I]; [discriminate|]. eauto.
  - match type of H with (let (_, _) := ?e in _) = _ => destruct e as [vs1 o1] eqn:E end. injection H as <- ->. destruct I as [I|I]; [discriminate|]. eauto.
  - destruct (perform (k (Ok tt)) F [] [] false) as [vs1 o1] eqn:E. injection H as <- ->. destruct I as [I|I]; [discriminate|]. eauto.
Qed.

Definition two_paths : list path := [ex_file; [u "d"; u "b.py"]].

Transparent make_plan fixit_bytes.
Example C100_example : exists l1 l2,
  reports ex_F (ex_lint (map PathArg two_paths)) (l1 ++ l2) 3 /\
  reports ex_F (ex_lint [PathArg ex_file]) l1 1 /\ reports ex_F (ex_lint [PathArg [u "d"; u "b.py"]]) l2 2 /\
  List.length l1 = 3 /\ List.length l2 = 2.
Proof.
  pose (r1 := perform (ex_lint [PathArg ex_file]) ex_F [] [] false). pose (r2 := perform (ex_lint [PathArg [u "d"; u "b.py"]]) ex_F [] [] false).
  exists (removelast (lines (fst r1))), (removelast (lines (fst r2))). split; [|split; [|split]].
  - eapply performed; vm_compute; reflexivity.
  - eapply performed; vm_compute; reflexivity.
  - eapply performed; vm_compute; reflexivity.
  - vm_compute. auto.
Qed.
