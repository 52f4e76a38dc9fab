(** * C99: a text on standard input instead of the file *)
From Coq Require Import String List NArith ZArith Bool Arith Lia.
From Verif Require Import Base PyStr Ftypes Paths Config Suppress Cst Engine EngineProps Batch Api ApiSpec ApiFacts ApiProps ApiPaths System SystemSpec SystemSame Cli CliSpec CliFacts CliProps.
Import ListNotations.

(** ** Specification *)

(** All that happens but for reading the input and storing the output. *)
Definition others (es : list ev) : list ev :=
  filter (fun e => match e with EWrite _ _ _ | EOut _ _ | EIn _ => false | _ => true end) es.

(** Storing the output succeeds. *)
Definition stores (es : list ev) : Prop := forall e, In e es -> match e with EWrite _ _ w | EOut _ w => w = Ok tt | _ => True end.

(** What the file at [p] holds after the events, if it held [content]. *)
Definition holds_after (p : path) (content : str) (es : list ev) (c : str) : Prop :=
  (written es = [] /\ c = content) \/ (exists before, written es = before ++ [(p, c)]).

(** ** Proofs *)

Lemma bind_ends : forall A B (p : prog A) (f : A -> prog B) es1 r es2 o,
  run p es1 (Returned r) -> run (f r) es2 o -> run (pbind p f) (es1 ++ es2) o.
Proof.
  intros A B p f es1 r es2 o H. remember (Returned r) as o1 eqn:E. revert r E.
  induction H; intros r0 E; try discriminate; cbn [pbind app]; intro H2; try (constructor; eauto).
  injection E as <-. exact H2.
Qed.

Lemma catch_ends : forall A (p : prog A) h es r, run p es (Returned r) -> run (catch p h) es (Returned r).
Proof.
  intros A p h es r H. remember (Returned r) as o1 eqn:E. revert E. induction H; intro E; try discriminate; cbn [catch]; constructor; auto.
Qed.

Lemma catch_raises : forall A (p : prog A) h es e es2 o, run p es (Raised e) -> run (h e) es2 o -> run (catch p h) (es ++ es2) o.
Proof.
  intros A p h es e es2 o H. remember (Raised e) as o1 eqn:E. revert E. induction H; intros E H2; try discriminate; cbn [catch app]; try (constructor; auto).
  injection E as <-. exact H2.
Qed.

Opaque fixit_bytes.

(** The part of an execution that both have in common, and how each ends *)
Definition common (T : tool) (p : path) (autofix : bool) (opts : option options) (hook : bool) (content : str) (body : list ev) (updated : option str) (ok : bool) : Prop :=
  (ok = true /\ exists F1 cfg b, body = ELook F1 :: b /\ generate_config (t_env T) F1 p None opts = Ok cfg /\
     run (fixit_bytes T p content cfg autofix hook) b (Returned updated)) \/
  (ok = false /\ updated = None /\ exists F1 e a, body = [ELook F1; EGive (error_result p e) a] /\ generate_config (t_env T) F1 p None opts = Err e).

Definition stored_file (p : path) (content : str) (updated : option str) : list ev :=
  match updated with Some ((_ :: _) as c) => if negb (str_eqb c content) then [EWrite p c (Ok tt)] else [] | _ => [] end.
Definition stored_out (autofix ok : bool) (content : str) (updated : option str) : list ev :=
  if autofix && ok then [EOut (match updated with Some ((_ :: _) as c) => c | _ => content end) (Ok tt)] else [].

Lemma common_quiet : forall T p autofix opts hook content body updated ok, common T p autofix opts hook content body updated ok -> quiet body.
Proof.
  intros T p autofix opts hook content body updated ok [(_ & F1 & cfg & b & -> & _ & R)|(_ & _ & F1 & e & a & -> & _)].
  - apply bytes_run in R. destruct R as [Q _]. auto.
  - auto.
Qed.

Lemma stores_cons : forall e es, stores (e :: es) -> stores es.
Proof. intros e es H x I. apply H. simpl. auto. Qed.
Lemma stores_app : forall a b, stores (a ++ b) -> stores b.
Proof. intros a b H x I. apply H, in_or_app. auto. Qed.

Lemma file_common : forall T p autofix opts hook content F es, f_file F p = Some content ->
  (run (fixit_file T p autofix opts hook) (ELook F :: es) (Returned tt) /\ stores es <->
   exists body updated ok, common T p autofix opts hook content body updated ok /\ es = body ++ stored_file p content updated).
Proof.
  intros T p autofix opts hook content F es Ef. split.
  - intros [H St]. unfold fixit_file in H. cbn [catch] in H. inversion H as [| | | |? ? ? ? H1| | | |]; subst. rewrite Ef in H1. cbn [catch] in H1.
    inversion H1 as [| | | |? F1 es1 ? H2| | | |]; subst. clear H H1. destruct (generate_config (t_env T) F1 p None opts) as [cfg|e] eqn:Eg; cbn [lift] in H2.
    + apply run_catch in H2. destruct H2 as [[X _]|[(r & _ & H2)|(ea & eb & e & -> & H2 & H3)]]; [discriminate|..].
      * apply run_pbind in H2. destruct H2 as [[X _]|[(e & X & _)|(ea & eb & r' & -> & H2 & H3)]]; try discriminate.
        exists (ELook F1 :: ea), r', true. split; [left; split; auto; exists F1, cfg, ea; auto|]. cbn [app]. do 2 f_equal.
        unfold stored_file. destruct r' as [[|c0 c]|]; try (inversion H3; reflexivity).
        destruct (negb (str_eqb (c0 :: c) content)); [|inversion H3; reflexivity].
        inversion H3 as [| | | | |? ? ? w es3 ? H4| | |]; subst. assert (w = Ok tt) as ->. { apply (St (EWrite p (c0 :: c) w)). right. apply in_or_app. simpl. auto. }
        cbn [lift] in H4. inversion H4. reflexivity.
      * apply run_pbind in H2. destruct H2 as [[X _]|[(e' & X & H2)|(ec & ed & r' & -> & H2 & H4)]]; try discriminate.
        { apply bytes_run in H2. destruct H2 as [_ [[_ X']|(F2 & e2 & _ & Y)]]; [discriminate|]. destruct (lint_of T F2 p content cfg). contradiction. }
        destruct r' as [[|c0 c]|]; try (inversion H4; fail). destruct (negb (str_eqb (c0 :: c) content)); [|inversion H4].
        inversion H4 as [| | | | |? ? ? w es3 ? H5| | |]; subst. assert (w = Ok tt) as ->. { apply (St (EWrite p (c0 :: c) w)). right. rewrite <- app_assoc. apply in_or_app. simpl. auto. }
        cbn [lift] in H5. inversion H5.
    + cbn [catch] in H2. inversion H2 as [| | |? ? a es2 ? H3| | | | |]; subst. inversion H3; subst.
      exists [ELook F1; EGive (error_result p e) a], None, false. split; [|reflexivity]. right. split; auto. split; auto. exists F1, e, a. auto.
  - intros (body & updated & ok & C & ->). split.
    + unfold fixit_file. cbn [catch]. constructor. rewrite Ef. cbn [catch]. destruct C as [(_ & F1 & cfg & b & -> & Eg & R)|(_ & -> & F1 & e & a & -> & Eg)]; cbn [app].
      * constructor. rewrite Eg. cbn [lift]. apply catch_ends. eapply bind_ends; [exact R|]. unfold stored_file.
        destruct updated as [[|c0 c]|]; try constructor. destruct (negb (str_eqb (c0 :: c) content)); repeat constructor.
      * constructor. rewrite Eg. cbn [lift catch]. constructor. constructor.
    + pose proof (common_quiet _ _ _ _ _ _ _ _ _ C) as Q. intros x I. apply in_app_iff in I. destruct I as [I|I].
      * unfold quiet in Q. rewrite Forall_forall in Q. apply Q in I. destruct x; auto; contradiction.
      * unfold stored_file in I. destruct updated as [[|c0 c]|]; try contradiction. destruct (negb _); [|contradiction]. destruct I as [<-|[]]. reflexivity.
Qed.

Lemma stdin_common : forall T p autofix opts hook content es,
  (run (fixit_stdin T p autofix opts hook) (EIn (Ok content) :: es) (Returned tt) /\ stores es <->
   exists body updated ok, common T p autofix opts hook content body updated ok /\ es = body ++ stored_out autofix ok content updated).
Proof.
  intros T p autofix opts hook content es. split.
  - intros [H St]. unfold fixit_stdin in H. cbn [catch] in H. inversion H as [| | | | | |? ? ? ? H1| |]; subst. cbn [lift catch] in H1.
    inversion H1 as [| | | |? F1 es1 ? H2| | | |]; subst. clear H H1. destruct (generate_config (t_env T) F1 p None opts) as [cfg|e] eqn:Eg; cbn [lift] in H2.
    + apply run_catch in H2. destruct H2 as [[X _]|[(r & _ & H2)|(ea & eb & e & -> & H2 & H3)]]; [discriminate|..].
      * apply run_pbind in H2. destruct H2 as [[X _]|[(e & X & _)|(ea & eb & r' & -> & H2 & H3)]]; try discriminate.
        exists (ELook F1 :: ea), r', true. split; [left; split; auto; exists F1, cfg, ea; auto|]. cbn [app]. do 2 f_equal.
        unfold stored_out. destruct autofix; cbn [andb]; [|inversion H3; reflexivity].
        inversion H3 as [| | | | | | |? ? w es3 ? H4|]; subst. 
        assert (w = Ok tt) as ->. { match goal with H : stores (_ :: _ ++ EOut ?c w :: _) |- _ => apply (H (EOut c w)) end. right. apply in_or_app. simpl. auto. }
        cbn [lift] in H4. inversion H4. reflexivity.
      * apply run_pbind in H2. destruct H2 as [[X _]|[(e' & X & H2)|(ec & ed & r' & -> & H2 & H4)]]; try discriminate.
        { apply bytes_run in H2. destruct H2 as [_ [[_ X']|(F2 & e2 & _ & Y)]]; [discriminate|]. destruct (lint_of T F2 p content cfg). contradiction. }
        destruct autofix; [|inversion H4]. inversion H4 as [| | | | | | |? ? w es3 ? H5|]; subst.
        assert (w = Ok tt) as ->. { match goal with H : stores (_ :: (_ ++ EOut ?c w :: _) ++ _) |- _ => apply (H (EOut c w)) end. right. rewrite <- app_assoc. apply in_or_app. simpl. auto. }
        cbn [lift] in H5. inversion H5.
    + cbn [catch] in H2. inversion H2 as [| | |? ? a es2 ? H3| | | | |]; subst. inversion H3; subst.
      exists [ELook F1; EGive (error_result p e) a], None, false. unfold stored_out. rewrite andb_false_r. split; [|reflexivity]. right. split; auto. split; auto. exists F1, e, a. auto.
  - intros (body & updated & ok & C & ->). split.
    + unfold fixit_stdin. cbn [catch]. constructor. cbn [lift catch]. destruct C as [(-> & F1 & cfg & b & -> & Eg & R)|(-> & -> & F1 & e & a & -> & Eg)]; cbn [app].
      * constructor. rewrite Eg. cbn [lift]. apply catch_ends. eapply bind_ends; [exact R|]. unfold stored_out. rewrite andb_true_r.
        destruct autofix; repeat constructor.
      * unfold stored_out. rewrite andb_false_r. constructor. rewrite Eg. cbn [lift catch]. constructor. constructor.
    + pose proof (common_quiet _ _ _ _ _ _ _ _ _ C) as Q. intros x I. apply in_app_iff in I. destruct I as [I|I].
      * unfold quiet in Q. rewrite Forall_forall in Q. apply Q in I. destruct x; auto; contradiction.
      * unfold stored_out in I. destruct (autofix && ok); [|contradiction]. destruct I as [<-|[]]. reflexivity.
Qed.

Lemma quiet_others : forall es, quiet es -> others es = es.
Proof. intros es H. induction H as [|e es H _ IH]; [reflexivity|]. destruct e; try contradiction; unfold others in *; cbn [filter]; now rewrite IH. Qed.
Lemma others_app : forall a b, others (a ++ b) = others a ++ others b.
Proof. intros. apply filter_app. Qed.

Lemma sides : forall T p autofix opts hook content body updated ok, common T p autofix opts hook content body updated ok ->
  others (body ++ stored_file p content updated) = body /\ others (body ++ stored_out autofix ok content updated) = body /\
  written (body ++ stored_out autofix ok content updated) = [] /\ printed (body ++ stored_file p content updated) = [] /\
  (autofix = false \/ ok = false -> printed (body ++ stored_out autofix ok content updated) = []) /\
  (autofix = true -> ok = true -> exists c, printed (body ++ stored_out autofix ok content updated) = [c] /\ holds_after p content (body ++ stored_file p content updated) c).
Proof.
  intros T p autofix opts hook content body updated ok C. pose proof (common_quiet _ _ _ _ _ _ _ _ _ C) as Q.
  rewrite !others_app, !written_app, !printed_app, (quiet_others _ Q), (quiet_written _ Q), (quiet_printed _ Q). cbn [app].
  assert (A : others (stored_file p content updated) = [] /\ printed (stored_file p content updated) = []).
  { unfold stored_file. destruct updated as [[|c0 c]|]; auto. destruct (negb _); auto. }
  assert (B : others (stored_out autofix ok content updated) = [] /\ written (stored_out autofix ok content updated) = []).
  { unfold stored_out. destruct (autofix && ok); auto. }
  destruct A as [-> ->], B as [-> ->]. rewrite app_nil_r. repeat split; auto.
  - unfold stored_out. intros [->| ->]; rewrite ?andb_false_r; reflexivity.
  - intros -> ->. unfold stored_out. cbn [andb]. eexists. split; [reflexivity|]. unfold holds_after. rewrite written_app, (quiet_written _ Q). cbn [app].
    unfold stored_file. destruct updated as [[|c0 c]|]; auto. destruct (str_eqb (c0 :: c) content) eqn:E; cbn [negb written].
    + left. split; auto. now apply str_eqb_eq.
    + right. exists []. reflexivity.
Qed.

(** ** C99 *)

(** Linting or fixing the file that holds the text, and the same with the text on standard input: all that happens is the same - the results,
    the answers, what is looked at, metrics - and what is printed is what the file holds afterwards. *)
Theorem C99_file_to_stdin : forall T p autofix opts hook content F es, f_file F p = Some content ->
  run (fixit_file T p autofix opts hook) (ELook F :: es) (Returned tt) -> stores es ->
  exists es', run (fixit_stdin T p autofix opts hook) (EIn (Ok content) :: es') (Returned tt) /\ stores es' /\
    others es' = others es /\ written es' = [] /\ (autofix = false -> printed es' = []) /\
    (autofix = true -> (exists F1 cfg, nth_error es 0 = Some (ELook F1) /\ generate_config (t_env T) F1 p None opts = Ok cfg) ->
     exists c, printed es' = [c] /\ holds_after p content es c).
Proof.
  intros T p autofix opts hook content F es Ef H St. destruct (proj1 (file_common _ _ _ _ _ _ _ _ Ef) (conj H St)) as (body & updated & ok & C & ->).
  exists (body ++ stored_out autofix ok content updated). destruct (sides _ _ _ _ _ _ _ _ _ C) as (S1 & S2 & S3 & _ & S4 & S5).
  destruct (proj2 (stdin_common T p autofix opts hook content (body ++ stored_out autofix ok content updated))) as [R S0]; [eauto 7|].
  repeat split; auto; try congruence. intros A (F1 & cfg & N & G). apply S5; auto.
  destruct C as [(-> & _)|(_ & _ & F1' & e & a & -> & G')]; auto. cbn in N. injection N as ->. congruence.
Qed.

(** And the other way round. *)
Theorem C99_stdin_to_file : forall T p autofix opts hook content F es', f_file F p = Some content ->
  run (fixit_stdin T p autofix opts hook) (EIn (Ok content) :: es') (Returned tt) -> stores es' ->
  exists es, run (fixit_file T p autofix opts hook) (ELook F :: es) (Returned tt) /\ stores es /\
    others es = others es' /\ printed es = [] /\ (forall c, printed es' = [c] -> holds_after p content es c).
Proof.
  intros T p autofix opts hook content F es' Ef H St. destruct (proj1 (stdin_common _ _ _ _ _ _ _) (conj H St)) as (body & updated & ok & C & ->).
  exists (body ++ stored_file p content updated). destruct (sides _ _ _ _ _ _ _ _ _ C) as (S1 & S2 & S3 & Sp & S4 & S5).
  destruct (proj2 (file_common T p autofix opts hook content F (body ++ stored_file p content updated) Ef)) as [R S0]; [eauto|].
  repeat split; auto; try congruence. intros c P. destruct autofix, ok; try (rewrite S4 in P by auto; discriminate).
  destruct S5 as (c' & P' & Hd); auto. congruence.
Qed.

(** ** The command *)

(** Two generators that are the same for a caller who never answers *)
Inductive unasked {R} : prog R -> prog R -> Prop :=
| un_ret : forall r, unasked (Ret r) (Ret r)
| un_raise : forall e, unasked (Raise e) (Raise e)
| un_give : forall x k k', unasked (k None) (k' None) -> unasked (Give x k) (Give x k')
| un_look : forall k k', (forall F, unasked (k F) (k' F)) -> unasked (Look k) (Look k')
| un_call : forall m k k', (forall o, unasked (k o) (k' o)) -> unasked (Call m k) (Call m k').

Lemma unasked_sym : forall R (p q : prog R), unasked p q -> unasked q p.
Proof. intros R p q H. induction H; constructor; auto. Qed.

Lemma unasked_lint : forall K diff cfg (g g' : prog unit), unasked g g' -> forall t vs o, crun (Cli.lint_loop K diff cfg g t) vs o -> crun (Cli.lint_loop K diff cfg g' t) vs o.
Proof.
  intros K diff cfg g g' H. induction H as [r|e|x k k' H IH|k k' H IH|m k k' H IH]; intros t vs o R; cbn [Cli.lint_loop] in *; auto.
  - destruct (print_result K x diff false (c_format cfg) (c_template cfg)) as [[ls dirty]|e]; auto.
    revert vs R. induction ls as [|[s l] ls IHl]; intros vs R; cbn [print_all] in *; [auto|]. inversion R; subst; constructor; auto.
  - inversion R; subst; constructor; auto.
  - inversion R; subst; constructor; auto.
Qed.

(** Generators that a caller who never answers sees end with a value in [P] *)
Inductive ends_in {R} (P : R -> Prop) : prog R -> Prop :=
| en_ret : forall r, P r -> ends_in P (Ret r)
| en_raise : forall e, ends_in P (Raise e)
| en_give : forall x k, ends_in P (k None) -> ends_in P (Give x k)
| en_look : forall k, (forall F, ends_in P (k F)) -> ends_in P (Look k)
| en_call : forall m k, (forall o, ends_in P (k o)) -> ends_in P (Call m k).

Lemma ends_lift : forall A R (P : R -> Prop) (r : res A) f, (forall a, ends_in P (f a)) -> ends_in P (lift r f).
Proof. intros A R P [a|e] f H; cbn [lift]; [auto|constructor]. Qed.
Lemma ends_catch : forall R (P : R -> Prop) (p : prog R) h, ends_in P p -> (forall e, ends_in P (h e)) -> ends_in P (catch p h).
Proof. intros R P p h H Hh. induction H; cbn [catch]; auto; constructor; auto. Qed.

Transparent fixit_bytes.
Lemma bytes_none : forall T p content cfg hook, ends_in (fun r => r = None) (fixit_bytes T p content cfg false hook).
Proof.
  intros T p content cfg hook. unfold fixit_bytes. apply ends_catch; [|intro e; repeat constructor].
  constructor. intro F. apply ends_lift. intros [|k ks]; [repeat constructor|]. apply ends_lift. intro md.
  destruct (collect_violations (t_udiff T p) md (t_visit T F cfg md (k :: ks)) hook) as [evs r].
  generalize true. induction evs as [|[v|m] evs IH]; intro clean; cbn [lint_loop].
  - apply ends_lift. intros _. destruct clean; repeat constructor.
  - constructor. cbn [truthy_answer orb]. apply IH.
  - constructor. intro o. apply ends_lift. intros _. apply IH.
Qed.
Opaque fixit_bytes.

Lemma unasked_bind : forall A R (P : A -> Prop) (p : prog A) (f g : A -> prog R), ends_in P p -> (forall a, P a -> unasked (f a) (g a)) -> unasked (pbind p f) (pbind p g).
Proof. intros A R P p f g H Hf. induction H; cbn [pbind]; auto; constructor; auto. Qed.
Lemma unasked_catch : forall R (p q : prog R) h, unasked p q -> (forall e, unasked (h e) (h e)) -> unasked (catch p h) (catch q h).
Proof. intros R p q h H Hh. induction H; cbn [catch]; auto; constructor; auto. Qed.
Lemma unasked_unit : forall (p q : prog unit), unasked p q -> unasked p (pbind q (fun _ => Ret tt)).
Proof. intros p q H. induction H; cbn [pbind]; try (constructor; auto; fail). destruct r. constructor. Qed.

(** [fixit lint - p] with the text of the file p on standard input does, prints and returns what [fixit lint p] does, prints and returns,
    whatever the rules, the configuration and the options are: the only difference is where the text comes from. *)
Theorem C99_lint : forall K T d opts m diff p content G G1 F vs o,
  t_walk T G1 p = Ok [p] -> f_file F p = Some content ->
  (crun (lint K T d opts m diff [Dash; PathArg p]) (VLook G :: VLook G1 :: VIn (Ok content) :: vs) o <->
   crun (lint K T d opts m diff [PathArg p]) (VLook G :: VLook G1 :: VLook F :: vs) o).
Proof.
  intros K T d opts m diff p content G G1 F vs o Wk Ef. unfold lint, lint_with, or_cwd.
  set (tail_in := catch (Look (fun F0 => lift (generate_config (t_env T) F0 p None (Some opts)) (fun cfg => pbind (fixit_bytes T p content cfg false m) (fun _ => Ret tt)))) (fun e => Give (error_result p e) (fun _ => Ret tt))).
  set (tail_file := pbind (catch (Look (fun F0 => lift (generate_config (t_env T) F0 p None (Some opts)) (fun cfg => pbind (fixit_bytes T p content cfg false m) (fun updated =>
                 match updated with
                 | Some ((_ :: _) as c) =>
                     if negb (str_eqb c content) then Write p c (fun o => lift o (fun _ => Ret tt)) else Ret tt
                 | _ => Ret tt
                 end)))) (fun e => Give (error_result p e) (fun _ => Ret tt))) (fun _ => Ret tt)).
  assert (U : unasked tail_in tail_file).
  { apply unasked_unit. apply unasked_catch; [|intro e; repeat constructor]. constructor. intro F0.
    destruct (generate_config (t_env T) F0 p None (Some opts)) as [cfg|e]; cbn [lift]; [|constructor].
    apply (unasked_bind _ _ (fun r => r = None)); [apply bytes_none|]. intros r ->. constructor. }
  assert (A : forall cfg vs o, crun (Cli.lint_loop K diff cfg (fixit_paths_serial T d [Dash; PathArg p] false (Some opts) m) no_tally) (VLook G1 :: VIn (Ok content) :: vs) o <->
                      crun (Cli.lint_loop K diff cfg tail_in no_tally) vs o).
  { intros cfg vs0 o0. unfold fixit_paths_serial. cbn [Cli.lint_loop make_plan enumerate fold_res take_arg snd fst bind Nat.eqb a_stdin a_name a_files lift fixit_stdin catch]. split.
    - intro H. inversion H; subst. match goal with H : crun (CStdin _) _ _ |- _ => inversion H; subst end. assumption.
    - intro H. constructor. constructor. exact H. }
  assert (B : forall cfg vs o, crun (Cli.lint_loop K diff cfg (fixit_paths_serial T d [PathArg p] false (Some opts) m) no_tally) (VLook G1 :: VLook F :: vs) o <->
                      crun (Cli.lint_loop K diff cfg tail_file no_tally) vs o).
  { intros cfg vs0 o0. unfold fixit_paths_serial. cbn [Cli.lint_loop]. split.
    - intro H. inversion H as [| | | | |? ? ? ? H1| | |]; subst. cbn [make_plan enumerate fold_res take_arg snd fst bind a_stdin] in H1. rewrite Wk in H1.
      cbn [bind a_stdin a_files app List.length Nat.eqb orb negb lift serial fixit_file catch pbind Cli.lint_loop] in H1. inversion H1 as [| | | | |? ? ? ? H2| | |]; subst. rewrite Ef in H2. exact H2.
    - intro H. constructor. cbn [make_plan enumerate fold_res take_arg snd fst bind a_stdin]. rewrite Wk.
      cbn [bind a_stdin a_files app List.length Nat.eqb orb negb lift serial fixit_file catch pbind Cli.lint_loop]. constructor. rewrite Ef. exact H. }
  split; intro H; inversion H as [| | | | |? ? ? ? H1| | |]; subst; constructor; destruct (generate_config (t_env T) G (k_cwd K) None (Some opts)) as [cfg|e];
    try (inversion H1; fail).
  - apply B. apply A in H1. eapply unasked_lint; eauto.
  - apply A. apply B in H1. eapply unasked_lint; [apply unasked_sym|]; eauto.
Qed.

(** ** The command that fixes *)

(** What a command writes to standard output as the text of a file *)
Definition texts (vs : list cev) : list str := flat_map (fun v => match v with VOut c _ => [c] | _ => [] end) vs.
Definition looks (vs : list cev) : list fs := flat_map (fun v => match v with VLook F => [F] | _ => [] end) vs.

(** Two generators of which one stores the outcome in the file and the other prints it *)
Inductive twin (p : path) (content : str) : prog unit -> prog unit -> Prop :=
| tw_give : forall x k k', twin p content (k None) (k' None) -> twin p content (Give x k) (Give x k')
| tw_look : forall k k', (forall F, twin p content (k F) (k' F)) -> twin p content (Look k) (Look k')
| tw_call : forall m k k', (forall o, twin p content (k o) (k' o)) -> twin p content (Call m k) (Call m k')
| tw_same : forall k', k' (Ok tt) = Ret tt -> twin p content (Ret tt) (Stdout content k')
| tw_both : forall c k k', k (Ok tt) = Ret tt -> k' (Ok tt) = Ret tt -> twin p content (Write p c k) (Stdout c k').

Definition after (p : path) (content : str) (vs vs' : list cev) : Prop :=
  map snd (lines vs') = map snd (lines vs) /\ saved vs' = [] /\ looks vs' = looks vs /\
  exists c, texts vs' = [c] /\ ((saved vs = [] /\ c = content) \/ saved vs = [(p, c)]).

Lemma result_streams : forall K x diff fmt tmpl, match print_result K x diff false fmt tmpl, print_result K x diff true fmt tmpl with
  | Ok (ls, dirty), Ok (ls', dirty') => map snd ls' = map snd ls /\ dirty' = dirty
  | Err e, Err e' => e = e' | _, _ => False end.
Proof.
  intros K x diff fmt tmpl. unfold print_result. destruct (x_violation x) as [v|].
  - destruct fmt; cbn [bind map snd]; auto. destruct (k_format _ _ _ _ _ _ _ _); cbn [bind map snd]; auto.
  - destruct (x_error x); cbn; auto.
Qed.

Lemma print_all_runs : forall R ls (k : cmd R) vs r, crun (print_all ls k) vs (Returned r) <->
  exists vs2, vs = map (fun x => VPrint (fst x) (snd x)) ls ++ vs2 /\ crun k vs2 (Returned r).
Proof.
  intros R ls k. induction ls as [|[s t] ls IH]; intros vs r; cbn [print_all map app].
  - split; [eauto|]. intros (vs2 & -> & H). exact H.
  - split.
    + intro H. inversion H; subst. match goal with H : crun (print_all _ _) _ _ |- _ => apply IH in H; destruct H as (vs2 & -> & H) end. eauto.
    + intros (vs2 & -> & H). constructor. apply IH. eauto.
Qed.

Lemma printed_facts : forall (ls : list (stream * str)), lines (map (fun x => VPrint (fst x) (snd x)) ls) = ls /\ saved (map (fun x => VPrint (fst x) (snd x)) ls) = [] /\
  looks (map (fun x => VPrint (fst x) (snd x)) ls) = [] /\ texts (map (fun x => VPrint (fst x) (snd x)) ls) = [].
Proof. induction ls as [|[s t] ls IH]; [auto|]. destruct IH as (A & B & C & D). unfold lines, saved, looks, texts in *. cbn [map flat_map fst snd app]. rewrite A, B, C, D. auto. Qed.

Lemma after_print : forall p content ls ls' vs vs', map snd ls' = map snd ls -> after p content vs vs' ->
  after p content (map (fun x => VPrint (fst x) (snd x)) ls ++ vs) (map (fun x => VPrint (fst x) (snd x)) ls' ++ vs').
Proof.
  intros p content ls ls' vs vs' E (A & B & C & c & D1 & D2). destruct (printed_facts ls) as (P1 & P2 & P3 & P4), (printed_facts ls') as (Q1 & Q2 & Q3 & Q4).
  unfold after, lines, saved, looks, texts in *. rewrite !flat_map_app, !map_app, P1, P2, P3, Q1, Q2, Q3, Q4, A, E. cbn [app]. repeat split; auto. eauto.
Qed.

Lemma twin_fix : forall K diff cfg p content g g', twin p content g g' -> forall t vs n,
  crun (fix_loop K false diff false cfg g t) vs (Returned n) -> (forall q c w, In (VWrite q c w) vs -> w = Ok tt) ->
  exists vs', crun (fix_loop K false diff true cfg g' t) vs' (Returned n) /\ after p content vs vs'.
Proof.
  intros K diff cfg p content g g' H. induction H as [x k k' H IH|k k' H IH|m k k' H IH|k' E'|c k k' E E']; intros t vs n R W; cbn [fix_loop] in *.
  - pose proof (result_streams K x (false || diff) (c_format cfg) (c_template cfg)) as P.
    destruct (print_result K x (false || diff) false (c_format cfg) (c_template cfg)) as [[ls dirty]|e]; [|inversion R].
    destruct (print_result K x (false || diff) true (c_format cfg) (c_template cfg)) as [[ls' dirty']|e]; [|contradiction].
    destruct P as [P ->]. cbn [andb] in *. apply print_all_runs in R. destruct R as (vs2 & -> & R). 
    apply IH in R; [|intros q c w I; apply (W q c w); apply in_or_app; auto]. destruct R as (vs' & R & A).
    exists (map (fun x => VPrint (fst x) (snd x)) ls' ++ vs'). split; [apply print_all_runs; eauto|now apply after_print].
  - inversion R; subst. match goal with H : crun _ _ _ |- _ => apply IH in H; [destruct H as (vs' & R' & A1 & A2 & A3 & A4)|intros q c w I; apply (W q c w); right; exact I] end.
    eexists (VLook _ :: vs'). split; [constructor; exact R'|]. unfold after, lines, saved, looks, texts in *. cbn [flat_map app map]. repeat split; auto. now rewrite A3.
  - inversion R; subst. match goal with H : crun _ _ _ |- _ => apply IH in H; [destruct H as (vs' & R' & A)|intros q c w I; apply (W q c w); right; exact I] end.
    eexists (VPrint _ _ :: vs'). split; [constructor; exact R'|]. exact (after_print p content [(Std, k_metrics K m)] [(Std, k_metrics K m)] _ _ eq_refl A).
  - exists (VOut content (Ok tt) :: vs). split; [constructor; rewrite E'; exact R|].
    unfold fix_end, splash in R. assert (Q : exists s t0, vs = [VPrint s t0]).
    { apply print_all_runs in R. destruct R as (vs2 & -> & R). inversion R; subst. cbn [map app]. eauto. }
    destruct Q as (s & t0 & ->). unfold after. cbn. repeat split; auto. eauto.
  - inversion R as [| | | | | |? ? ? w vs2 ? R2| |]; subst. assert (w = Ok tt) as -> by (eapply W; left; reflexivity). rewrite E in R2. cbn [fix_loop] in R2.
    exists (VOut c (Ok tt) :: vs2). split; [constructor; rewrite E'; exact R2|].
    assert (Q : exists s t0, vs2 = [VPrint s t0]).
    { apply print_all_runs in R2. destruct R2 as (vs3 & -> & R3). inversion R3; subst. cbn [map app]. eauto. }
    destruct Q as (s & t0 & ->). unfold after. cbn. repeat split; auto. eauto.
Qed.

(** Generators that never raise *)
Inductive safe {R} : prog R -> Prop :=
| sf_ret : forall r, safe (Ret r)
| sf_give : forall x k, safe (k None) -> safe (Give x k)
| sf_look : forall k, (forall F, safe (k F)) -> safe (Look k)
| sf_call : forall m k, (forall o, safe (k o)) -> safe (Call m k).

Lemma safe_catch : forall R (P : R -> Prop) (q : prog R) h, ends_in P q -> (forall e, safe (h e)) -> safe (catch q h).
Proof. intros R P q h H Hh. induction H; cbn [catch]; auto; constructor; auto. Qed.

Transparent fixit_bytes.
Lemma bytes_safe : forall T p content cfg autofix hook, safe (fixit_bytes T p content cfg autofix hook).
Proof.
  intros T p content cfg autofix hook. unfold fixit_bytes. apply (safe_catch _ (fun _ => True)); [|intro e; repeat constructor].
  constructor. intro F. apply ends_lift. intros [|k ks]; [repeat constructor|]. apply ends_lift. intro md.
  destruct (collect_violations (t_udiff T p) md (t_visit T F cfg md (k :: ks)) hook) as [evs r].
  assert (A : forall pending, ends_in (fun _ : option str => True) (finish_fixes T p cfg md pending)).
  { intro pending. unfold finish_fixes. destruct pending; [repeat constructor|]. apply ends_lift. intros [m|]; [|constructor]. constructor. intro F0. apply ends_lift. intro c. repeat constructor. }
  generalize true, (@nil viol). induction evs as [|[v|m] evs IH]; intros clean pending; cbn [lint_loop].
  - apply ends_lift. intros _. destruct clean; [constructor|]; apply A.
  - constructor. apply IH.
  - constructor. intro o. apply ends_lift. intros _. apply IH.
Qed.
Opaque fixit_bytes.

Lemma twin_bind : forall A p content (q : prog A) (f g : A -> prog unit) h, safe q -> (forall a, twin p content (catch (f a) h) (catch (g a) h)) ->
  twin p content (catch (pbind q f) h) (catch (pbind q g) h).
Proof. intros A p content q f g h H Hf. induction H; cbn [pbind catch]; auto; constructor; auto. Qed.
Lemma twin_unit : forall p content g g', twin p content g g' -> twin p content (pbind g (fun _ => Ret tt)) g'.
Proof. intros p content g g' H. induction H; cbn [pbind]; try (constructor; auto; fail). constructor; auto. now rewrite H. Qed.

(** [fixit fix --automatic - p] with the text of the file p on standard input says what [fixit fix --automatic p] says (on standard error), returns what it returns,
    leaves all files alone and prints what the file holds after the other. *)
Theorem C99_fix : forall K T d opts m diff p content G G1 F F1 cfg vs n,
  t_walk T G1 p = Ok [p] -> f_file F p = Some content -> generate_config (t_env T) F1 p None (Some opts) = Ok cfg ->
  crun (fix_ K T d opts m false diff [PathArg p]) (VLook G :: VLook G1 :: VLook F :: VLook F1 :: vs) (Returned n) ->
  (forall q c w, In (VWrite q c w) vs -> w = Ok tt) ->
  exists vs', crun (fix_ K T d opts m false diff [Dash; PathArg p]) (VLook G :: VLook G1 :: VIn (Ok content) :: VLook F1 :: vs') (Returned n) /\
    map snd (lines vs') = map snd (lines vs) /\ saved vs' = [] /\ looks vs' = looks vs /\
    exists c, texts vs' = [c] /\ ((saved vs = [] /\ c = content) \/ saved vs = [(p, c)]).
Proof.
  intros K T d opts m diff p content G G1 F F1 cfg vs n Wk Ef Eg. unfold fix_, or_cwd. cbn [first_is_dash andb negb].
  intros H W. inversion H as [| | | | |? ? ? ? H1| | |]; subst. clear H. destruct (generate_config (t_env T) G (k_cwd K) None (Some opts)) as [cfg0|e] eqn:E0; [|inversion H1].
  unfold fixit_paths_serial in H1. cbn [fix_loop] in H1. inversion H1 as [| | | | |? ? ? ? H2| | |]; subst. clear H1.
  cbn [make_plan enumerate fold_res take_arg snd fst bind a_stdin] in H2. rewrite Wk in H2.
  cbn [bind a_stdin a_files app List.length Nat.eqb orb negb lift serial fixit_file catch pbind fix_loop] in H2.
  inversion H2 as [| | | | |? ? ? ? H3| | |]; subst. clear H2. rewrite Ef in H3. cbn [catch pbind fix_loop] in H3.
  inversion H3 as [| | | | |? ? ? ? H4| | |]; subst. clear H3. rewrite Eg in H4. cbn [lift] in H4.
  eapply twin_fix in H4; [destruct H4 as (vs' & R & A)| |exact W].
  - exists vs'. split; [|exact A]. constructor. rewrite E0. unfold fixit_paths_serial.
    cbn [fix_loop make_plan enumerate fold_res take_arg snd fst bind Nat.eqb a_stdin a_name a_files lift fixit_stdin catch].
    constructor. cbn [fix_loop]. constructor. cbn [fix_loop lift catch]. constructor. rewrite Eg. cbn [lift]. exact R.
  - apply twin_unit. apply twin_bind; [apply bytes_safe|]. intros [[|c0 c]|]; cbn [catch]; try (constructor; reflexivity).
    destruct (str_eqb (c0 :: c) content) eqn:E; cbn [negb catch].
    + apply str_eqb_eq in E. rewrite E. constructor. reflexivity.
    + constructor; reflexivity.
Qed.

(** ** The claims are not vacuous *)

(** The file of ApiProps: what [fixit fix --automatic] says and stores, and what it says and prints when the text comes from standard input. *)
Example C99_example :
  let (vs, o) := perform (ex_fix false false false [PathArg ex_file]) ex_F [] [] false in
  let (vs', o') := perform (ex_fix false false false [Dash; PathArg ex_file]) ex_F [] (code ex_module) false in
  t_walk (ex_tool false ex_rules) ex_F ex_file = Ok [ex_file] /\ f_file ex_F ex_file = Some (code ex_module) /\
  o = Returned 0%N /\ o' = Returned 0%N /\ saved vs = [(ex_file, u "x = f(99, 2)" ++ nl)] /\ texts vs' = [u "x = f(99, 2)" ++ nl] /\ saved vs' = [] /\
  map snd (lines vs') = map snd (lines vs) /\ List.length (lines vs) = 4 /\ looks vs' = tl (looks vs).
Proof. vm_compute. repeat split. Qed.
