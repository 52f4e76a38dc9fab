(** * C102: options that only add lines *)
From Coq Require Import String List NArith ZArith Bool Arith Lia.
From Verif Require Import Base PyStr Ftypes Paths Config Suppress Cst Engine EngineProps Batch Api ApiSpec ApiFacts ApiProps System SystemSpec SystemSame
  Session SessionSpec SessionProps Cli CliSpec CliFacts CliProps Commands CommandsSpec CommandsProps DiskSpec DiskProps.
Import ListNotations.

(** ** Specification *)

(** [l] can be obtained from [l'] by leaving out elements. *)
Inductive within {A} : list A -> list A -> Prop :=
| wi_nil : within [] []
| wi_both : forall x l l', within l l' -> within (x :: l) (x :: l')
| wi_skip : forall x l l', within l l' -> within l (x :: l').

(** Whatever can happen during the first command can happen during the second and the other way round: what is looked at, written, read, asked and answered, and how they end,
    is the same. The first prints the lines that the second prints, and perhaps more in between. *)
Definition says_more (c c' : cmd N) : Prop :=
  (forall vs o, crun c vs o -> o <> Stopped -> exists vs', crun c' vs' o /\ effects vs' = effects vs /\ asked vs' = asked vs /\ within (lines vs') (lines vs)) /\
  (forall vs' o, crun c' vs' o -> o <> Stopped -> exists vs, crun c vs o /\ effects vs' = effects vs /\ asked vs' = asked vs /\ within (lines vs') (lines vs)).

(** ** Proofs *)

Inductive adds : cmd N -> cmd N -> Prop :=
| ad_ret : forall r, adds (CRet r) (CRet r)
| ad_fail : forall e, adds (CFail e) (CFail e)
| ad_print : forall s t k k', adds k k' -> adds (CPrint s t k) (CPrint s t k')
| ad_extra : forall s t k k', adds k k' -> adds (CPrint s t k) k'
| ad_prompt : forall k k', (forall a, adds (k a) (k' a)) -> adds (CPrompt k) (CPrompt k')
| ad_look : forall k k', (forall F, adds (k F) (k' F)) -> adds (CLook k) (CLook k')
| ad_write : forall p c k k', (forall w, adds (k w) (k' w)) -> adds (CWrite p c k) (CWrite p c k')
| ad_in : forall k k', (forall i, adds (k i) (k' i)) -> adds (CStdin k) (CStdin k')
| ad_out : forall c k k', (forall w, adds (k w) (k' w)) -> adds (CStdout c k) (CStdout c k').

Ltac one IH :=
  match goal with
  | H : crun _ _ _, N : _ <> Stopped |- _ =>
      first [ destruct (IH _ _ H N) as (ws & Rw & E1 & E2 & E3) | destruct (IH _ _ _ H N) as (ws & Rw & E1 & E2 & E3) ]
  end.

Lemma adds_says : forall c c', adds c c' -> says_more c c'.
Proof.
  intros c c' H. split.
  - induction H as [r|e|s t k k' H IH|s t k k' H IH|k k' H IH|k k' H IH|p c k k' H IH|k k' H IH|c k k' H IH]; intros vs o R N;
      inversion R; subst; try congruence.
    + exists []. repeat split; constructor.
    + exists []. repeat split; constructor.
    + one IH. exists (VPrint s t :: ws). split; [now constructor|]. repeat split; auto. unfold lines in *. cbn [flat_map app]. now constructor.
    + one IH. exists ws. split; [auto|]. repeat split; auto. unfold lines in *. cbn [flat_map app]. now constructor.
    + one IH. eexists (VPrompt _ :: ws). split; [constructor; eauto|]. unfold effects, asked, lines in *. cbn [flat_map app]. rewrite E1, E2. auto.
    + one IH. eexists (VLook _ :: ws). split; [constructor; eauto|]. unfold effects, asked, lines in *. cbn [flat_map app]. rewrite E1, E2. auto.
    + one IH. eexists (VWrite _ _ _ :: ws). split; [constructor; eauto|]. unfold effects, asked, lines in *. cbn [flat_map app]. rewrite E1, E2. auto.
    + one IH. eexists (VIn _ :: ws). split; [constructor; eauto|]. unfold effects, asked, lines in *. cbn [flat_map app]. rewrite E1, E2. auto.
    + one IH. eexists (VOut _ _ :: ws). split; [constructor; eauto|]. unfold effects, asked, lines in *. cbn [flat_map app]. rewrite E1, E2. auto.
  - induction H as [r|e|s t k k' H IH|s t k k' H IH|k k' H IH|k k' H IH|p c k k' H IH|k k' H IH|c k k' H IH]; intros vs o R N;
      try (destruct (IH _ _ R N) as (ws & Rw & E1 & E2 & E3); exists (VPrint s t :: ws); split; [now constructor|]; repeat split; auto; unfold lines in *; cbn [flat_map app]; now constructor);
      inversion R; subst; try congruence.
    + exists []. repeat split; constructor.
    + exists []. repeat split; constructor.
    + one IH. exists (VPrint s t :: ws). split; [now constructor|]. repeat split; auto. unfold lines in *. cbn [flat_map app]. now constructor.
    + one IH. eexists (VPrompt _ :: ws). split; [constructor; eauto|]. unfold effects, asked, lines in *. cbn [flat_map app]. rewrite E1, E2. auto.
    + one IH. eexists (VLook _ :: ws). split; [constructor; eauto|]. unfold effects, asked, lines in *. cbn [flat_map app]. rewrite E1, E2. auto.
    + one IH. eexists (VWrite _ _ _ :: ws). split; [constructor; eauto|]. unfold effects, asked, lines in *. cbn [flat_map app]. rewrite E1, E2. auto.
    + one IH. eexists (VIn _ :: ws). split; [constructor; eauto|]. unfold effects, asked, lines in *. cbn [flat_map app]. rewrite E1, E2. auto.
    + one IH. eexists (VOut _ _ :: ws). split; [constructor; eauto|]. unfold effects, asked, lines in *. cbn [flat_map app]. rewrite E1, E2. auto.
Qed.

(** Generators of which the second does without the calls of the first *)
Inductive quieter {R} : prog R -> prog R -> Prop :=
| qu_ret : forall r, quieter (Ret r) (Ret r)
| qu_raise : forall e, quieter (Raise e) (Raise e)
| qu_give : forall x k k', (forall a, quieter (k a) (k' a)) -> quieter (Give x k) (Give x k')
| qu_look : forall k k', (forall F, quieter (k F) (k' F)) -> quieter (Look k) (Look k')
| qu_write : forall p c k k', (forall w, quieter (k w) (k' w)) -> quieter (Write p c k) (Write p c k')
| qu_in : forall k k', (forall i, quieter (k i) (k' i)) -> quieter (Stdin k) (Stdin k')
| qu_out : forall c k k', (forall w, quieter (k w) (k' w)) -> quieter (Stdout c k) (Stdout c k')
| qu_call : forall m k g, quieter (k (Ok tt)) g -> quieter (Call m k) g.

Lemma quieter_lift : forall A R (r : res A) (f g : A -> prog R), (forall a, quieter (f a) (g a)) -> quieter (lift r f) (lift r g).
Proof. intros A R [a|e] f g H; cbn [lift]; [auto|constructor]. Qed.
Lemma quieter_bind : forall A R (p q : prog A) (f g : A -> prog R), quieter p q -> (forall a, quieter (f a) (g a)) -> quieter (pbind p f) (pbind q g).
Proof. intros A R p q f g H Hf. induction H; cbn [pbind]; auto; constructor; auto. Qed.
Lemma quieter_catch : forall R (p q : prog R) h, quieter p q -> (forall e, quieter (h e) (h e)) -> quieter (catch p h) (catch q h).
Proof. intros R p q h H Hh. induction H; cbn [catch]; auto; constructor; auto. Qed.
Lemma quieter_track : forall R (p q : prog R), quieter p q -> forall l, quieter (track p l) (track q l).
Proof. intros R p q H. induction H; intro l; cbn [track]; auto; constructor; auto. Qed.

Lemma finish_quiet : forall T p cfg md pending, quieter (finish_fixes T p cfg md pending) (finish_fixes T p cfg md pending).
Proof.
  intros T p cfg md pending. unfold finish_fixes. destruct pending; [constructor|]. apply quieter_lift. intros [m|]; [|constructor].
  constructor. intro F. apply quieter_lift. intro c. constructor.
Qed.

Definition yields_only (evs : list event) : Prop := Forall (fun e => match e with Yield _ => True | Hook _ => False end) evs.

Lemma loop_quiet : forall p autofix r k evs hooks clean pending, yields_only evs -> Forall (fun e => match e with Hook _ => True | Yield _ => False end) hooks ->
  (forall clean pending, quieter (k clean pending) (k clean pending)) ->
  quieter (Api.lint_loop p autofix (evs ++ hooks) r clean pending k) (Api.lint_loop p autofix evs r clean pending k).
Proof.
  intros p autofix r k evs hooks clean pending He Hh Hk. revert clean pending. induction He as [|e evs Hv He IH]; intros clean pending; cbn [app].
  - induction Hh as [|e hooks Hv Hh IH]; cbn [Api.lint_loop]; [apply quieter_lift; auto|]. destruct e as [v|m]; [contradiction|]. constructor. exact IH.
  - destruct e as [v|m]; [|contradiction]. cbn [Api.lint_loop]. constructor. intro a. apply IH.
Qed.

Lemma all_yields : forall udiff md n vs m c, yields_only (fst (yield_all udiff md n vs m c)).
Proof.
  intros udiff md n vs. induction vs as [|v vs IH]; intros m c; cbn [yield_all]; [constructor|].
  repeat match goal with |- context[match ?x with _ => _ end] => destruct x eqn:? end; cbn [fst]; try constructor; try exact Logic.I;
    try (match goal with E : yield_all _ _ _ _ ?m ?c = _ |- _ => specialize (IH m c); rewrite E in IH; exact IH end).
Qed.
Lemma rules_yields : forall udiff md rules m c, yields_only (fst (yield_rules udiff md rules m c)).
Proof.
  intros udiff md rules. induction rules as [|r rules IH]; intros m c; cbn [yield_rules]; [constructor|]. cbv zeta.
  pose proof (all_yields udiff md (r_name r) (r_violations r) (dset (fix_key (r_name r)) 0 (dset (count_key (r_name r)) (List.length (r_violations r)) m)) c) as A.
  destruct (yield_all _ _ _ _ _ _) as [evs [[m2 c2]|e]]; [|exact A]. specialize (IH m2 c2). destruct (yield_rules _ _ _ m2 c2) as [evs2 r2]. cbn [fst] in *.
  apply Forall_app. auto.
Qed.

Lemma hook_quiet : forall b (evs : list event), yields_only evs -> forall p autofix r k clean pending m, (forall clean pending, quieter (k clean pending) (k clean pending)) ->
  quieter (Api.lint_loop p autofix (evs ++ (if b : bool then [Hook m] else [])) r clean pending k) (Api.lint_loop p autofix (evs ++ []) r clean pending k).
Proof.
  intros b evs Y p autofix r k clean pending m Hk. rewrite app_nil_r. apply loop_quiet; auto. destruct b; repeat constructor.
Qed.

Transparent fixit_bytes.
Lemma bytes_quiet : forall T p content cfg autofix hook, quieter (fixit_bytes T p content cfg autofix hook) (fixit_bytes T p content cfg autofix false).
Proof.
  intros T p content cfg autofix hook. unfold fixit_bytes. apply quieter_catch; [|intro e; constructor; intro a; constructor].
  constructor. intro F. apply quieter_lift. intros [|k ks]; [constructor; intro a; constructor|]. apply quieter_lift. intro md.
  assert (Hk : forall clean pending, quieter (if clean : bool then Give (clean_result p) (fun _ => finish_fixes T p cfg md pending) else finish_fixes T p cfg md pending)
                                             (if clean : bool then Give (clean_result p) (fun _ => finish_fixes T p cfg md pending) else finish_fixes T p cfg md pending)).
  { intros [] pending; [constructor; intro a|]; apply finish_quiet. }
  unfold collect_violations. destruct (t_visit T F cfg md (k :: ks)) as [[rules m]|e].
  - pose proof (rules_yields (t_udiff T p) md rules m 0) as Y. destruct (yield_rules (t_udiff T p) md rules m 0) as [evs [[m' count]|e]]; cbn [fst] in Y.
    + now apply hook_quiet.
    + rewrite <- (app_nil_r evs) at 1. now apply loop_quiet.
  - apply (loop_quiet p autofix (Err e) _ [] []); auto; constructor.
Qed.
Opaque fixit_bytes.

Lemma file_quiet : forall T p autofix opts hook, quieter (fixit_file T p autofix opts hook) (fixit_file T p autofix opts false).
Proof.
  intros T p autofix opts hook. unfold fixit_file. apply quieter_catch; [|intro e; constructor; intro a; constructor]. constructor. intro F. destruct (f_file F p); [|constructor].
  constructor. intro F1. apply quieter_lift. intro cfg. apply quieter_bind; [apply bytes_quiet|]. intros [[|c0 c]|]; try constructor.
  destruct (negb _); [|constructor]. constructor. intro w. apply quieter_lift. intro. constructor.
Qed.

Lemma stdin_quiet : forall T p autofix opts hook, quieter (fixit_stdin T p autofix opts hook) (fixit_stdin T p autofix opts false).
Proof.
  intros T p autofix opts hook. unfold fixit_stdin. apply quieter_catch; [|intro e; constructor; intro a; constructor]. constructor. intro i. apply quieter_lift. intro content.
  constructor. intro F1. apply quieter_lift. intro cfg. apply quieter_bind; [apply bytes_quiet|]. intro u0. destruct autofix; [|constructor].
  constructor. intro w. apply quieter_lift. intro. constructor.
Qed.

Lemma session_quiet : forall Y ps autofix opts hook z, quieter (in_session Y ps autofix opts hook z) (in_session Y ps autofix opts false z).
Proof.
  intros Y ps autofix opts hook. induction ps as [|p ps IH]; intro z; cbn [in_session]; [constructor|].
  apply quieter_bind; [apply quieter_track, file_quiet|]. intro q. apply IH.
Qed.

Lemma paths_quiet : forall Y d paths autofix opts hook z, quieter (whole_paths Y d paths autofix opts hook z) (whole_paths Y d paths autofix opts false z).
Proof.
  intros Y d paths autofix opts hook z. unfold whole_paths. constructor. intro F. apply quieter_lift. intros [[p|ps|ps]|].
  - apply stdin_quiet.
  - apply quieter_bind; [apply session_quiet|]. intro. constructor.
  - apply quieter_bind; [apply session_quiet|]. intro. constructor.
  - constructor.
Qed.

(** The loops of the commands *)
Lemma adds_lines : forall ls k k', adds k k' -> adds (print_all ls k) (print_all ls k').
Proof. induction ls as [|[s t] ls IH]; intros k k' H; cbn [print_all]; [auto|]. constructor. auto. Qed.

Lemma adds_result : forall K x show show' stderr fmt tmpl k k', implb show' show = true -> (forall d, adds (k d) (k' d)) ->
  adds (match print_result K x show stderr fmt tmpl with Ok (ls, d) => print_all ls (k d) | Err e => CFail e end)
       (match print_result K x show' stderr fmt tmpl with Ok (ls, d) => print_all ls (k' d) | Err e => CFail e end).
Proof.
  intros K x show show' stderr fmt tmpl k k' I H. unfold print_result. destruct (x_violation x) as [v|].
  - match goal with |- context[bind ?b _] => destruct b as [l|e0] end; cbn [bind]; [|constructor].
    destruct show, show'; try discriminate; destruct (v_diff v); cbn [print_all]; repeat constructor; auto.
  - destruct (x_error x); cbn [print_all]; repeat constructor; auto.
Qed.

Lemma lint_adds : forall K diff diff' cfg g g', implb diff' diff = true -> quieter g g' -> forall t, adds (Cli.lint_loop K diff cfg g t) (Cli.lint_loop K diff' cfg g' t).
Proof.
  intros K diff diff' cfg g g' I H. induction H as [r|e|x k k' H IH|k k' H IH|p c k k' H IH|k k' H IH|c k k' H IH|m k g H IH]; intro t; cbn [Cli.lint_loop].
  - apply adds_lines. constructor.
  - constructor.
  - apply (adds_result K x diff diff' false (c_format cfg) (c_template cfg) (fun d => Cli.lint_loop K diff cfg (k None) (lint_tally t x d)) (fun d => Cli.lint_loop K diff' cfg (k' None) (lint_tally t x d))); auto.
  - constructor. auto.
  - constructor. auto.
  - constructor. auto.
  - constructor. auto.
  - constructor. auto.
Qed.

Lemma fix_adds : forall K interactive diff diff' is_stdin cfg g g', implb diff' diff = true -> quieter g g' -> forall t,
  adds (fix_loop K interactive diff is_stdin cfg g t) (fix_loop K interactive diff' is_stdin cfg g' t).
Proof.
  intros K interactive diff diff' is_stdin cfg g g' I H. induction H as [r|e|x k k' H IH|k k' H IH|p c k k' H IH|k k' H IH|c k k' H IH|m k g H IH]; intro t; cbn [fix_loop].
  - unfold fix_end. apply adds_lines. constructor.
  - constructor.
  - apply (adds_result K x (interactive || diff) (interactive || diff') is_stdin (c_format cfg) (c_template cfg)
      (fun d => let t := fix_tally (negb interactive) t x d in if interactive && is_fixable x then
               CPrompt (fun a => match a with None => CFail (OtherError 1) | Some Yes => fix_loop K interactive diff is_stdin cfg (k (Some true)) (taken (offered t))
                                 | Some No => fix_loop K interactive diff is_stdin cfg (k None) (offered t) | Some Quit => fix_end (offered t) end)
             else fix_loop K interactive diff is_stdin cfg (k None) t)
      (fun d => let t := fix_tally (negb interactive) t x d in if interactive && is_fixable x then
               CPrompt (fun a => match a with None => CFail (OtherError 1) | Some Yes => fix_loop K interactive diff' is_stdin cfg (k' (Some true)) (taken (offered t))
                                 | Some No => fix_loop K interactive diff' is_stdin cfg (k' None) (offered t) | Some Quit => fix_end (offered t) end)
             else fix_loop K interactive diff' is_stdin cfg (k' None) t)).
    + destruct interactive; auto.
    + intro d. cbv zeta. destruct (interactive && is_fixable x); [|auto]. constructor. intros [[]|]; auto; [|constructor]. unfold fix_end. apply adds_lines. constructor.
  - constructor. auto.
  - constructor. auto.
  - constructor. auto.
  - constructor. auto.
  - constructor. auto.
Qed.

(** ** C102 *)

(** [fixit lint] with --diff or --print-metrics does what it does without, and returns the same. *)
Theorem C102_lint : forall K Y d opts m diff paths z,
  says_more (whole_lint K Y d opts m diff paths z) (whole_lint K Y d opts false false paths z).
Proof.
  intros K Y d opts m diff paths z. apply adds_says. unfold whole_lint, lint_with. constructor. intro F.
  destruct (generate_config (y_env Y) F (k_cwd K) None (Some opts)) as [cfg|e]; [|constructor].
  apply lint_adds; [reflexivity|]. apply paths_quiet.
Qed.

(** [fixit fix] as well, whatever the user answers. *)
Theorem C102_fix : forall K Y d opts m interactive diff paths z,
  says_more (whole_fix K Y d opts m interactive diff paths z) (whole_fix K Y d opts false interactive false paths z).
Proof.
  intros K Y d opts m interactive diff paths z. apply adds_says. unfold whole_fix. cbv zeta. constructor. intro F.
  destruct (generate_config (y_env Y) F (k_cwd K) None (Some opts)) as [cfg|e]; [|constructor].
  apply fix_adds; [reflexivity|]. apply paths_quiet.
Qed.

(** Interactively all diffs are shown anyway. *)
Lemma interactive_same : forall K diff diff' cfg g t vs o, crun (fix_loop K true diff false cfg g t) vs o -> crun (fix_loop K true diff' false cfg g t) vs o.
Proof.
  intros K diff diff' cfg g. induction g as [r|e|x k IH|k IH|q c0 k IH|k IH|c0 k IH|m0 k IH]; intros t vs o H; cbn [fix_loop] in *; auto; try (inversion H; subst; constructor; auto; fail).
  cbn [orb] in *. destruct (print_result K x true false (c_format cfg) (c_template cfg)) as [[ls dd]|e]; auto.
  revert vs H. induction ls as [|[s l] ls IHl]; intros vs H; cbn [print_all] in *; [|inversion H; subst; constructor; auto].
  destruct (true && is_fixable x); auto. inversion H; subst; constructor. destruct a as [[]|]; auto.
Qed.

Theorem C102_interactive : forall K Y d opts m diff paths z, first_is_dash (or_cwd K paths) = false ->
  forall vs o, crun (whole_fix K Y d opts m true diff paths z) vs o <-> crun (whole_fix K Y d opts m true false paths z) vs o.
Proof.
  intros K Y d opts m diff paths z Da.
  assert (A : forall diff diff' vs o, crun (whole_fix K Y d opts m true diff paths z) vs o -> crun (whole_fix K Y d opts m true diff' paths z) vs o).
  { clear diff. intros diff diff' vs o. unfold whole_fix. cbv zeta. rewrite Da. cbn [negb andb]. intro H. inversion H as [| | | | |? F vs1 ? H1| | |]; subst; constructor.
    destruct (generate_config (y_env Y) F (k_cwd K) None (Some opts)) as [cfg|e]; [|exact H1].
    exact (interactive_same K diff diff' cfg (whole_paths Y d (or_cwd K paths) false (Some opts) m z) no_tally _ _ H1). }
  intros vs o. split; apply A.
Qed.

(** ** The claims are not vacuous *)

Definition loud (m diff : bool) : cmd N := whole_fix ex_cli system3 [u "d"; u "stdin"] ex_opts m false diff files3 session0.
Example C102_example :
  let '(vs, o, F) := live (loud false false) fs3 [] in let '(vs1, o1, F1) := live (loud false true) fs3 [] in let '(vs2, o2, F2) := live (loud true true) fs3 [] in
  o = Returned 0%N /\ o1 = o /\ o2 = o /\ List.length (lines vs) = 3 /\ List.length (lines vs1) = 5 /\ List.length (lines vs2) = 7 /\
  saved vs1 = saved vs /\ saved vs2 = saved vs /\ List.length (saved vs) = 2.
Proof. vm_compute. repeat split. Qed.
