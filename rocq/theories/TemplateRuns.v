(** * C95: output formats and templates in whole commands *)
From Coq Require Import String List NArith ZArith Bool Arith Lia.
From Verif Require Import Base PyStr Ftypes Paths Config Collect Suppress Cst Engine EngineProps Batch Api ApiSpec ApiFacts ApiProps System Session Cli CliSpec CliFacts CliProps
  Commands Jobs OptionsSpec OptionsProps Template TemplateProps.
Import ListNotations.

(** ** Specification *)

(** The same command line, with these settings for the output. *)
Definition shown_as (o : options) (f : option output_format) (t : str) : options := Options (o_config_file o) (o_tags o) (o_rules o) f t.

(** The templates that write the two built-in formats out. *)
Definition fixit_template : str := u "{path}@{start_line}:{start_col} {rule_name}: {message}".
Definition vscode_template : str := u "{path}:{start_line}:{start_col} {rule_name}: {message}".

(** A template that is refused for every violation. *)
Definition unusable (P : python) (v : toml) : Prop :=
  forall message path x rule col ln, exists e, template_format P v message path x rule col ln = Err e.

(** ** The settings have no other effect *)

Definition alike (c c' : config) : Prop :=
  c' = Config (c_path c) (c_root c) (c_import c) (c_enable c) (c_disable c) (c_options c) (c_python c) (c_tags c) (c_formatter c) (c_format c') (c_template c').

Lemma shown_config : forall E F p root opts f t f' t',
  match generate_config E F p root (Some (shown_as opts f t)), generate_config E F p root (Some (shown_as opts f' t')) with
  | Ok c, Ok c' => alike c c' /\ (forall g, f = Some g -> c_format c = g) /\ (forall g, f' = Some g -> c_format c' = g) /\
                   (t <> [] -> c_template c = TStr t) /\ (t' <> [] -> c_template c' = TStr t')
  | Err e, Err e' => e = e'
  | _, _ => False
  end.
Proof.
  intros E F p root opts f t f' t'. unfold generate_config. cbn [o_config_file shown_as].
  match goal with |- match bind ?r _ with _ => _ end => destruct r as [paths|e]; [|reflexivity] end. cbn [bind].
  destruct (read_configs E F paths) as [raws|e]; [|reflexivity]. cbn [bind].
  match goal with |- match bind ?r _ with _ => _ end => destruct r as [[c w]|e]; [|reflexivity] end. cbn [bind apply_options c_format c_template o_format o_template shown_as].
  repeat split.
  - intros g ->. reflexivity.
  - intros g ->. reflexivity.
  - destruct t; [congruence|reflexivity].
  - destruct t'; [congruence|reflexivity].
Qed.

Lemma alike_bytes : forall Y p content c c' autofix hook, alike c c' ->
  fixit_bytes (tool_of Y) p content c' autofix hook = fixit_bytes (tool_of Y) p content c autofix hook.
Proof. intros Y p content c c' autofix hook H. rewrite H. destruct c. reflexivity. Qed.

Section Same.
  Context (Y : system) (opts : options) (f f' : option output_format) (t t' : str) (autofix hook : bool).
  Notation o1 := (Some (shown_as opts f t)).
  Notation o2 := (Some (shown_as opts f' t')).
  Notation all := (fun _ : fs => True).

  Lemma file_shown : forall z p, same all eq (fixit_file (tool_of (system_at Y z)) p autofix o1 hook) (fixit_file (tool_of (system_at Y z)) p autofix o2 hook).
  Proof.
    intros z p. unfold fixit_file. apply same_catch; [|intros e; apply same_refl]. constructor. intros F0 _.
    destruct (f_file F0 p) as [content|]; [|constructor]. constructor. intros F _.
    pose proof (shown_config (t_env (tool_of (system_at Y z))) F p None opts f t f' t') as G.
    destruct (generate_config _ F p None o1) as [c|e]; destruct (generate_config _ F p None o2) as [c'|e']; try contradiction; cbn [lift]; [|subst; constructor].
    destruct G as (A & _). rewrite (alike_bytes _ p content c c' autofix hook A). apply same_refl.
  Qed.

  Lemma stdin_shown : forall z p, same all eq (fixit_stdin (tool_of (system_at Y z)) p autofix o1 hook) (fixit_stdin (tool_of (system_at Y z)) p autofix o2 hook).
  Proof.
    intros z p. unfold fixit_stdin. apply same_catch; [|intros e; apply same_refl]. constructor. intros [content|e]; [|constructor]. cbn [lift].
    constructor. intros F _.
    pose proof (shown_config (t_env (tool_of (system_at Y z))) F p None opts f t f' t') as G.
    destruct (generate_config _ F p None o1) as [c|e]; destruct (generate_config _ F p None o2) as [c'|e']; try contradiction; cbn [lift]; [|subst; constructor].
    destruct G as (A & _). rewrite (alike_bytes _ p content c c' autofix hook A). apply same_refl.
  Qed.

  Lemma after_shown : forall p looked z, after_file Y p o2 looked z = after_file Y p o1 looked z.
  Proof.
    intros p looked z. unfold after_file. destruct looked as [|F0 [|F1 [|F2 rest]]]; try reflexivity.
    pose proof (shown_config (y_env Y) F1 p None opts f t f' t') as G.
    destruct (generate_config _ F1 p None o1) as [c|e]; destruct (generate_config _ F1 p None o2) as [c'|e']; try contradiction; [|reflexivity].
    destruct G as (A & _). rewrite A. destruct c. reflexivity.
  Qed.

  Lemma session_shown : forall ps z, same all eq (in_session Y ps autofix o1 hook z) (in_session Y ps autofix o2 hook z).
  Proof.
    induction ps as [|p ps IH]; intro z; cbn [in_session]; [now constructor|].
    eapply same_bind; [apply same_track; [apply file_shown|intros F []]|]. intros q q' (<- & _). rewrite after_shown. apply IH.
  Qed.

  Lemma whole_shown : forall d paths z, same all eq (whole_paths Y d paths autofix o1 hook z) (whole_paths Y d paths autofix o2 hook z).
  Proof.
    intros d paths z. unfold whole_paths. constructor. intros F _.
    destruct (make_plan (y_walk Y F) d false paths) as [[[p|ps|ps]|]|e]; cbn [lift]; try (constructor; reflexivity).
    - apply stdin_shown.
    - eapply same_bind; [apply session_shown|]. intros; now constructor.
    - eapply same_bind; [apply session_shown|]. intros; now constructor.
  Qed.

  Lemma pool_shown : forall d paths z pool, same all eq (pool_paths Y d paths autofix o1 hook z pool) (pool_paths Y d paths autofix o2 hook z pool).
  Proof.
    intros d paths z pool. unfold pool_paths. constructor. intros F _.
    destruct (make_plan (y_walk Y F) d true paths) as [[[p|ps|ps]|]|e]; cbn [lift]; try (constructor; reflexivity).
    - apply stdin_shown.
    - eapply same_bind; [apply session_shown|]. intros; now constructor.
    - apply same_refl.
  Qed.
End Same.

(** [--output-format] and [--output-template] change nothing of what fixit_paths does: the same results in the same order, the same files
    written, the same errors. *)
Theorem C95_effect : forall Y d paths autofix opts f t f' t' hook z es o,
  run (whole_paths Y d paths autofix (Some (shown_as opts f t)) hook z) es o <->
  run (whole_paths Y d paths autofix (Some (shown_as opts f' t')) hook z) es o.
Proof.
  intros Y d paths autofix opts f t f' t' hook z es o. apply (same_run (P := fun _ => True)); [apply whole_shown|auto].
Qed.

(** ** The loops of the commands under two configurations that print the same *)

Definition prints_alike (K : cli) (c c' : config) : Prop :=
  forall x diff std, print_result K x diff std (c_format c) (c_template c) = print_result K x diff std (c_format c') (c_template c').

Lemma lint_loop_alike : forall K diff c c' g g', prints_alike K c c' -> same (fun _ => True) eq g g' ->
  forall t vs o, crun (lint_loop K diff c g t) vs o <-> crun (lint_loop K diff c' g' t) vs o.
Proof.
  intros K diff c c' g g' HK H.
  induction H as [r r' <-| |x k k' H IH|k k' H IH|p s k k' H IH|k k' H IH|s k k' H IH|m k k' H IH]; intros t vs o; cbn [Cli.lint_loop]; [tauto|tauto| | | | | |].
  - rewrite <- (HK x diff false). destruct (print_result K x diff false (c_format c) (c_template c)) as [[ls dirty]|e]; [|tauto].
    apply (@print_crun _ ls _ _ (fun _ => True)); auto.
  - split; intro X; inversion X; subst; constructor; (eapply IH; [|eassumption]); exact Logic.I.
  - split; intro X; inversion X; subst; constructor; eapply IH; eassumption.
  - split; intro X; inversion X; subst; constructor; eapply IH; eassumption.
  - split; intro X; inversion X; subst; constructor; eapply IH; eassumption.
  - split; intro X; inversion X; subst; constructor; eapply IH; eassumption.
Qed.

Lemma fix_loop_alike : forall K inter diff std c c' g g', prints_alike K c c' -> same (fun _ => True) eq g g' ->
  forall t vs o, crun (fix_loop K inter diff std c g t) vs o <-> crun (fix_loop K inter diff std c' g' t) vs o.
Proof.
  intros K inter diff std c c' g g' HK H.
  induction H as [r r' <-| |x k k' H IH|k k' H IH|p s k k' H IH|k k' H IH|s k k' H IH|m k k' H IH]; intros t vs o; cbn [fix_loop]; [tauto|tauto| | | | | |].
  - rewrite <- (HK x (inter || diff) std). destruct (print_result K x (inter || diff) std (c_format c) (c_template c)) as [[ls dirty]|e]; [|tauto].
    apply (@print_crun _ ls _ _ (fun _ => True)); auto. intros vs0 o0 _. destruct (inter && is_fixable x); [|apply IH].
    split; intro X; inversion X as [| | | |? a ? ? Z| | | |]; subst; constructor; destruct a as [[| |]|]; auto; (eapply IH; exact Z).
  - split; intro X; inversion X; subst; constructor; (eapply IH; [|eassumption]); exact Logic.I.
  - split; intro X; inversion X; subst; constructor; eapply IH; eassumption.
  - split; intro X; inversion X; subst; constructor; eapply IH; eassumption.
  - split; intro X; inversion X; subst; constructor; eapply IH; eassumption.
  - split; intro X; inversion X; subst; constructor; eapply IH; eassumption.
Qed.

(** ** The built-in formats are templates *)

Lemma builtin_fills : forall message path rule col ln,
  fills (texts message path rule col ln) fixit_template (path ++ u "@" ++ dec ln ++ u ":" ++ dec col ++ u " " ++ rule ++ u ": " ++ message) /\
  fills (texts message path rule col ln) vscode_template (path ++ u ":" ++ dec ln ++ u ":" ++ dec col ++ u " " ++ rule ++ u ": " ++ message).
Proof.
  intros message path rule col ln.
  assert (E : forall t out, fills (texts message path rule col ln) t out ->
    fills (texts message path rule col ln) (u "{start_line}:{start_col} {rule_name}: {message}" ++ t) (dec ln ++ u ":" ++ dec col ++ u " " ++ rule ++ u ": " ++ message ++ out)).
  { intros t out H.
    apply (f_var _ (u "start_line") (dec ln) [] (u ":{start_col} {rule_name}: {message}" ++ t)); [unfold texts; simpl; auto 10|simpl; auto|].
    apply f_char; [discriminate|discriminate|].
    apply (f_var _ (u "start_col") (dec col) [] (u " {rule_name}: {message}" ++ t)); [unfold texts; simpl; auto 10|simpl; auto|].
    apply f_char; [discriminate|discriminate|].
    apply (f_var _ (u "rule_name") rule [] (u ": {message}" ++ t)); [unfold texts; simpl; auto 10|simpl; auto|].
    apply f_char; [discriminate|discriminate|]. apply f_char; [discriminate|discriminate|].
    apply (f_var _ (u "message") message [] t); [unfold texts; simpl; auto 10|simpl; auto|exact H]. }
  specialize (E [] [] (f_end _)). rewrite !app_nil_r in E. split.
  - apply (f_var _ (u "path") path [] (u "@{start_line}:{start_col} {rule_name}: {message}")); [unfold texts; simpl; auto 10|simpl; auto|].
    apply f_char; [discriminate|discriminate|exact E].
  - apply (f_var _ (u "path") path [] (u ":{start_line}:{start_col} {rule_name}: {message}")); [unfold texts; simpl; auto 10|simpl; auto|].
    apply f_char; [discriminate|discriminate|exact E].
Qed.

Lemma builtin_prints : forall K P f t c c', In (f, t) [(OFfixit, fixit_template); (OFvscode, vscode_template)] ->
  c_format c = OFcustom -> c_template c = TStr t -> c_format c' = f -> prints_alike (formatting K P) c c'.
Proof.
  intros K P f t c c' I F1 T1 F2 x diff std. rewrite F1, T1, F2. unfold print_result. destruct (x_violation x) as [v|]; [|reflexivity].
  cbn [formatting k_format k_cwd].
  pose proof (builtin_fills (v_message v ++ (if autofixable v then u " (has autofix)" else [])) (show_path (k_cwd K) (x_path x)) (v_rule v)
                (column (rstart (v_range v))) (line (rstart (v_range v)))) as (B1 & B2).
  destruct I as [I|[I|[]]]; injection I as <- <-.
  - rewrite (C95_filled _ _ _ _ _ _ _ B1). reflexivity.
  - rewrite (C95_filled _ _ _ _ _ _ _ B2). reflexivity.
Qed.

(** A command with [-o custom] and such a template does and prints exactly what it does and prints with [-o fixit] or [-o vscode]. *)
Theorem C95_builtin : forall K P Y d opts f t m interactive diff paths z pool vs o,
  In (f, t) [(OFfixit, fixit_template); (OFvscode, vscode_template)] ->
  let custom := shown_as opts (Some OFcustom) t in
  let builtin := shown_as opts (Some f) [] in
  (crun (whole_lint (formatting K P) Y d custom m diff paths z) vs o <-> crun (whole_lint (formatting K P) Y d builtin m diff paths z) vs o) /\
  (crun (lint_jobs (formatting K P) Y d custom m diff paths z pool) vs o <-> crun (lint_jobs (formatting K P) Y d builtin m diff paths z pool) vs o) /\
  (crun (whole_fix (formatting K P) Y d custom m interactive diff paths z) vs o <-> crun (whole_fix (formatting K P) Y d builtin m interactive diff paths z) vs o).
Proof.
  intros K P Y d opts f t m interactive diff paths z pool vs o I custom builtin.
  assert (Ht : t <> []) by (destruct I as [I|[I|[]]]; injection I as _ <-; discriminate).
  assert (G : forall F, match generate_config (y_env Y) F (k_cwd (formatting K P)) None (Some custom), generate_config (y_env Y) F (k_cwd (formatting K P)) None (Some builtin) with
                        | Ok c, Ok c' => prints_alike (formatting K P) c c' | Err e, Err e' => e = e' | _, _ => False end).
  { intro F. pose proof (shown_config (y_env Y) F (k_cwd (formatting K P)) None opts (Some OFcustom) t (Some f) []) as G. fold custom builtin in G.
    destruct (generate_config _ F _ None (Some custom)) as [c|e]; destruct (generate_config _ F _ None (Some builtin)) as [c'|e']; auto.
    destruct G as (_ & G1 & G2 & G3 & _). apply (builtin_prints K P f t); auto. }
  assert (X : forall (k k' : fs -> cmd N), (forall F vs o, crun (k F) vs o <-> crun (k' F) vs o) -> crun (CLook k) vs o <-> crun (CLook k') vs o).
  { intros k k' Hk. split; intro R; inversion R; subst; constructor; apply Hk; assumption. }
  unfold whole_lint, lint_jobs, lint_with, whole_fix. split; [|split]; apply X; intros F vs' o'; specialize (G F);
    destruct (generate_config _ F _ None (Some custom)) as [c|e]; destruct (generate_config _ F _ None (Some builtin)) as [c'|e']; try contradiction; try (subst; tauto).
  - apply lint_loop_alike; [exact G|apply whole_shown].
  - apply lint_loop_alike; [exact G|apply pool_shown].
  - apply fix_loop_alike; [exact G|apply whole_shown].
Qed.

(** ** Templates that cannot be used *)

Lemma unusable_prints : forall K P c x diff std, c_format c = OFcustom -> unusable P (c_template c) ->
  match print_result (formatting K P) x diff std (c_format c) (c_template c) with
  | Ok (ls, dirty) => x_violation x = None
  | Err _ => x_violation x <> None
  end.
Proof.
  intros K P c x diff std Hc Hu. rewrite Hc. unfold print_result. destruct (x_violation x) as [v|].
  - cbn [formatting k_format k_cwd]. match goal with |- context [template_format P ?a ?b ?c ?d ?e ?g ?h] => destruct (Hu b c d e g h) as (er & ->) end. discriminate.
  - destruct (x_error x); reflexivity.
Qed.

Lemma lint_unusable : forall K P diff c, c_format c = OFcustom -> unusable P (c_template c) ->
  forall g t vs code, crun (lint_loop (formatting K P) diff c g t) vs (Returned code) ->
  exists es, run g es (Returned tt) /\ forall x, In x (results es) -> x_violation x = None.
Proof.
  intros K P diff c Hc Hu. induction g as [r|e|x k IH|k IH|p s k IH|k IH|s k IH|m k IH]; intros t vs code H; cbn [Cli.lint_loop] in H.
  - exists []. destruct r. split; [constructor|intros y []].
  - inversion H.
  - pose proof (unusable_prints K P c x diff false Hc Hu) as U.
    destruct (print_result (formatting K P) x diff false (c_format c) (c_template c)) as [[ls dirty]|e]; [|inversion H].
    apply run_print_all in H. destruct H as [(D & _)|(vs' & -> & H)]; [discriminate|]. apply IH in H. destruct H as (es & R & N).
    exists (EGive x None :: es). split; [now constructor|]. intros y [<-|Hy]; [exact U|exact (N y Hy)].
  - inversion H as [| | | | |? F vs' ? H'| | |]; subst. apply IH in H'. destruct H' as (es & R & N). exists (ELook F :: es). split; [now constructor|exact N].
  - inversion H as [| | | | | |? ? ? w vs' ? H'| |]; subst. apply IH in H'. destruct H' as (es & R & N). exists (EWrite p s w :: es). split; [now constructor|exact N].
  - inversion H as [| | | | | | |? i vs' ? H'|]; subst. apply IH in H'. destruct H' as (es & R & N). exists (EIn i :: es). split; [now constructor|exact N].
  - inversion H as [| | | | | | | |? ? w vs' ? H']; subst. apply IH in H'. destruct H' as (es & R & N). exists (EOut s w :: es). split; [now constructor|exact N].
  - inversion H as [| | |? ? ? vs' ? H'| | | | |]; subst. apply IH in H'. destruct H' as (es & R & N). exists (ECall m (Ok tt) :: es). split; [now constructor|exact N].
Qed.

(** With a template that cannot be used, [fixit lint] comes to its end, with a summary and an exit code of its own, only if there are no
    violations at all; at the first violation it breaks off. *)
Theorem C95_lint_breaks : forall K P E opts diff api vs code,
  (forall F cfg, generate_config E F (k_cwd K) None (Some opts) = Ok cfg -> c_format cfg = OFcustom /\ unusable P (c_template cfg)) ->
  crun (lint_with (formatting K P) E opts diff api) vs (Returned code) ->
  exists es, run api es (Returned tt) /\ forall x, In x (results es) -> x_violation x = None.
Proof.
  intros K P E opts diff api vs code Hc H. unfold lint_with in H. inversion H as [| | | | |? F vs' ? H'| | |]; subst.
  change (k_cwd (formatting K P)) with (k_cwd K) in H'. destruct (generate_config E F (k_cwd K) None (Some opts)) as [cfg|e] eqn:G; [|inversion H'].
  destruct (Hc F cfg G) as [C1 C2]. exact (lint_unusable K P diff cfg C1 C2 _ _ _ _ H').
Qed.

Lemma saved_prints : forall l vs, saved (prints l ++ vs) = saved vs.
Proof. induction l as [|[s t] l IH]; intro vs; [reflexivity|]. exact (IH vs). Qed.

Lemma fix_unusable : forall K P inter diff std c, c_format c = OFcustom -> unusable P (c_template c) ->
  forall g t vs o, crun (fix_loop (formatting K P) inter diff std c g t) vs o ->
  exists es oa, run g es oa /\ (forall x a, In (x, a) (given es) -> x_violation x = None) /\ saved vs = written es.
Proof.
  intros K P inter diff std c Hc Hu. induction g as [r|e|x k IH|k IH|p s k IH|k IH|s k IH|m k IH]; intros t vs o H; cbn [fix_loop] in H.
  - exists [], Stopped. split; [constructor|]. split; [intros y a []|]. unfold fix_end in H. destruct (splash _ _ _ _) as [s0 t0]. cbn [print_all] in H.
    inversion H as [| | |? ? ? vs' ? H'| | | | |]; subst; [reflexivity|]. inversion H'; subst; reflexivity.
  - exists [], Stopped. split; [constructor|]. split; [intros y a []|]. inversion H; subst; reflexivity.
  - pose proof (unusable_prints K P c x (inter || diff) std Hc Hu) as U.
    destruct (print_result (formatting K P) x (inter || diff) std (c_format c) (c_template c)) as [[ls dirty]|e].
    + assert (Nf : is_fixable x = false) by (unfold is_fixable; now rewrite U). rewrite Nf, andb_false_r in H.
      apply run_print_all in H. destruct H as [(-> & l1 & l2 & _ & ->)|(vs' & -> & H)].
      * exists [], Stopped. split; [constructor|]. split; [intros y a []|]. rewrite <- (app_nil_r (prints l1)), saved_prints. reflexivity.
      * apply IH in H. destruct H as (es & oa & R & N & W). exists (EGive x None :: es), oa. split; [now constructor|].
        split; [|now rewrite saved_prints]. intros y a [Hy|Hy]; [injection Hy as <- <-; exact U|exact (N y a Hy)].
    + exists [], Stopped. split; [constructor|]. split; [intros y a []|]. inversion H; subst; reflexivity.
  - inversion H as [| | | | |? F vs' ? H'| | |]; subst; [exists [], Stopped; split; [constructor|split; [intros y a []|reflexivity]]|].
    apply IH in H'. destruct H' as (es & oa & R & N & W). exists (ELook F :: es), oa. split; [now constructor|]. split; [exact N|exact W].
  - inversion H as [| | | | | |? ? ? w vs' ? H'| |]; subst; [exists [], Stopped; split; [constructor|split; [intros y a []|reflexivity]]|].
    apply IH in H'. destruct H' as (es & oa & R & N & W). exists (EWrite p s w :: es), oa. split; [now constructor|]. split; [exact N|].
    cbn [saved flat_map app written]. f_equal. exact W.
  - inversion H as [| | | | | | |? i vs' ? H'|]; subst; [exists [], Stopped; split; [constructor|split; [intros y a []|reflexivity]]|].
    apply IH in H'. destruct H' as (es & oa & R & N & W). exists (EIn i :: es), oa. split; [now constructor|]. split; [exact N|exact W].
  - inversion H as [| | | | | | | |? ? w vs' ? H']; subst; [exists [], Stopped; split; [constructor|split; [intros y a []|reflexivity]]|].
    apply IH in H'. destruct H' as (es & oa & R & N & W). exists (EOut s w :: es), oa. split; [now constructor|]. split; [exact N|exact W].
  - inversion H as [| | |? ? ? vs' ? H'| | | | |]; subst; [exists [], Stopped; split; [constructor|split; [intros y a []|reflexivity]]|].
    apply IH in H'. destruct H' as (es & oa & R & N & W). exists (ECall m (Ok tt) :: es), oa. split; [now constructor|]. split; [exact N|exact W].
Qed.

Lemma none_accepted : forall autofix xs, (forall x a, In (x, a) xs -> x_violation x = None) -> accepted autofix xs = [].
Proof.
  intros autofix xs H. unfold accepted. induction xs as [|[x a] xs IH]; [reflexivity|]. cbn [flat_map fst snd].
  rewrite (H x a) by now left. cbn [app]. apply IH. intros y b Hy. apply (H y b). now right.
Qed.

(** ... and [fixit fix] writes no file at all, however it is answered and wherever it stops: no fix can be applied. *)
Theorem C95_fix_breaks : forall K P T d opts m interactive diff paths vs o,
  (forall F cfg, generate_config (t_env T) F (k_cwd K) None (Some opts) = Ok cfg -> c_format cfg = OFcustom /\ unusable P (c_template cfg)) ->
  crun (fix_ (formatting K P) T d opts m interactive diff paths) vs o -> saved vs = [].
Proof.
  intros K P T d opts m interactive diff paths vs o Hc H. unfold fix_ in H. cbv zeta in H. inversion H as [| | | | |? F vs' ? H'| | |]; subst; [reflexivity|].
  change (k_cwd (formatting K P)) with (k_cwd K) in H'. destruct (generate_config (t_env T) F (k_cwd K) None (Some opts)) as [cfg|e] eqn:G; [|inversion H'; reflexivity].
  destruct (Hc F cfg G) as [C1 C2]. apply (fix_unusable K P _ _ _ cfg C1 C2 (fixit_paths_serial T d (or_cwd (formatting K P) paths) (negb (interactive && negb (first_is_dash (or_cwd (formatting K P) paths)))) (Some opts) m)) in H'. destruct H' as (es & oa & R & N & W).
  change (saved (VLook F :: vs')) with (saved vs'). rewrite W. clear W. apply run_plan in R. destruct R as [(-> & _)|(F' & es' & -> & R)]; [reflexivity|].
  cbn [written]. cbn [given] in N. apply run_lift in R. destruct (make_plan _ _ _ _) as [pl|e]; [|destruct R as [-> _]; reflexivity].
  assert (Se : forall b ps es oa, run (serial T ps b (Some opts) m) es oa -> (forall x a, In (x, a) (given es) -> x_violation x = None) -> written es = []).
  { clear. intros b ps. induction ps as [|p ps IH]; intros es oa R N; cbn [serial] in R; [inversion R; reflexivity|].
    apply run_pbind in R. destruct R as [[_ R]|[(e & _ & R)|(es1 & es2 & r & -> & R1 & R2)]].
    - eapply C31_nothing; [exact R|]. now apply none_accepted.
    - eapply C31_nothing; [exact R|]. now apply none_accepted.
    - rewrite written_app, (IH _ _ R2) by (intros x a I; apply (N x a); rewrite given_app, in_app_iff; auto). rewrite app_nil_r.
      eapply C31_nothing; [exact R1|]. apply none_accepted. intros x a I. apply (N x a). rewrite given_app, in_app_iff. auto. }
  destruct pl as [[p|ps|ps]|].
  - now destruct (C32_stdin _ _ _ _ _ _ _ R) as (_ & W & _).
  - eapply Se; eauto.
  - eapply Se; eauto.
  - inversion R; reflexivity.
Qed.

(** A template with a wrong piece after a beginning that is all right cannot be used. *)
Theorem C95_unusable : forall P before rest e, (forall message path rule col ln, exists out, fills (texts message path rule col ln) before out) -> wrong rest e ->
  unusable P (TStr (before ++ rest)).
Proof.
  intros P before rest e Hf Hw message path x rule col ln. destruct (Hf message path rule col ln) as (out & F). exists e. exact (C95_refused P message path x rule col ln before out rest e F Hw).
Qed.

(** Nothing checks this beforehand: "a configuration that is accepted has a template that can be used" is refuted. *)
Definition template_env (v : toml) : env :=
  Env (fun _ => Ok [(u "tool", TTab [(u "fixit", TTab [(u "output-format", TStr (u "custom")); (u "output-template", v)])])])
      (fun _ => true) (u "3.10") [] (fun l => l).
Theorem C95_unchecked_refuted : ~ (forall E F p opts cfg P, generate_config E F p None opts = Ok cfg -> c_format cfg = OFcustom -> ~ unusable P (c_template cfg)).
Proof.
  intro H. pose (E := template_env (TStr (u "{file}: {message}"))).
  destruct (generate_config E (ex_fs []) ex_file None None) as [cfg|e] eqn:G; [|vm_compute in G; discriminate].
  specialize (H E (ex_fs []) ex_file None cfg nothing G). vm_compute in G. injection G as <-. specialize (H eq_refl). apply H. cbn [c_template].
  apply (C95_unusable nothing [] (u "{file}: {message}") KeyError); [intros; exists []; constructor|].
  apply (w_name (u "file") (u ": {message}")).
  + intros c Hc X. cbn in Hc, X. repeat (destruct Hc as [<-|Hc]; [repeat (destruct X as [X|X]; [discriminate X|]); exact X|]). exact Hc.
  + exists 102%N. split; [now left|]. intros [_ Y]. exact (Y eq_refl).
  + intro X. cbn in X. repeat (destruct X as [X|X]; [discriminate X|]). exact X.
Qed.

(** ** Concrete cases: the file of C36_example, with three violations *)
Definition show_lint (f : output_format) (t : str) : list cev * outcome N :=
  perform (lint (formatting ex_cli nothing) (ex_tool false ex_rules) [u "d"; u "stdin"] (shown_as ex_opts (Some f) t) false false [PathArg ex_file]) ex_F [] [] false.
Definition show_fix (f : output_format) (t : str) : list cev * outcome N :=
  perform (fix_ (formatting ex_cli nothing) (ex_tool false ex_rules) [u "d"; u "stdin"] (shown_as ex_opts (Some f) t) false false false [PathArg ex_file]) ex_F [] [] false.

Example C95_commands_example :
  show_lint OFcustom fixit_template = show_lint OFfixit [] /\ show_lint OFcustom vscode_template = show_lint OFvscode [] /\
  List.length (lines (fst (show_lint OFfixit []))) = 4 /\
  map snd (lines (fst (show_lint OFcustom (u "{rule_name}")))) = [u "A"; u "A"; u "B"; summary 1 1 2 0] /\
  snd (show_lint OFcustom (u "{file}: {message}")) = Raised KeyError /\ lines (fst (show_lint OFcustom (u "{file}: {message}"))) = [] /\
  saved (fst (show_fix OFfixit [])) <> [] /\ saved (fst (show_fix OFcustom (u "{file}: {message}"))) = [].
Proof. vm_compute. repeat split; try reflexivity; discriminate. Qed.

(** A template that is missing gives empty lines. *)
Example C95_missing_example : map snd (lines (fst (show_lint OFcustom []))) = [[]; []; []; summary 1 1 2 0].
Proof. vm_compute. reflexivity. Qed.
