(** * C93: options for rules change nothing *)
From Coq Require Import String List NArith ZArith Bool Arith Lia.
From Verif Require Import Base PyStr Regex Ftypes Paths Config ConfigSpec ConfigFacts ConfigMentions ConfigValid ConfigProps Collect Suppress Cst Engine Batch
  Api ApiSpec System Session Cli CliSpec Commands Jobs OptionsSpec.
Import ListNotations.
Set Implicit Arguments.

(** ** Tables *)
Lemma at_key_get : forall k f d j, dget j (at_key k f d) = if str_eqb j (u k) then option_map f (dget j d) else dget j d.
Proof.
  intros k f d j. unfold at_key. induction d as [|[k' v] d IH]; cbn [map fst snd dget]; [now destruct (str_eqb j (u k))|].
  destruct (str_eqb (u k) k') eqn:Ek; cbn [dget].
  - apply str_eqb_eq in Ek. subst k'. rewrite IH. destruct (str_eqb j (u k)); reflexivity.
  - rewrite IH. destruct (str_eqb j k') eqn:Ej; [|reflexivity]. apply str_eqb_eq in Ej. subst j.
    destruct (str_eqb k' (u k)) eqn:Ek'; [|reflexivity]. apply str_eqb_eq in Ek'. subst. now rewrite str_eqb_refl in Ek.
Qed.

Lemma at_key_del : forall k f d j, ddel j (at_key k f d) = at_key k f (ddel j d).
Proof.
  intros k f d j. unfold at_key. induction d as [|[k' v] d IH]; cbn [map fst snd ddel]; [reflexivity|].
  destruct (str_eqb (u k) k') eqn:Ek; cbn [ddel]; destruct (str_eqb j k'); cbn [map fst snd]; rewrite ?Ek; now rewrite IH.
Qed.

Lemma at_key_keys : forall k f d, dkeys (at_key k f d) = dkeys d.
Proof.
  intros k f d. unfold at_key, dkeys. rewrite map_map. apply map_ext. intros [k' v]. cbn [fst snd]. now destruct (str_eqb (u k) k').
Qed.

Lemma at_key_truthy : forall k f d, truthy (TTab (at_key k f d)) = truthy (TTab d).
Proof. intros k f [|kv d]; reflexivity. Qed.

(** ** Merging *)
Definition plain (s : mstate) : mstate := MState (s_enable s) (s_disable s) [] (s_python s) (s_formatter s).
Definition plain_g (g : gstate) : gstate := GState (g_root g) (g_import g) (g_format g) (g_template g) (g_warn g) (plain (g_m g)).
Definition rmap {A B} (f : A -> B) (r : res A) : res B := match r with Ok x => Ok (f x) | Err e => Err e end.

Lemma fold_plain : forall A S S' (h : S -> S') (f : S -> A -> res S) (f' : S' -> A -> res S') l,
  (forall s x, In x l -> f' (h s) x = rmap h (f s x)) -> forall s, fold_res f' l (h s) = rmap h (fold_res f l s).
Proof.
  intros A S S' h f f' l. induction l as [|x l IH]; intros H s; cbn [fold_res]; [reflexivity|].
  rewrite H by now left. destruct (f s x) as [s1|e]; [|reflexivity]. cbn [rmap bind]. apply IH. intros s2 y Hy. apply H. now right.
Qed.

Lemma fold_plain_map : forall A S S' (h : S -> S') (f : S -> A -> res S) (f' : S' -> A -> res S') (c : A -> A) l,
  (forall s x, In x l -> f' (h s) (c x) = rmap h (f s x)) -> forall s, fold_res f' (map c l) (h s) = rmap h (fold_res f l s).
Proof.
  intros A S S' h f f' c l. induction l as [|x l IH]; intros H s; cbn [map fold_res]; [reflexivity|].
  rewrite H by now left. destruct (f s x) as [s1|e]; [|reflexivity]. cbn [rmap bind]. apply IH. intros s2 y Hy. apply H. now right.
Qed.

Lemma enable_plain : forall dir s r, add_enable dir (plain s) r = rmap plain (add_enable dir s r).
Proof. intros dir s r. unfold add_enable. now destruct (parse_rule_toml r dir). Qed.
Lemma disable_plain : forall dir s r, add_disable dir (plain s) r = rmap plain (add_disable dir s r).
Proof. intros dir s r. unfold add_disable. now destruct (parse_rule_toml r dir). Qed.
Lemma python_plain : forall E v s, set_python (read_emptied E) v (plain s) = rmap plain (set_python E v s).
Proof.
  intros E [v|] s; [|reflexivity]. unfold set_python, read_emptied. cbn [e_version_ok]. destruct (truthy v); [|reflexivity].
  destruct v as [t| | | | | |]; try reflexivity. now destruct (e_version_ok E t).
Qed.
Lemma formatter_plain : forall E v s, set_formatter (read_emptied E) v (plain s) = rmap plain (set_formatter E v s).
Proof.
  intros E [v|] s; [|reflexivity]. unfold set_formatter, read_emptied. cbn [e_styles]. destruct (truthy v); [|reflexivity].
  destruct v as [t| | | | | |]; try reflexivity. now destruct (existsb (str_eqb t) (e_styles E)).
Qed.

Lemma subpath_plain : forall E path dir sub en dis op py fm s,
  process_subpath (read_emptied E) path dir sub en dis [] py fm (plain s) = rmap plain (process_subpath E path dir sub en dis op py fm s).
Proof.
  intros E path dir sub en dis op py fm s. unfold process_subpath. destruct (negb (is_prefix (resolve sub) path)); [reflexivity|].
  rewrite (fold_plain plain (add_enable dir) (add_enable dir)) by (intros; apply enable_plain).
  destruct (fold_res (add_enable dir) en s) as [s1|e]; [|reflexivity]. cbn [rmap bind].
  rewrite (fold_plain plain (add_disable dir) (add_disable dir)) by (intros; apply disable_plain).
  destruct (fold_res (add_disable dir) dis s1) as [s2|e]; [|reflexivity]. cbn [rmap bind].
  set (s3 := match op with [] => s2 | _ => MState (s_enable s2) (s_disable s2) (dupdate (s_options s2) op) (s_python s2) (s_formatter s2) end).
  assert (P : plain s2 = plain s3) by (subst s3; destruct op; reflexivity). rewrite P, python_plain.
  destruct (set_python E py s3) as [s4|e]; [|reflexivity]. cbn [rmap bind]. apply formatter_plain.
Qed.

Lemma override_plain : forall E path dir s o, (forall t, o = TTab t -> valid_options t) ->
  process_override (read_emptied E) path dir (plain s) (inside emptied o) = rmap plain (process_override E path dir s o).
Proof.
  intros E path dir s o V. destruct o as [| | | | | |t]; try reflexivity. specialize (V t eq_refl). cbn [inside process_override].
  assert (G : forall j, str_eqb j (u "options") = false -> dget j (emptied t) = dget j t) by (intros j H; unfold emptied; now rewrite at_key_get, H).
  rewrite G by reflexivity.
  destruct (dget (u "path") t) as [sub|]; [|reflexivity]. destruct (truthy sub); [|reflexivity]. destruct sub as [x| | | | | |]; try reflexivity.
  rewrite !process_table_eq.
  rewrite (G (u "enable")), (G (u "disable")), (G (u "python-version")), (G (u "formatter")) by reflexivity.
  destruct (as_seq (dget (u "enable") t)) as [en|e]; [|reflexivity]. cbn [bind].
  destruct (as_seq (dget (u "disable") t)) as [dis|e]; [|reflexivity]. cbn [bind].
  apply as_options_iff in V. destruct V as (op & V). rewrite V.
  assert (Z : as_options (dget (u "options") (emptied t)) = Ok []).
  { unfold emptied. rewrite at_key_get. change (str_eqb (u "options") (u "options")) with true. cbv iota. now destruct (dget (u "options") t). }
  rewrite Z. cbn [bind]. rewrite (subpath_plain E path dir (joinpath dir x) en dis op).
  match goal with |- bind (bind (rmap plain ?r) _) _ = rmap plain (bind (bind ?r' _) _) => change r' with r; destruct r; reflexivity end.
Qed.

Lemma section_get : forall d j, str_eqb j (u "options") = false -> str_eqb j (u "overrides") = false -> dget j (section_emptied d) = dget j d.
Proof. intros d j A B. unfold section_emptied, emptied. rewrite !at_key_get, A, B. reflexivity. Qed.

Lemma section_del : forall d j, ddel j (section_emptied d) = section_emptied (ddel j d).
Proof. intros d j. unfold section_emptied, emptied. now rewrite !at_key_del. Qed.

Lemma section_keys : forall d, dkeys (section_emptied d) = dkeys d.
Proof. intro d. unfold section_emptied, emptied. now rewrite !at_key_keys. Qed.

Definition raw_emptied (c : raw) : raw := Raw (rc_path c) (section_emptied (rc_data c)).

Lemma merge_one_plain : forall E path g c, valid_section (rc_data c) ->
  merge_one (read_emptied E) path (plain_g g) (raw_emptied c) = rmap plain_g (merge_one E path g c).
Proof.
  intros E path g [p d] (Vo & Vs). rewrite !merge_one_eq. cbv zeta. unfold rc_dir, raw_emptied. cbn [rc_data rc_path] in *.
  unfold root_after, format_of, ConfigSpec.given, rc_dir. cbn [rc_data rc_path plain_g g_root g_import g_format g_template g_warn g_m].
  rewrite (section_get d (u "root")), (section_get d (u "enable-root-import")), (section_get d (u "output-format")), (section_get d (u "output-template")),
    (section_get d (u "enable")), (section_get d (u "disable")), (section_get d (u "python-version")), (section_get d (u "formatter")) by reflexivity.
  match goal with |- context [root_import_of ?a ?b ?c ?e] => destruct (root_import_of a b c e) as [im|er]; [|reflexivity] end. cbn [bind].
  match goal with |- bind ?r _ = _ => destruct r as [fm|er]; [|reflexivity] end. cbn [bind].
  destruct (as_seq (dget (u "enable") d)) as [en|e]; [|reflexivity]. cbn [bind].
  destruct (as_seq (dget (u "disable") d)) as [dis|e]; [|reflexivity]. cbn [bind].
  apply as_options_iff in Vo. destruct Vo as (op & Vo). rewrite Vo.
  assert (Z : as_options (dget (u "options") (section_emptied d)) = Ok []).
  { unfold section_emptied, emptied. rewrite !at_key_get. change (str_eqb (u "options") (u "overrides")) with false.
    change (str_eqb (u "options") (u "options")) with true. cbv iota. now destruct (dget (u "options") d). }
  rewrite Z. cbn [bind]. rewrite (subpath_plain E path (parent p) (parent p) en dis op).
  match goal with |- bind (rmap plain ?r) _ = rmap plain_g (bind ?r' _) => change r' with r; destruct r as [s1|e]; [|reflexivity] end. cbn [rmap bind].
  assert (Zo : as_seq (dget (u "overrides") (section_emptied d)) = rmap (map (inside emptied)) (as_seq (dget (u "overrides") d))).
  { unfold section_emptied, emptied. rewrite !at_key_get. change (str_eqb (u "overrides") (u "overrides")) with true.
    change (str_eqb (u "overrides") (u "options")) with false. cbv iota. destruct (dget (u "overrides") d) as [[]|]; reflexivity. }
  rewrite Zo. unfold elements in Vs. destruct (dget (u "overrides") d) as [v|]; [destruct v as [| | | | |ov|]; try reflexivity|]; cbn [as_seq rmap bind].
  - rewrite (fold_plain_map plain (process_override E path (parent p)) (process_override (read_emptied E) path (parent p)) (inside emptied)).
    2: { intros s x Hx. apply override_plain. intros t ->. now apply Vs. }
    destruct (fold_res (process_override E path (parent p)) ov s1) as [s2|e]; [|reflexivity]. cbn [rmap bind]. unfold plain_g. cbn.
    do 2 f_equal. unfold rest9, rest5. rewrite !section_del. now rewrite section_keys.
  - cbn [map fold_res bind rmap]. unfold plain_g. cbn. do 2 f_equal. unfold rest9, rest5. rewrite !section_del. now rewrite section_keys.
Qed.

Lemma merge_plain : forall E path raws root, (forall c, In c raws -> valid_section (rc_data c)) ->
  merge_configs (read_emptied E) path (map raw_emptied raws) root = rmap (fun x => (optionless (fst x), snd x)) (merge_configs E path raws root).
Proof.
  intros E path raws root V. unfold merge_configs. rewrite <- map_rev.
  change (init_state (read_emptied E) root) with (plain_g (init_state E root)).
  rewrite (fold_plain_map plain_g (merge_one E path) (merge_one (read_emptied E) path) raw_emptied).
  - destruct (fold_res (merge_one E path) (rev raws) (init_state E root)) as [g|e]; reflexivity.
  - intros s x Hx. apply merge_one_plain. apply V. now apply in_rev.
Qed.

Lemma section_of_emptied : forall d, fixit_section (file_emptied d) = rmap (option_map (inside section_emptied)) (fixit_section d).
Proof.
  intro d. unfold fixit_section, file_emptied. rewrite at_key_get. change (str_eqb (u "tool") (u "tool")) with true. cbv iota.
  destruct (dget (u "tool") d) as [v|]; [|reflexivity]. cbn [option_map]. destruct v as [| | | | | |tool]; try reflexivity. cbn [inside].
  rewrite at_key_get. change (str_eqb (u "fixit") (u "fixit")) with true. cbv iota. destruct (dget (u "fixit") tool) as [v|]; [|reflexivity]. cbn [option_map].
  assert (T : truthy (inside section_emptied v) = truthy v).
  { destruct v as [| | | | | |sec]; try reflexivity. cbn [inside]. unfold section_emptied, emptied. now rewrite !at_key_truthy. }
  rewrite T. now destruct (truthy v).
Qed.

Lemma read_plain : forall E F, valid_files E F -> forall paths,
  read_configs (read_emptied E) F paths = rmap (map raw_emptied) (read_configs E F paths) /\
  forall raws, read_configs E F paths = Ok raws -> forall c, In c raws -> valid_section (rc_data c).
Proof.
  intros E F V. induction paths as [|p paths (IH & IV)]; cbn [read_configs].
  { split; [reflexivity|]. intros raws H. injection H as <-. intros c []. }
  destruct (f_file F (resolve p)) as [content|] eqn:Ef; [|split; [reflexivity|discriminate]].
  cbn [read_emptied e_load]. destruct (e_load E content) as [d|e] eqn:El; [|split; [reflexivity|discriminate]]. cbn [bind].
  rewrite section_of_emptied. destruct (fixit_section d) as [sec|e] eqn:Es; [|split; [reflexivity|discriminate]]. cbn [rmap bind option_map].
  destruct sec as [v|]; [|exact (conj IH IV)]. cbn [option_map].
  destruct v as [| | | | | |sec]; try (split; [reflexivity|discriminate]). cbn [inside]. rewrite section_get by reflexivity.
  assert (Vs : valid_section sec).
  { unfold fixit_section in Es. destruct (dget (u "tool") d) as [v|] eqn:Et; [|discriminate]. destruct v as [| | | | | |tool]; try discriminate.
    destruct (dget (u "fixit") tool) as [v|] eqn:Eft; [|discriminate]. destruct (truthy v); [|discriminate]. injection Es as ->.
    eapply V; eauto. }
  destruct (truthy_opt (dget (u "root") sec)).
  - split; [reflexivity|]. intros raws H. injection H as <-. intros c [<-|[]]. exact Vs.
  - rewrite IH. destruct (read_configs E F paths) as [more|e]; [|split; [reflexivity|discriminate]]. cbn [rmap bind]. split; [reflexivity|].
    intros raws H. injection H as <-. intros c [<-|Hc]; [exact Vs|]. now apply (IV more).
Qed.

(** Options tables that are tables of tables of scalars change nothing in the configuration of any file, or in the error, but the options
    themselves. *)
Theorem C93_config : forall E F path root opts, valid_files E F ->
  generate_config (read_emptied E) F path root opts =
  match generate_config E F path root opts with Ok c => Ok (optionless c) | Err e => Err e end.
Proof.
  intros E F path root opts V. unfold generate_config.
  match goal with |- bind ?r _ = _ => destruct r as [paths|e]; [|reflexivity] end. cbn [bind].
  destruct (read_plain V paths) as (R & Vr). rewrite R. destruct (read_configs E F paths) as [raws|e]; [|reflexivity]. cbn [rmap bind].
  rewrite merge_plain by (apply Vr; reflexivity).
  match goal with |- context [merge_configs E ?a raws ?b] => destruct (merge_configs E a raws b) as [[c w]|e]; [|reflexivity] end.
  cbn [rmap bind fst snd]. destruct opts as [o|]; reflexivity.
Qed.

(** ** Generators that do the same, as long as they look at certain file systems *)
Inductive same {R} (P : fs -> Prop) (Q : R -> R -> Prop) : prog R -> prog R -> Prop :=
| same_ret : forall r r', Q r r' -> same P Q (Ret r) (Ret r')
| same_raise : forall e, same P Q (Raise e) (Raise e)
| same_give : forall x k k', (forall a, same P Q (k a) (k' a)) -> same P Q (Give x k) (Give x k')
| same_look : forall k k', (forall F, P F -> same P Q (k F) (k' F)) -> same P Q (Look k) (Look k')
| same_write : forall p c k k', (forall o, same P Q (k o) (k' o)) -> same P Q (Write p c k) (Write p c k')
| same_stdin : forall k k', (forall o, same P Q (k o) (k' o)) -> same P Q (Stdin k) (Stdin k')
| same_stdout : forall c k k', (forall o, same P Q (k o) (k' o)) -> same P Q (Stdout c k) (Stdout c k')
| same_call : forall m k k', (forall o, same P Q (k o) (k' o)) -> same P Q (Call m k) (Call m k').

Lemma same_refl : forall R (P : fs -> Prop) (p : prog R), same P eq p p.
Proof. intros R P p. induction p; constructor; auto. Qed.

Lemma same_catch : forall R (P : fs -> Prop) (Q : R -> R -> Prop) p p' h, same P Q p p' -> (forall e, same P Q (h e) (h e)) -> same P Q (catch p h) (catch p' h).
Proof. intros R P Q p p' h H Hh. induction H; cbn [catch]; try constructor; auto. Qed.

Lemma same_bind : forall A B (P : fs -> Prop) (Q : A -> A -> Prop) (S : B -> B -> Prop) p p' f f', same P Q p p' ->
  (forall a a', Q a a' -> same P S (f a) (f' a')) -> same P S (pbind p f) (pbind p' f').
Proof. intros A B P Q S p p' f f' H Hf. induction H; cbn [pbind]; try constructor; auto. Qed.

Lemma same_track : forall R (P : fs -> Prop) (p p' : prog R), same P eq p p' -> forall seen, (forall F, In F seen -> P F) ->
  same P (fun q q' => q = q' /\ forall F, In F (snd q) -> P F) (track p seen) (track p' seen).
Proof.
  intros R P p p' H. induction H as [r r' <-| | | | | | |]; intros seen Hs; cbn [track]; constructor; auto.
  intros F HF. apply H0; auto. intros G HG. apply in_app_or in HG. destruct HG as [HG|[<-|[]]]; auto.
Qed.

Lemma same_run : forall R (P : fs -> Prop) (p p' : prog R) es o, same P eq p p' -> (forall F, sees es F -> P F) -> run p es o <-> run p' es o.
Proof.
  intros R P p p' es o H. revert es. unfold sees.
  induction H as [r r' <-| | | | | | |]; intros es Hs; [tauto|tauto| | | | | |];
    (split; intro X; inversion X; subst; constructor;
     match goal with IH : forall a, _ |- _ => solve [eapply IH; [|eassumption]; cbn [In] in *; auto | eapply IH; [| |eassumption]; cbn [In] in *; auto] end).
Qed.

(** ** What is done with one file, and with several *)
Lemma bytes_optionless : forall Y z p content cfg autofix hook,
  fixit_bytes (tool_of (system_at (without_options Y) z)) p content (optionless cfg) autofix hook = fixit_bytes (tool_of (system_at Y z)) p content cfg autofix hook.
Proof. intros Y z p content cfg autofix hook. destruct cfg. reflexivity. Qed.

Lemma file_same : forall Y z p autofix opts hook,
  same (valid_files (y_env Y)) eq (fixit_file (tool_of (system_at Y z)) p autofix opts hook) (fixit_file (tool_of (system_at (without_options Y) z)) p autofix opts hook).
Proof.
  intros Y z p autofix opts hook. unfold fixit_file. apply same_catch; [|intros e; apply same_refl]. constructor. intros F0 _.
  destruct (f_file F0 p) as [content|]; [|constructor]. constructor. intros F V.
  change (t_env (tool_of (system_at (without_options Y) z))) with (read_emptied (y_env Y)). change (t_env (tool_of (system_at Y z))) with (y_env Y).
  rewrite C93_config by exact V. destruct (generate_config (y_env Y) F p None opts) as [cfg|e]; [|constructor]. cbn [lift].
  rewrite bytes_optionless. apply same_refl.
Qed.

Lemma stdin_same : forall Y z p autofix opts hook,
  same (valid_files (y_env Y)) eq (fixit_stdin (tool_of (system_at Y z)) p autofix opts hook) (fixit_stdin (tool_of (system_at (without_options Y) z)) p autofix opts hook).
Proof.
  intros Y z p autofix opts hook. unfold fixit_stdin. apply same_catch; [|intros e; apply same_refl]. constructor. intros [content|e]; [|constructor]. cbn [lift].
  constructor. intros F V.
  change (t_env (tool_of (system_at (without_options Y) z))) with (read_emptied (y_env Y)). change (t_env (tool_of (system_at Y z))) with (y_env Y).
  rewrite C93_config by exact V. destruct (generate_config (y_env Y) F p None opts) as [cfg|e]; [|constructor]. cbn [lift].
  rewrite bytes_optionless. apply same_refl.
Qed.

Lemma after_same : forall Y p opts looked z, (forall F, In F looked -> valid_files (y_env Y) F) ->
  after_file (without_options Y) p opts looked z = after_file Y p opts looked z.
Proof.
  intros Y p opts looked z V. unfold after_file. destruct looked as [|F0 [|F1 [|F2 rest]]]; try reflexivity.
  change (y_env (without_options Y)) with (read_emptied (y_env Y)). rewrite C93_config by (apply V; cbn; auto).
  destruct (generate_config (y_env Y) F1 p None opts) as [cfg|e]; [|reflexivity]. destruct cfg. reflexivity.
Qed.

Lemma session_same : forall Y autofix opts hook ps z,
  same (valid_files (y_env Y)) eq (in_session Y ps autofix opts hook z) (in_session (without_options Y) ps autofix opts hook z).
Proof.
  intros Y autofix opts hook. induction ps as [|p ps IH]; intro z; cbn [in_session]; [now constructor|].
  eapply same_bind; [apply same_track; [apply file_same|intros F []]|]. intros q q' (<- & Vq). rewrite after_same by exact Vq. apply IH.
Qed.

Lemma pool_same : forall Y d paths autofix opts hook z pool,
  same (valid_files (y_env Y)) eq (pool_paths Y d paths autofix opts hook z pool) (pool_paths (without_options Y) d paths autofix opts hook z pool).
Proof.
  intros Y d paths autofix opts hook z pool. unfold pool_paths. constructor. intros F V. change (y_walk (without_options Y) F) with (y_walk Y F).
  destruct (make_plan (y_walk Y F) d true paths) as [[[p|ps|ps]|]|e]; cbn [lift]; try (constructor; reflexivity).
  - apply stdin_same.
  - eapply same_bind; [apply session_same|]. intros; now constructor.
  - apply same_refl.
Qed.

Lemma whole_same : forall Y d paths autofix opts hook z,
  same (valid_files (y_env Y)) eq (whole_paths Y d paths autofix opts hook z) (whole_paths (without_options Y) d paths autofix opts hook z).
Proof.
  intros Y d paths autofix opts hook z. unfold whole_paths. constructor. intros F V. change (y_walk (without_options Y) F) with (y_walk Y F).
  destruct (make_plan (y_walk Y F) d false paths) as [[[p|ps|ps]|]|e]; cbn [lift]; try (constructor; reflexivity).
  - apply stdin_same.
  - eapply same_bind; [apply session_same|]. intros; now constructor.
  - eapply same_bind; [apply session_same|]. intros; now constructor.
Qed.

(** ** Commands *)
Lemma print_crun : forall R l (k k' : cmd R) (P : list cev -> Prop),
  (forall vs v, P (v :: vs) -> P vs) -> (forall vs o, P vs -> (crun k vs o <-> crun k' vs o)) ->
  forall vs o, P vs -> (crun (print_all l k) vs o <-> crun (print_all l k') vs o).
Proof.
  intros R l k k' P Pt H. induction l as [|[s t] l IH]; intros vs o Hv; cbn [print_all]; [auto|].
  split; intro X; inversion X; subst; constructor; apply IH; eauto.
Qed.

Lemma lint_loop_same : forall K diff cfg (P : fs -> Prop) g g', same P eq g g' -> forall t vs o, (forall F, command_sees vs F -> P F) ->
  (crun (lint_loop K diff cfg g t) vs o <-> crun (lint_loop K diff (optionless cfg) g' t) vs o).
Proof.
  intros K diff cfg P g g' H. unfold command_sees.
  induction H as [r r' <-| |x k k' H IH|k k' H IH|p c k k' H IH|k k' H IH|c k k' H IH|m k k' H IH]; intros t vs o V; cbn [lint_loop]; [tauto|tauto| | | | | |].
  - change (c_format (optionless cfg)) with (c_format cfg). change (c_template (optionless cfg)) with (c_template cfg).
    destruct (print_result K x diff false (c_format cfg) (c_template cfg)) as [[ls dirty]|e]; [|tauto].
    apply (@print_crun _ ls _ _ (fun vs => forall F, In (VLook F) vs -> P F)); auto. intros vs0 v Hv F HF. apply Hv. now right.
  - split; intro X; inversion X; subst; constructor; (eapply IH; [| |eassumption]); cbn [In] in *; auto.
  - split; intro X; inversion X; subst; constructor; (eapply IH; [|eassumption]); cbn [In] in *; auto.
  - split; intro X; inversion X; subst; constructor; (eapply IH; [|eassumption]); cbn [In] in *; auto.
  - split; intro X; inversion X; subst; constructor; (eapply IH; [|eassumption]); cbn [In] in *; auto.
  - split; intro X; inversion X; subst; constructor; (eapply IH; [|eassumption]); cbn [In] in *; auto.
Qed.

Lemma fix_loop_same : forall K inter diff std cfg (P : fs -> Prop) g g', same P eq g g' -> forall t vs o, (forall F, command_sees vs F -> P F) ->
  (crun (fix_loop K inter diff std cfg g t) vs o <-> crun (fix_loop K inter diff std (optionless cfg) g' t) vs o).
Proof.
  intros K inter diff std cfg P g g' H. unfold command_sees.
  induction H as [r r' <-| |x k k' H IH|k k' H IH|p c k k' H IH|k k' H IH|c k k' H IH|m k k' H IH]; intros t vs o V; cbn [fix_loop]; [tauto|tauto| | | | | |].
  - change (c_format (optionless cfg)) with (c_format cfg). change (c_template (optionless cfg)) with (c_template cfg).
    destruct (print_result K x (inter || diff) std (c_format cfg) (c_template cfg)) as [[ls dirty]|e]; [|tauto].
    apply (@print_crun _ ls _ _ (fun vs => forall F, In (VLook F) vs -> P F)); auto.
    + intros vs0 v Hv F HF. apply Hv. now right.
    + intros vs0 o0 V0. destruct (inter && is_fixable x); [|now apply IH].
      split; intro X; inversion X as [| | | |? a ? ? Y| | | |]; subst; constructor; destruct a as [[| |]|]; auto;
        (eapply IH; [|exact Y]); cbn [In] in *; auto.
  - split; intro X; inversion X; subst; constructor; (eapply IH; [| |eassumption]); cbn [In] in *; auto.
  - split; intro X; inversion X; subst; constructor; (eapply IH; [|eassumption]); cbn [In] in *; auto.
  - split; intro X; inversion X; subst; constructor; (eapply IH; [|eassumption]); cbn [In] in *; auto.
  - split; intro X; inversion X; subst; constructor; (eapply IH; [|eassumption]); cbn [In] in *; auto.
  - split; intro X; inversion X; subst; constructor; (eapply IH; [|eassumption]); cbn [In] in *; auto.
Qed.

(** What linting or fixing a file does is what it would do with the options tables empty: the same results, the same answers, the same files
    written, the same errors. *)
Theorem C93_file : forall Y p autofix opts hook es o, (forall F, sees es F -> valid_files (y_env Y) F) ->
  (run (fixit_file (tool_of Y) p autofix opts hook) es o <-> run (fixit_file (tool_of (without_options Y)) p autofix opts hook) es o).
Proof.
  intros Y p autofix opts hook es o V. apply (same_run (P := valid_files (y_env Y))); [|exact V].
  unfold fixit_file. apply same_catch; [|intros e; apply same_refl]. constructor. intros F0 _.
  destruct (f_file F0 p) as [content|]; [|constructor]. constructor. intros F Vf.
  change (t_env (tool_of (without_options Y))) with (read_emptied (y_env Y)). change (t_env (tool_of Y)) with (y_env Y).
  rewrite C93_config by exact Vf. destruct (generate_config (y_env Y) F p None opts) as [cfg|e]; [|constructor]. cbn [lift].
  replace (fixit_bytes (tool_of (without_options Y)) p content (optionless cfg) autofix hook) with (fixit_bytes (tool_of Y) p content cfg autofix hook)
    by (destruct cfg; reflexivity).
  apply same_refl.
Qed.

(** The same for [fixit lint], with files in one process or in several, and for [fixit fix]. *)
Theorem C93_lint : forall K Y d opts m diff paths z pool vs o, (forall F, command_sees vs F -> valid_files (y_env Y) F) ->
  (crun (whole_lint K Y d opts m diff paths z) vs o <-> crun (whole_lint K (without_options Y) d opts m diff paths z) vs o) /\
  (crun (lint_jobs K Y d opts m diff paths z pool) vs o <-> crun (lint_jobs K (without_options Y) d opts m diff paths z pool) vs o).
Proof.
  intros K Y d opts m diff paths z pool vs o V. unfold whole_lint, lint_jobs, lint_with. change (y_env (without_options Y)) with (read_emptied (y_env Y)).
  unfold command_sees in V. split; (split; (intro X; inversion X as [| | | | |? F vs' ? Y'| | |]; subst; [apply cr_stop|apply cr_look;
    assert (Vf : valid_files (y_env Y) F) by (apply V; left; reflexivity);
    pose proof (C93_config (k_cwd K) None (Some opts) Vf) as G; rewrite ?G in *; clear G;
    destruct (generate_config (y_env Y) F (k_cwd K) None (Some opts)) as [cfg|e]; [|exact Y'];
    first [apply (lint_loop_same K diff cfg (whole_same Y d (or_cwd K paths) false (Some opts) m z) no_tally vs' o (fun G HG => V G (or_intror HG))); exact Y'
          |apply (lint_loop_same K diff cfg (pool_same Y d (or_cwd K paths) false (Some opts) m z pool) no_tally vs' o (fun G HG => V G (or_intror HG))); exact Y']])).
Qed.

Theorem C93_fix : forall K Y d opts m interactive diff paths z vs o, (forall F, command_sees vs F -> valid_files (y_env Y) F) ->
  (crun (whole_fix K Y d opts m interactive diff paths z) vs o <-> crun (whole_fix K (without_options Y) d opts m interactive diff paths z) vs o).
Proof.
  intros K Y d opts m interactive diff paths z vs o V. unfold whole_fix. cbv zeta. change (y_env (without_options Y)) with (read_emptied (y_env Y)).
  unfold command_sees in V. split; (intro X; inversion X as [| | | | |? F vs' ? Y'| | |]; subst; [apply cr_stop|apply cr_look;
    assert (Vf : valid_files (y_env Y) F) by (apply V; left; reflexivity);
    pose proof (C93_config (k_cwd K) None (Some opts) Vf) as G; rewrite ?G in *; clear G;
    destruct (generate_config (y_env Y) F (k_cwd K) None (Some opts)) as [cfg|e]; [|exact Y'];
    apply (fix_loop_same K _ diff _ cfg (whole_same Y d (or_cwd K paths) _ (Some opts) m z) no_tally vs' o (fun G HG => V G (or_intror HG))); exact Y']).
Qed.

(** The guide writes the options of an override as "[[tool.fixit.overrides.options]]", which is an array of tables: no file below that
    configuration can be linted, wherever the override applies. *)
Theorem C93_documented : forall E file raws root c o l,
  In c raws -> In (TTab o) (elements "overrides" (rc_data c)) -> dget (u "options") o = Some (TArr l) ->
  exists e, merge_configs E file raws root = Err e.
Proof.
  intros E file raws root c o l Hc Ho Hl. destruct (merge_configs E file raws root) as [[cfg w]|e] eqn:M; [exfalso|eauto].
  assert (V : valid_configs E file root (rev raws)) by (apply C12_accepts_exactly; eauto). apply in_rev in Hc. revert root V M Hc. generalize (rev raws).
  intro cs. intros root V _ Hc. revert root V. induction cs as [|c0 cs IH]; intros root V; [contradiction|]. destruct V as (V0 & V). destruct Hc as [<-|Hc]; [|eauto].
  destruct V0 as (_ & _ & _ & _ & _ & V0). destruct (V0 _ Ho) as (t & E0 & _ & (_ & _ & Vt) & _). injection E0 as <-.
  destruct Vt as [X|(m & X & _)]; rewrite Hl in X; discriminate.
Qed.

(** ** A concrete case: /a has options for its rule, also in an override *)
From Verif Require Import CliProps SystemProps SystemSame SessionProps.

Definition greeting : toml := TTab [(u "rules:ARule", TTab [(u "greeting", TStr (u "hello world")); (u "answer", TInt 42)])].
Definition toml_options (s : str) : res table :=
  Ok [(u "tool", TTab [(u "fixit", TTab [(u "root", TBool true); (u "enable-root-import", TBool true); (u "enable", TArr [TStr (u "rules")]);
                                         (u "options", greeting); (u "overrides", TArr [TTab [(u "path", TStr (u "x.py")); (u "options", greeting)]])])])].
Definition system_options : system :=
  MkSystem (Env toml_options (fun _ => true) (u "3.10") [] (fun l => l)) U0 (fun _ => world2) (PyState [] [] 0)
    (fun _ k => if N.eqb (fst k) 1 then reporter (u "ARule") (Some RRemove) else reporter (u "B") None)
    (fun _ => Ok module0) (fun _ => Ok meta0) (fun _ => 1) (fun _ _ b => b) (fun m => Ok (code m)) (fun _ => None) (fun _ p => Ok [p]).

Lemma options_example_valid : forall F, valid_files (y_env system_options) F.
Proof.
  intros F q content d _ H. injection H as <-. intros tool section Ht Hs. vm_compute in Ht. injection Ht as <-. vm_compute in Hs. injection Hs as <-.
  assert (G : forall rule v, In (rule, v) [(u "rules:ARule", TTab [(u "greeting", TStr (u "hello world")); (u "answer", TInt 42)])] ->
                             exists e, v = TTab e /\ forall k x, In (k, x) e -> scalar x).
  { intros rule v [X|[]]. injection X as _ <-. eexists. split; [reflexivity|]. intros k x [X|[X|[]]]; injection X as _ <-; exact Logic.I. }
  split.
  - right. eexists. split; [vm_compute; reflexivity|]. exact G.
  - intros o Ho. vm_compute in Ho. destruct Ho as [X|[]]. injection X as <-. right. eexists. split; [vm_compute; reflexivity|]. exact G.
Qed.

Example C93_example :
  (forall F, valid_files (y_env system_options) F) /\
  (match generate_config (y_env system_options) fs2 x_py None None with Ok c => dget (u "rules:ARule") (c_options c) | Err _ => None end
   = Some [(u "greeting", TStr (u "hello world")); (u "answer", TInt 42)]) /\
  (match generate_config (read_emptied (y_env system_options)) fs2 x_py None None with Ok c => c_options c = [] /\ c_enable c <> [] | Err _ => False end) /\
  (let c := fun Y => whole_fix ex_cli Y [u "d"; u "stdin"] ex_opts false false false [PathArg x_py] session0 in
   let (vs, o) := perform (c system_options) fs2 [] [] false in
   crun (c system_options) vs o /\ crun (c (without_options system_options)) vs o /\ map fst (saved vs) = [x_py] /\ o = Returned 0%N).
Proof.
  split; [exact options_example_valid|]. split; [vm_compute; reflexivity|]. split; [vm_compute; split; [reflexivity|discriminate]|]. cbv zeta.
  pose proof (perform_run _ (whole_fix ex_cli system_options [u "d"; u "stdin"] ex_opts false false false [PathArg x_py] session0) fs2 [] [] false) as R.
  destruct (perform _ fs2 [] [] false) as [vs o] eqn:P. cbn [fst snd] in R. split; [exact R|]. split.
  - apply (proj1 (C93_fix ex_cli system_options _ _ _ _ _ _ _ vs o (fun F _ => options_example_valid F))). exact R.
  - vm_compute in P. injection P as <- <-. split; reflexivity.
Qed.

(** The override of the guide *)
Example C93_example_documented :
  let d := [(u "overrides", TArr [TTab [(u "path", TStr (u "foo/bar")); (u "disable", TArr [TStr (u "fixit.rules:ExampleRule")]);
                                        (u "options", TArr [TTab [(u "fixit.rules:Story", TTab [(u "closing", TStr (u "goodnight moon"))])]])]])] in
  forall file, merge_configs (y_env system_options) file [Raw [u "a"; u "fixit.toml"] d] None = Err ConfigError.
Proof.
  intros d file. subst d. unfold merge_configs. cbn [rev app fold_res]. rewrite merge_one_eq. cbv zeta. unfold process_subpath.
  lazy -[is_prefix]. now destruct (is_prefix _ file).
Qed.
