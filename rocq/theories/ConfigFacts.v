(** * Facts about the model of fixit/config.py *)
From Coq Require Import String List NArith ZArith Bool Arith Lia Permutation Sorted.
From Verif Require Import Base PyStr Regex Ftypes Paths RuleNameSpec RuleNameFacts Config ConfigSpec.
Import ListNotations.
Set Implicit Arguments.

(** ** Generalities *)

Lemma above_prefix : forall d f, above d f <-> is_prefix d f = true.
Proof. intros. symmetry. apply is_prefix_spec. Qed.

Lemma last_some_app : forall A (l1 l2 : list (option A)),
  last_some (l1 ++ l2) = match last_some l2 with Some y => Some y | None => last_some l1 end.
Proof.
  induction l1 as [|x l1 IH]; intros l2; simpl.
  - destruct (last_some l2); reflexivity.
  - rewrite IH. destruct (last_some l2); reflexivity.
Qed.

Lemma last_some_rev : forall A (l : list (option A)), last_some (rev l) = first_some l.
Proof.
  induction l as [|x l IH]; simpl; auto. rewrite last_some_app. simpl.
  destruct x; simpl; auto.
Qed.

(** ** Popping settings *)

Definition as_seq (v : option toml) : res (list toml) :=
  match v with None => Ok [] | Some (TArr l) => Ok l | Some _ => Err ConfigError end.

Definition as_options (v : option toml) : res (dict rule_options) :=
  match v with
  | None => Ok []
  | Some (TTab m) => fold_res options_rule m []
  | Some _ => Err ConfigError
  end.

Lemma get_sequence_eq : forall k d,
  get_sequence k d = (let! l := as_seq (dget k d) in Ok (l, ddel k d)).
Proof.
  intros. unfold get_sequence, pop, as_seq. destruct (dget k d) as [[]|]; reflexivity.
Qed.

Lemma get_options_eq : forall k d,
  get_options k d = (let! l := as_options (dget k d) in Ok (l, ddel k d)).
Proof.
  intros. unfold get_options, pop, as_options. destruct (dget k d) as [[]|]; reflexivity.
Qed.

Lemma bind_assoc : forall A B C (r : res A) (f : A -> res B) (g : B -> res C),
  bind (bind r f) g = bind r (fun x => bind (f x) g).
Proof. intros A B C [a|e] f g; reflexivity. Qed.

Lemma bind_ext : forall A B (r : res A) (f g : A -> res B),
  (forall a, f a = g a) -> bind r f = bind r g.
Proof. intros A B [a|e] f g H; simpl; auto. Qed.

Ltac keys := rewrite ?dget_ddel_neq by (intro; discriminate).

Definition rest5 (d : table) : table :=
  ddel (u "formatter") (ddel (u "python-version") (ddel (u "options") (ddel (u "disable") (ddel (u "enable") d)))).

Lemma process_table_eq : forall E path dir sub d s,
  process_table E path dir sub d s =
  (let! en := as_seq (dget (u "enable") d) in
   let! dis := as_seq (dget (u "disable") d) in
   let! op := as_options (dget (u "options") d) in
   let! s := process_subpath E path dir sub en dis op
               (dget (u "python-version") d) (dget (u "formatter") d) s in
   Ok (s, rest5 d)).
Proof.
  intros. unfold process_table. rewrite get_sequence_eq. destruct (as_seq (dget (u "enable") d)); [|reflexivity].
  cbn [bind]. rewrite get_sequence_eq. keys.
  destruct (as_seq (dget (u "disable") d)); [|reflexivity].
  cbn [bind]. rewrite get_options_eq. keys.
  destruct (as_options (dget (u "options") d)); [|reflexivity].
  cbn [bind]. unfold pop. keys. reflexivity.
Qed.

Lemma rest5_get : forall k d,
  k <> u "enable" -> k <> u "disable" -> k <> u "options" -> k <> u "python-version" -> k <> u "formatter" ->
  dget k (rest5 d) = dget k d.
Proof. intros. unfold rest5. now rewrite !dget_ddel_neq by auto. Qed.

Lemma given_truthy : forall k d,
  given k d = match dget (u k) d with Some v => if truthy v then Some v else None | None => None end.
Proof. reflexivity. Qed.

Definition root_of (root : option path) (c : raw) : path := root_after root c.

Definition rest9 (d : table) : table :=
  ddel (u "overrides") (rest5 (ddel (u "output-template") (ddel (u "output-format")
    (ddel (u "enable-root-import") (ddel (u "root") d))))).

Definition format_of (d : table) (cur : output_format) : res output_format :=
  match given "output-format" d with Some v => parse_output_format v | None => Ok cur end.

Lemma merge_one_eq : forall E path g c,
  merge_one E path g c =
  (let dir := rc_dir c in
   let d := rc_data c in
   let root := root_after (g_root g) c in
   let! import := root_import_of root dir (dget (u "enable-root-import") d) (g_import g) in
   let! format := format_of d (g_format g) in
   let! en := as_seq (dget (u "enable") d) in
   let! dis := as_seq (dget (u "disable") d) in
   let! op := as_options (dget (u "options") d) in
   let! s := process_subpath E path dir dir en dis op
               (dget (u "python-version") d) (dget (u "formatter") d) (g_m g) in
   let! overrides := as_seq (dget (u "overrides") d) in
   let! s := fold_res (process_override E path dir) overrides s in
   Ok (GState (Some root) import format
         (match given "output-template" d with Some v => v | None => g_template g end)
         (g_warn g ++ dkeys (rest9 d)) s)).
Proof.
  intros. unfold merge_one, pop.
  assert (Hr : (if truthy_opt (dget (u "root") (rc_data c)) then rc_dir c
                else match g_root g with None => rc_dir c | Some r => r end)
               = root_after (g_root g) c).
  { unfold root_after, given, truthy_opt. destruct (dget (u "root") (rc_data c)) as [v|].
    - destruct (truthy v); destruct (g_root g); reflexivity.
    - destruct (g_root g); reflexivity. }
  rewrite Hr. keys.
  set (root := root_after (g_root g) c). cbn zeta.
  destruct (root_import_of root (rc_dir c) (dget (u "enable-root-import") (rc_data c)) (g_import g)); [|reflexivity].
  cbn [bind].
  assert (Hf : (match dget (u "output-format") (rc_data c) with
                | Some v => if truthy v then parse_output_format v else Ok (g_format g)
                | None => Ok (g_format g) end) = format_of (rc_data c) (g_format g)).
  { unfold format_of, given. destruct (dget (u "output-format") (rc_data c)) as [v|]; auto.
    destruct (truthy v); auto. }
  rewrite Hf. destruct (format_of (rc_data c) (g_format g)); [|reflexivity]. cbn [bind].
  rewrite process_table_eq. keys.
  destruct (as_seq (dget (u "enable") (rc_data c))); [|reflexivity]. cbn [bind].
  destruct (as_seq (dget (u "disable") (rc_data c))); [|reflexivity]. cbn [bind].
  destruct (as_options (dget (u "options") (rc_data c))); [|reflexivity]. cbn [bind].
  destruct (process_subpath _ _ _ _ _ _ _ _ _ _); [|reflexivity]. cbn [bind].
  rewrite get_sequence_eq. rewrite rest5_get by (intro; discriminate). keys.
  destruct (as_seq (dget (u "overrides") (rc_data c))); [|reflexivity]. cbn [bind].
  apply bind_ext. intro s. f_equal. f_equal.
  unfold given. destruct (dget (u "output-template") (rc_data c)) as [v|]; auto. destruct (truthy v); auto.
Qed.

(** ** Layers as a function *)

Definition applies_b (dir file : path) (o : toml) : bool :=
  match o with
  | TTab t => match dget (u "path") t with
              | Some (TStr p) => is_prefix (resolve (joinpath dir p)) file
              | _ => false
              end
  | _ => false
  end.

Lemma applies_b_spec : forall dir file o, applies_b dir file o = true <-> override_applies dir file o.
Proof.
  intros dir file o. unfold applies_b, override_applies. split.
  - destruct o as [| | | | | |t]; try discriminate.
    destruct (dget (u "path") t) as [[p| | | | | |]|] eqn:Ep; try discriminate.
    intro H. exists t, p. rewrite above_prefix. auto.
  - intros (t & p & -> & Ep & H). rewrite Ep. now apply above_prefix.
Qed.

Definition ov_layer (dir file : path) (o : toml) : list (path * table) :=
  match o with TTab t => if applies_b dir file o then [(dir, t)] else [] | _ => [] end.

Definition layers_of (file : path) (c : raw) : list (path * table) :=
  (if is_prefix (resolve (rc_dir c)) file then [(rc_dir c, rc_data c)] else []) ++
  flat_map (ov_layer (rc_dir c) file) (elements "overrides" (rc_data c)).

Definition layers_f (file : path) (raws : list raw) : list (path * table) :=
  flat_map (layers_of file) (rev raws).

Lemma ol_f : forall file dir os ls,
  overrides_layers file dir os ls -> ls = flat_map (ov_layer dir file) os.
Proof.
  intros file dir os ls H. induction H as [|t os ls Ha H IH|o os ls Ha H IH]; cbn [flat_map]; auto.
  - unfold ov_layer at 1. apply applies_b_spec in Ha. rewrite Ha. cbn [app]. rewrite <- IH. reflexivity.
  - rewrite <- applies_b_spec in Ha. destruct o; cbn [ov_layer app]; auto.
    destruct (applies_b dir file (TTab d)); [congruence|]. exact IH.
Qed.

Lemma ol_ex : forall file dir os, overrides_layers file dir os (flat_map (ov_layer dir file) os).
Proof.
  induction os as [|o os IH]; cbn [flat_map]; [constructor|].
  destruct (applies_b dir file o) eqn:Ea.
  - destruct o; try discriminate. unfold ov_layer at 1. rewrite Ea. simpl. constructor; auto.
    now apply applies_b_spec.
  - assert (Hn : ov_layer dir file o = []) by (unfold ov_layer; rewrite Ea; destruct o; reflexivity).
    rewrite Hn. constructor; auto. rewrite <- applies_b_spec. congruence.
Qed.

Lemma layers_iff : forall file raws ls, layers file raws ls <-> ls = layers_f file raws.
Proof.
  intros file raws ls. unfold layers_f. split.
  - intro H. induction H as [|c cs ls lo H IH Ha Ho|c cs ls lo H IH Ha Ho]; simpl; auto;
      rewrite flat_map_app, <- IH; simpl; unfold layers_of; rewrite app_nil_r, (ol_f Ho);
      rewrite above_prefix in Ha.
    + now rewrite Ha.
    + destruct (is_prefix (resolve (rc_dir c)) file); [congruence|]. reflexivity.
  - intros ->. induction raws as [|c cs IH]; simpl; [constructor|].
    rewrite flat_map_app. simpl. rewrite app_nil_r. unfold layers_of at 2.
    destruct (is_prefix (resolve (rc_dir c)) file) eqn:Ep.
    + apply l_yes; auto; [now apply above_prefix | apply ol_ex].
    + apply l_no; auto; [rewrite above_prefix; congruence | apply ol_ex].
Qed.

(** ** One applicable table *)

Definition step (E : env) (s : mstate) (l : path * table) : res mstate :=
  let d := snd l in
  let! s := fold_res (add_enable (fst l)) (elements "enable" d) s in
  let! s := fold_res (add_disable (fst l)) (elements "disable" d) s in
  let! op := as_options (dget (u "options") d) in
  let s := match op with
           | [] => s
           | _ => MState (s_enable s) (s_disable s) (dupdate (s_options s) op) (s_python s) (s_formatter s)
           end in
  let! s := set_python E (dget (u "python-version") d) s in
  set_formatter E (dget (u "formatter") d) s.

Lemma as_seq_ok : forall k d l, as_seq (dget (u k) d) = Ok l -> l = elements k d.
Proof.
  intros k d l H. unfold as_seq, elements in *. destruct (dget (u k) d) as [[]|]; try discriminate; congruence.
Qed.

Lemma as_seq_iff : forall k d, (exists l, as_seq (dget (u k) d) = Ok l) <-> array_or_absent k d.
Proof.
  intros k d. unfold as_seq, array_or_absent. destruct (dget (u k) d) as [[]|]; split;
    try (intros (? & ?); discriminate); eauto; try (intros [?|(? & ?)]; discriminate).
Qed.

Lemma table_step : forall E file dir sub d s op en dis,
  as_seq (dget (u "enable") d) = Ok en -> as_seq (dget (u "disable") d) = Ok dis ->
  as_options (dget (u "options") d) = Ok op ->
  process_subpath E file dir sub en dis op (dget (u "python-version") d) (dget (u "formatter") d) s
  = if is_prefix (resolve sub) file then step E s (dir, d) else Ok s.
Proof.
  intros E file dir sub d s op en dis H1 H2 H3. unfold process_subpath, step.
  apply as_seq_ok in H1. apply as_seq_ok in H2. subst.
  destruct (is_prefix (resolve sub) file); cbn [negb fst snd]; auto.
  apply bind_ext. intro s1. apply bind_ext. intro s2. rewrite H3. reflexivity.
Qed.

Lemma override_step : forall E file dir s o s',
  process_override E file dir s o = Ok s' -> fold_res (step E) (ov_layer dir file o) s = Ok s'.
Proof.
  intros E file dir s o s' H. unfold process_override in H. unfold ov_layer, applies_b.
  destruct o as [| | | | | |t]; try discriminate.
  destruct (dget (u "path") t) as [sub|] eqn:Ep; [|discriminate].
  destruct (truthy sub); [|discriminate].
  destruct sub as [p| | | | | |]; try discriminate.
  apply bind_ok in H. destruct H as ([s1 d1] & H & H'). injection H' as ->.
  rewrite process_table_eq in H.
  apply bind_ok in H. destruct H as (en & He & H).
  apply bind_ok in H. destruct H as (dis & Hd & H).
  apply bind_ok in H. destruct H as (op & Ho & H).
  rewrite (table_step E file dir (joinpath dir p) t s He Hd Ho) in H.
  destruct (is_prefix (resolve (joinpath dir p)) file).
  - apply bind_ok in H. destruct H as (s2 & H & H'). injection H' as -> _. exact (f_equal (fun r => bind r (fun x => Ok x)) H).
  - simpl in H. injection H as <- _. reflexivity.
Qed.

Lemma overrides_step : forall E file dir os s s',
  fold_res (process_override E file dir) os s = Ok s' ->
  fold_res (step E) (flat_map (ov_layer dir file) os) s = Ok s'.
Proof.
  induction os as [|o os IH]; intros s s' H; cbn [flat_map fold_res] in *; auto.
  apply bind_ok in H. destruct H as (s1 & H1 & H2). rewrite fold_res_app.
  rewrite (override_step E file dir s o H1). simpl. auto.
Qed.

Lemma merge_one_ok : forall E file g c g',
  merge_one E file g c = Ok g' ->
  fold_res (step E) (layers_of file c) (g_m g) = Ok (g_m g') /\
  g_root g' = Some (root_after (g_root g) c) /\
  root_import_of (root_after (g_root g) c) (rc_dir c) (dget (u "enable-root-import") (rc_data c)) (g_import g)
    = Ok (g_import g') /\
  format_of (rc_data c) (g_format g) = Ok (g_format g') /\
  g_template g' = match given "output-template" (rc_data c) with Some v => v | None => g_template g end.
Proof.
  intros E file g c g' H. rewrite merge_one_eq in H. cbn zeta in H.
  apply bind_ok in H. destruct H as (im & Him & H).
  apply bind_ok in H. destruct H as (fm & Hfm & H).
  apply bind_ok in H. destruct H as (en & He & H).
  apply bind_ok in H. destruct H as (dis & Hd & H).
  apply bind_ok in H. destruct H as (op & Ho & H).
  apply bind_ok in H. destruct H as (s1 & Hs & H).
  rewrite (table_step E file (rc_dir c) (rc_dir c) (rc_data c) (g_m g) He Hd Ho) in Hs.
  apply bind_ok in H. destruct H as (ov & Hov & H).
  apply bind_ok in H. destruct H as (s2 & Hs2 & H).
  injection H as <-. cbn [g_m g_root g_import g_format g_template].
  split; [|auto].
  unfold layers_of. rewrite fold_res_app.
  apply as_seq_ok in Hov. subst ov. apply overrides_step in Hs2.
  destruct (is_prefix (resolve (rc_dir c)) file).
  - change (bind (bind (step E (g_m g) (rc_dir c, rc_data c)) (fun x => Ok x)) (fun s' => fold_res (step E) (flat_map (ov_layer (rc_dir c) file) (elements "overrides" (rc_data c))) s') = Ok s2).
    refine (eq_trans (f_equal (fun r => bind (bind r (fun x => Ok x)) _) Hs) _). exact Hs2.
  - injection Hs as <-. simpl. exact Hs2.
Qed.

(** The fold over the configs, furthest first *)
Lemma merge_fold_ok : forall E file cs g g',
  fold_res (merge_one E file) cs g = Ok g' ->
  fold_res (step E) (flat_map (layers_of file) cs) (g_m g) = Ok (g_m g') /\
  g_template g' = match last_some (map (fun c => given "output-template" (rc_data c)) cs) with
                  | Some v => v | None => g_template g end /\
  (match last_some (map (fun c => given "output-format" (rc_data c)) cs) with
   | Some v => parse_output_format v | None => Ok (g_format g) end) = Ok (g_format g').
Proof.
  induction cs as [|c cs IH]; intros g g' H; cbn [fold_res flat_map map last_some] in *.
  - injection H as <-. auto.
  - apply bind_ok in H. destruct H as (g1 & H1 & H2).
    destruct (merge_one_ok _ _ _ _ H1) as (A & B & C & D & F).
    destruct (IH _ _ H2) as (A2 & F2 & D2). split; [|split].
    + rewrite fold_res_app, A. simpl. exact A2.
    + rewrite F2, F. destruct (last_some _); reflexivity.
    + destruct (last_some (map (fun c => given "output-format" (rc_data c)) cs)); auto.
      unfold format_of in D. injection D2 as <-. exact D.
Qed.

Lemma merge_ok : forall E file raws root c w,
  merge_configs E file raws root = Ok (c, w) ->
  exists s, fold_res (step E) (layers_f file raws) (MState [default_rules] [] [] (Some (e_running E)) None) = Ok s /\
    c_enable c = sorted qrule_leb (e_iter E (s_enable s)) /\
    c_disable c = sorted qrule_leb (e_iter E (s_disable s)) /\
    c_options c = s_options s /\ c_python c = s_python s /\ c_formatter c = s_formatter s /\
    c_path c = file /\
    c_template c = match first_some (map (fun c => given "output-template" (rc_data c)) raws) with
                   | Some v => v | None => TStr [] end /\
    (match first_some (map (fun c => given "output-format" (rc_data c)) raws) with
     | Some v => parse_output_format v | None => Ok OFfixit end) = Ok (c_format c).
Proof.
  intros E file raws root c w H. unfold merge_configs in H.
  apply bind_ok in H. destruct H as (g & H & H'). injection H' as <- _.
  destruct (merge_fold_ok _ _ _ _ H) as (A & B & D). exists (g_m g).
  cbn [c_enable c_disable c_options c_python c_formatter c_path c_template c_format].
  rewrite !map_rev, !last_some_rev in *. auto 10.
Qed.
