(** * Which exception a wrong configuration raises (C12, C02) *)
From Coq Require Import String List NArith ZArith Bool Arith Lia.
From Verif Require Import Base PyStr Regex Ftypes Paths RuleNameSpec RuleNameFacts RuleNameProps Config ConfigSpec ConfigFacts ConfigMentions ConfigValid ConfigDiscover.
Import ListNotations.
Set Implicit Arguments.

(** ** Specification: everything that can be wrong, in the order in which it is looked at

    A fault is a condition with the exception that is raised if it holds. *)
Definition fault := (Prop * exn)%type.

Definition clean (l : list fault) : Prop := forall f, In f l -> ~ fst f.

(** The first fault that holds has the exception [e]. *)
Definition first_fault (l : list fault) (e : exn) : Prop :=
  exists before P after, l = before ++ (P, e) :: after /\ P /\ clean before.

(** The name of a rule. *)
Definition name_faults (v : toml) : list fault :=
  match v with
  | TStr _ => [(~ is_rule_name v, ConfigError)]
  | _ => [(True, TypeError)]
  end.

Definition options_faults (d : table) : list fault :=
  match dget (u "options") d with
  | None => []
  | Some (TTab rules) =>
      flat_map (fun rule => match snd rule with
                            | TTab e => map (fun kv => (~ scalar (snd kv), ConfigError)) e
                            | _ => [(True, AttributeError)]
                            end) rules
  | Some _ => [(True, ConfigError)]
  end.

Definition python_faults (E : env) (d : table) : list fault :=
  match given "python-version" d with
  | None => []
  | Some (TStr s) => [(e_version_ok E s = false, ConfigError)]
  | Some _ => [(True, TypeError)]
  end.

Definition formatter_faults (E : env) (d : table) : list fault :=
  match given "formatter" d with
  | None => []
  | Some (TStr s) => [(~ In s (e_styles E), ConfigError)]
  | Some (TArr _) | Some (TTab _) => [(True, TypeError)]
  | Some _ => [(True, ConfigError)]
  end.

(** A table or override: types are always looked at, the rest only if it applies to the file. *)
Definition table_faults (E : env) (applies : Prop) (d : table) : list fault :=
  [(~ array_or_absent "enable" d, ConfigError); (~ array_or_absent "disable" d, ConfigError)] ++
  options_faults d ++
  map (fun f => (applies /\ fst f, snd f))
    (flat_map name_faults (elements "enable" d) ++ flat_map name_faults (elements "disable" d) ++
     python_faults E d ++ formatter_faults E d).

Definition override_faults (E : env) (file dir : path) (o : toml) : list fault :=
  match o with
  | TTab t =>
      match given "path" t with
      | None => [(True, ConfigError)]
      | Some (TStr p) => table_faults E (above (resolve (joinpath dir p)) file) t
      | Some _ => [(True, TypeError)]
      end
  | _ => [(True, ConfigError)]
  end.

Definition raw_faults (E : env) (file root : path) (c : raw) : list fault :=
  [(~ valid_root_import root c, ConfigError); (~ valid_format (rc_data c), ConfigError)] ++
  table_faults E (above (resolve (rc_dir c)) file) (rc_data c) ++
  [(~ array_or_absent "overrides" (rc_data c), ConfigError)] ++
  flat_map (override_faults E file (rc_dir c)) (elements "overrides" (rc_data c)).

(** A sequence of configs, the furthest first. *)
Fixpoint faults (E : env) (file : path) (root : option path) (cs : list raw) : list fault :=
  match cs with
  | [] => []
  | c :: cs' => raw_faults E file (root_after root c) c ++ faults E file (Some (root_after root c)) cs'
  end.

(** ** Proof *)

Definition raises {A} (r : res A) (l : list fault) : Prop :=
  match r with Ok _ => clean l | Err e => first_fault l e end.

Lemma clean_app : forall l1 l2, clean l1 -> clean l2 -> clean (l1 ++ l2).
Proof. intros l1 l2 A B f I. apply in_app_iff in I. destruct I; auto. Qed.

Lemma clean_nil : clean [].
Proof. intros f []. Qed.

Lemma clean_one : forall P e, ~ P -> clean [(P, e)].
Proof. intros P e N f [<-|[]]. exact N. Qed.

Lemma first_here : forall (P : Prop) e l, P -> first_fault ((P, e) :: l) e.
Proof. intros P e l H. exists [], P, l. split; [reflexivity|]. split; [exact H|]. apply clean_nil. Qed.

Lemma first_left : forall l1 l2 e, first_fault l1 e -> first_fault (l1 ++ l2) e.
Proof.
  intros l1 l2 e (b & P & a & -> & H & C). exists b, P, (a ++ l2). split; [now rewrite <- app_assoc|]. auto.
Qed.

Lemma first_right : forall l1 l2 e, clean l1 -> first_fault l2 e -> first_fault (l1 ++ l2) e.
Proof.
  intros l1 l2 e K (b & P & a & -> & H & C). exists (l1 ++ b), P, a. split; [now rewrite <- app_assoc|]. split; auto.
  apply clean_app; auto.
Qed.

Lemma first_unique : forall l e e', first_fault l e -> first_fault l e' -> e = e'.
Proof.
  induction l as [|f l IH]; intros e e' (b & P & a & E & H & C) (b' & P' & a' & E' & H' & C').
  - destruct b; discriminate.
  - destruct b as [|x b], b' as [|x' b']; cbn [app] in E, E'.
    + congruence.
    + injection E' as <- E'. injection E as -> E. exfalso. apply (C' (P, e)); [simpl; auto|exact H].
    + injection E as <- E. injection E' as -> E'. exfalso. apply (C (P', e')); [simpl; auto|exact H'].
    + injection E as _ E. injection E' as _ E'. apply IH.
      * exists b, P, a. split; auto. split; auto. intros g Ig. apply C. simpl. auto.
      * exists b', P', a'. split; auto. split; auto. intros g Ig. apply C'. simpl. auto.
Qed.

Lemma raises_bind : forall A B (r : res A) (f : A -> res B) l1 l2,
  raises r l1 -> (forall a, r = Ok a -> raises (f a) l2) -> raises (bind r f) (l1 ++ l2).
Proof.
  intros A B [a|e] f l1 l2 H1 H2; cbn [bind raises] in *.
  - specialize (H2 a eq_refl). destruct (f a); cbn [raises] in *; [now apply clean_app|now apply first_right].
  - now apply first_left.
Qed.

Lemma raises_bind_const : forall A B (r : res A) (f : A -> B) l, raises r l -> raises (bind r (fun a => Ok (f a))) l.
Proof. intros A B [a|e] f l H; exact H. Qed.

Lemma raises_fold : forall A S (f : S -> A -> res S) (g : A -> list fault),
  (forall s x, raises (f s x) (g x)) -> forall l s, raises (fold_res f l s) (flat_map g l).
Proof.
  intros A S f g H. induction l as [|x l IH]; intro s; cbn [fold_res flat_map].
  - apply clean_nil.
  - apply raises_bind; auto.
Qed.

Lemma raises_one : forall A (r : res A) P e, (ok r <-> P) -> (forall e', r = Err e' -> e' = e) -> raises r [(~ P, e)].
Proof.
  intros A [a|e'] P e H K; cbn [raises].
  - apply clean_one. intro N. apply N. apply H. auto.
  - rewrite (K e' eq_refl). apply first_here. intro X. apply H in X. exact (not_ok_Err X).
Qed.

Lemma raises_name : forall v dir, raises (parse_rule_toml v dir) (name_faults v).
Proof.
  intros v dir. destruct v as [s| | | | | |]; cbn [parse_rule_toml name_faults]; try (apply first_here; exact I).
  apply raises_one.
  - apply (parse_toml_iff (TStr s) dir).
  - intros e' H. destruct (parse_rule_total s dir) as [(q & Hq)|He]; congruence.
Qed.

Lemma raises_seq : forall k d, raises (as_seq (dget (u k) d)) [(~ array_or_absent k d, ConfigError)].
Proof.
  intros k d. apply raises_one; [apply as_seq_iff|]. unfold as_seq. intros e'. destruct (dget (u k) d) as [[]|]; congruence.
Qed.

Lemma raises_options : forall d, raises (as_options (dget (u "options") d)) (options_faults d).
Proof.
  intro d. unfold as_options, options_faults. destruct (dget (u "options") d) as [[| | | | | |m]|]; try (apply first_here; exact I); try apply clean_nil.
  apply raises_fold. intros acc [k v]. unfold options_rule. cbn [fst snd]. destruct v as [| | | | | |e]; try (apply first_here; exact I).
  apply raises_bind_const. replace (map (fun kv : str * toml => (~ scalar (snd kv), ConfigError)) e) with (flat_map (fun kv : str * toml => [(~ scalar (snd kv), ConfigError)]) e)
    by (clear; induction e as [|x e IH]; cbn; [reflexivity|now rewrite IH]).
  apply raises_fold. intros o [k1 x]. unfold options_entry. cbn [fst snd]. apply raises_one.
  - rewrite <- option_scalar_iff. destruct (option_scalar x); split; auto; try discriminate. intro H. destruct (not_ok_Err H).
  - destruct (option_scalar x); congruence.
Qed.

Lemma raises_python : forall E d s, raises (set_python E (dget (u "python-version") d) s) (python_faults E d).
Proof.
  intros E d s. unfold set_python, python_faults, given. destruct (dget (u "python-version") d) as [x|]; [|apply clean_nil].
  destruct (truthy x); [|apply clean_nil]. destruct x as [t| | | | | |]; try (apply first_here; exact I).
  destruct (e_version_ok E t) eqn:V; [apply clean_one; congruence|apply first_here; auto].
Qed.

Lemma raises_formatter : forall E d s, raises (set_formatter E (dget (u "formatter") d) s) (formatter_faults E d).
Proof.
  intros E d s. unfold set_formatter, formatter_faults, given. destruct (dget (u "formatter") d) as [x|]; [|apply clean_nil].
  destruct (truthy x); [|apply clean_nil]. destruct x as [t| | | | | |]; try (apply first_here; exact I).
  assert (K : existsb (str_eqb t) (e_styles E) = true <-> In t (e_styles E)).
  { rewrite existsb_exists. split.
    - intros (y & Hy & Ey). apply str_eqb_eq in Ey. now subst.
    - intro Hy. exists t. split; auto. apply str_eqb_refl. }
  destruct (existsb (str_eqb t) (e_styles E)) eqn:V.
  - apply clean_one. intro N. apply N. now apply K.
  - apply first_here. intro N. apply K in N. discriminate.
Qed.

Lemma raises_step : forall E s dir d op, as_options (dget (u "options") d) = Ok op ->
  raises (step E s (dir, d))
    (flat_map name_faults (elements "enable" d) ++ flat_map name_faults (elements "disable" d) ++ python_faults E d ++ formatter_faults E d).
Proof.
  intros E s dir d op Ho. unfold step. cbn [fst snd]. apply raises_bind.
  { apply raises_fold. intros s0 v. unfold add_enable. apply raises_bind_const. apply raises_name. }
  intros s1 _. apply raises_bind.
  { apply raises_fold. intros s0 v. unfold add_disable. apply raises_bind_const. apply raises_name. }
  intros s2 _. rewrite Ho. cbn [bind]. apply raises_bind; [apply raises_python|]. intros s3 _. apply raises_formatter.
Qed.

Lemma raises_if : forall A (r : res A) (b : bool) (P : Prop) a l, (b = true <-> P) -> (b = true -> raises r l) ->
  raises (if b then r else Ok a) (map (fun f => (P /\ fst f, snd f)) l).
Proof.
  intros A r b P a l Hb H. destruct b.
  - assert (HP : P) by now apply Hb. specialize (H eq_refl).
    assert (C : forall l, clean l -> clean (map (fun f : fault => (P /\ fst f, snd f)) l)).
    { intros l0 C f If. apply in_map_iff in If. destruct If as (g & <- & Ig). cbn [fst]. intros [_ Hg]. exact (C g Ig Hg). }
    destruct r as [x|e]; cbn [raises] in *; auto. destruct H as (bf & Q & af & -> & HQ & Cb).
    exists (map (fun f : fault => (P /\ fst f, snd f)) bf), (P /\ Q), (map (fun f : fault => (P /\ fst f, snd f)) af).
    split; [now rewrite map_app|]. split; auto.
  - cbn [raises]. intros f If. apply in_map_iff in If. destruct If as (g & <- & Ig). cbn [fst]. intros [HP _]. apply Hb in HP. discriminate.
Qed.

Lemma raises_table : forall A E file dir sub d s (k : mstate -> res A) l,
  (forall s', raises (k s') l) ->
  raises (let! en := as_seq (dget (u "enable") d) in
          let! dis := as_seq (dget (u "disable") d) in
          let! op := as_options (dget (u "options") d) in
          let! s := process_subpath E file dir sub en dis op (dget (u "python-version") d) (dget (u "formatter") d) s in k s)
    (table_faults E (above (resolve sub) file) d ++ l).
Proof.
  intros A E file dir sub d s k l Hk. unfold table_faults. rewrite <- !app_assoc.
  change ([(~ array_or_absent "enable" d, ConfigError); (~ array_or_absent "disable" d, ConfigError)])
    with ([(~ array_or_absent "enable" d, ConfigError)] ++ [(~ array_or_absent "disable" d, ConfigError)]). rewrite <- app_assoc.
  apply raises_bind; [apply raises_seq|]. intros en He. apply raises_bind; [apply raises_seq|]. intros dis Hd.
  apply raises_bind; [apply raises_options|]. intros op Ho. apply raises_bind; [|auto].
  rewrite (table_step E file dir sub d s He Hd Ho). apply raises_if; [now rewrite <- above_prefix|].
  intros _. eapply raises_step; eauto.
Qed.

Lemma raises_override : forall E file dir s o, raises (process_override E file dir s o) (override_faults E file dir o).
Proof.
  intros E file dir s o. unfold process_override, override_faults. destruct o as [| | | | | |t]; try (apply first_here; exact I).
  unfold given. destruct (dget (u "path") t) as [sub|]; [|apply first_here; exact I].
  destruct (truthy sub); [|apply first_here; exact I]. destruct sub as [p| | | | | |]; try (apply first_here; exact I).
  cut (raises (process_table E file dir (joinpath dir p) t s) (table_faults E (above (resolve (joinpath dir p)) file) t)).
  { destruct (process_table E file dir (joinpath dir p) t s) as [[s0 d0]|e0]; intro H; exact H. }
  rewrite process_table_eq. rewrite <- (app_nil_r (table_faults _ _ _)). apply raises_table. intro s'. apply clean_nil.
Qed.

Lemma raises_merge_one : forall E file g c, raises (merge_one E file g c) (raw_faults E file (root_after (g_root g) c) c).
Proof.
  intros E file g c. rewrite merge_one_eq. cbn zeta. unfold raw_faults.
  set (root := root_after (g_root g) c). set (d := rc_data c).
  change ([(~ valid_root_import root c, ConfigError); (~ valid_format d, ConfigError)]) with ([(~ valid_root_import root c, ConfigError)] ++ [(~ valid_format d, ConfigError)]).
  rewrite <- app_assoc. apply raises_bind.
  { apply raises_one; [apply root_import_iff|]. intros e'. unfold root_import_of.
    destruct (truthy_opt (dget (u "enable-root-import") d)); [|discriminate]. destruct (negb _); [congruence|].
    destruct (dget (u "enable-root-import") d) as [[]|]; try discriminate. destruct (is_absolute _); [congruence|]. destruct (existsb _ _); congruence. }
  intros im _. apply raises_bind.
  { apply raises_one; [apply format_iff|]. intros e'. unfold format_of, parse_output_format. destruct (given "output-format" d) as [[]|]; try congruence.
    repeat match goal with |- context [if ?b then _ else _] => destruct b end; congruence. }
  intros fm _. apply raises_table. intro s'. apply raises_bind; [apply raises_seq|]. intros ov Ho. apply as_seq_ok in Ho. subst ov.
  apply raises_bind_const. apply raises_fold. intros s0 o. apply raises_override.
Qed.

Lemma raises_merge : forall E file cs g, raises (fold_res (merge_one E file) cs g) (faults E file (g_root g) cs).
Proof.
  intros E file. induction cs as [|c cs IH]; intro g; cbn [fold_res faults]; [apply clean_nil|].
  apply raises_bind; [apply raises_merge_one|]. intros g1 H1. apply merge_one_ok in H1. destruct H1 as (_ & R & _).
  generalize (IH g1). now rewrite R.
Qed.

(** ** Theorems *)

(** Merging fails with the exception of the first fault, and succeeds when there is none. *)
Theorem C12_raises : forall E file raws root e,
  merge_configs E file raws root = Err e <-> first_fault (faults E file root (rev raws)) e.
Proof.
  intros E file raws root e. generalize (raises_merge E file (rev raws) (init_state E root)). change (g_root (init_state E root)) with root.
  unfold merge_configs. destruct (fold_res (merge_one E file) (rev raws) (init_state E root)) as [g|e']; cbn [bind raises]; intro H.
  - split; [discriminate|]. intros (b & P & a & Ef & HP & _). exfalso. apply (H (P, e)); [rewrite Ef; apply in_app_iff; simpl; auto|exact HP].
  - split; intro K; [congruence|]. f_equal. eapply first_unique; eauto.
Qed.

Theorem C12_succeeds : forall E file raws root,
  (exists c w, merge_configs E file raws root = Ok (c, w)) <-> clean (faults E file root (rev raws)).
Proof.
  intros E file raws root. generalize (raises_merge E file (rev raws) (init_state E root)). change (g_root (init_state E root)) with root.
  unfold merge_configs. destruct (fold_res (merge_one E file) (rev raws) (init_state E root)) as [g|e']; cbn [bind raises]; intro H.
  - split; auto. intros _. eauto.
  - split; [intros (c & w & X); discriminate|]. intro C. destruct H as (b & P & a & Ef & HP & _). exfalso.
    apply (C (P, e')); [rewrite Ef; apply in_app_iff; simpl; auto|exact HP].
Qed.

(** Only these exceptions. In particular a config whose values have the types the documentation gives raises ConfigError. *)
Theorem C12_kinds : forall E file raws root e,
  merge_configs E file raws root = Err e -> e = ConfigError \/ e = TypeError \/ e = AttributeError.
Proof.
  intros E file raws root e H. apply C12_raises in H. destruct H as (b & P & a & Ef & _ & _).
  assert (I : In (P, e) (faults E file root (rev raws))) by (rewrite Ef; apply in_app_iff; simpl; auto). clear Ef a b.
  assert (N : forall v f, In f (name_faults v) -> snd f = ConfigError \/ snd f = TypeError \/ snd f = AttributeError).
  { intros v f. destruct v; cbn; intros [<-|[]]; auto. }
  assert (T : forall d ap f, In f (table_faults E ap d) -> snd f = ConfigError \/ snd f = TypeError \/ snd f = AttributeError).
  { intros d ap f If. unfold table_faults in If. rewrite !in_app_iff in If. destruct If as [[<-|[<-|[]]]|[If|If]]; auto.
    - unfold options_faults in If. destruct (dget (u "options") d) as [[| | | | | |m]|]; try (destruct If as [<-|[]]; auto); [|contradiction].
      apply in_flat_map in If. destruct If as ([k v] & _ & If). cbn [snd] in If. destruct v; try (destruct If as [<-|[]]; auto).
      apply in_map_iff in If. destruct If as (kv & <- & _). auto.
    - apply in_map_iff in If. destruct If as (g & <- & If). cbn [snd]. rewrite !in_app_iff in If. destruct If as [If|[If|[If|If]]].
      + apply in_flat_map in If. destruct If as (v & _ & If). eauto.
      + apply in_flat_map in If. destruct If as (v & _ & If). eauto.
      + unfold python_faults in If. destruct (given "python-version" d) as [[]|]; try contradiction; destruct If as [<-|[]]; auto.
      + unfold formatter_faults in If. destruct (given "formatter" d) as [[]|]; try contradiction; destruct If as [<-|[]]; auto. }
  revert root I. induction (rev raws) as [|c cs IH]; intros root I; cbn [faults] in I; [contradiction|].
  apply in_app_iff in I. destruct I as [I|I]; [|now apply IH in I].
  unfold raw_faults in I. rewrite !in_app_iff in I. destruct I as [[I|[I|[]]]|[I|[[I|[]]|I]]]; try (injection I as _ <-; auto; fail).
  - now apply T in I.
  - apply in_flat_map in I. destruct I as (o & _ & I). unfold override_faults in I. destruct o; try (destruct I as [I|[]]; injection I as _ <-; auto; fail).
    destruct (given "path" d) as [[]|]; try (destruct I as [I|[]]; injection I as _ <-; auto; fail). now apply T in I.
Qed.

(** ** Reading files *)

(** What can be wrong with a config file itself. *)
Inductive unreadable (E : env) (F : fs) (p : path) : exn -> Prop :=
| ur_missing : f_file F p = None -> unreadable E F p OSError
| ur_syntax : forall content e, f_file F p = Some content -> e_load E content = Err e -> unreadable E F p e
| ur_tool : forall content data v, f_file F p = Some content -> e_load E content = Ok data ->
    dget (u "tool") data = Some v -> (forall t, v <> TTab t) -> unreadable E F p AttributeError
| ur_fixit : forall content data tool v, f_file F p = Some content -> e_load E content = Ok data ->
    dget (u "tool") data = Some (TTab tool) -> given "fixit" tool = Some v -> (forall t, v <> TTab t) -> unreadable E F p AttributeError.

(** A file that is read and does not end the search. *)
Definition goes_on (E : env) (F : fs) (p : path) : Prop :=
  has_no_table E F p \/ exists d, has_table E F p d /\ given "root" d = None.

(** Reading fails with the error of the first unreadable file, provided no root config comes before it. *)
Theorem C02_raises : forall E F ps e,
  read_configs E F ps = Err e <->
  exists before p after, ps = before ++ p :: after /\ (forall q, In q before -> goes_on E F (resolve q)) /\ unreadable E F (resolve p) e.
Proof.
  intros E F. induction ps as [|p ps IH]; intro e.
  { split; [discriminate|]. intros ([|x0 b0] & p0 & a & X & _); discriminate X. }
  assert (Here : forall e0, unreadable E F (resolve p) e0 -> exists before q after, p :: ps = before ++ q :: after /\ (forall x, In x before -> goes_on E F (resolve x)) /\ unreadable E F (resolve q) e0).
  { intros e0 X. exists [], p, ps. split; auto. split; [intros x []|auto]. }
  assert (Later : forall e0, goes_on E F (resolve p) -> read_configs E F ps = Err e0 ->
    exists before q after, p :: ps = before ++ q :: after /\ (forall x, In x before -> goes_on E F (resolve x)) /\ unreadable E F (resolve q) e0).
  { intros e0 G X. apply IH in X. destruct X as (b & q & a & -> & Gb & U). exists (p :: b), q, a. split; auto. split; auto. intros x [<-|Ix]; auto. }
  split.
  - cbn [read_configs]. destruct (f_file F (resolve p)) as [content|] eqn:Ec.
    2: { intro X. injection X as <-. apply Here. now constructor. }
    destruct (e_load E content) as [data|e1] eqn:Ed; cbn [bind].
    2: { intro X. injection X as <-. apply Here. eapply ur_syntax; eauto. }
    destruct (fixit_section data) as [[v|]|e1] eqn:Es; cbn [bind].
    + destruct v as [| | | | | |d].
      1-6: (intro X; injection X as <-; apply Here; unfold fixit_section in Es; destruct (dget (u "tool") data) as [[| | | | | |tool]|] eqn:Et; try discriminate;
            eapply ur_fixit with (tool := tool); eauto; [unfold given; destruct (dget (u "fixit") tool) as [w|]; [|discriminate]; destruct (truthy w); [|discriminate]; injection Es as ->; reflexivity|discriminate]).
      apply (section_table E F (resolve p) content data d Ec Ed) in Es. destruct (truthy_opt (dget (u "root") d)) eqn:R; [discriminate|].
      destruct (read_configs E F ps) as [more|e1] eqn:Er; cbn [bind]; [discriminate|]. intro X. injection X as <-. apply Later; auto.
      right. exists d. split; auto. destruct (given "root" d) eqn:G; auto. exfalso. rewrite <- not_true_iff_false, given_root in R. apply R. congruence.
    + intro X. apply Later; auto. left. now apply (section_none E F (resolve p) content data).
    + intro X. injection X as <-. apply Here. unfold fixit_section in Es. destruct (dget (u "tool") data) as [w|] eqn:Et; [|discriminate].
      assert (K : e1 = AttributeError /\ forall t, w <> TTab t).
      { destruct w; try (injection Es as <-; split; [auto|discriminate]). exfalso. destruct (dget (u "fixit") _); discriminate. }
      destruct K as [-> K]. eapply ur_tool; eauto.
  - intros ([|x b] & q & a & X & Gb & U); cbn [app] in X; injection X as X1 X2; subst.
    + cbn [read_configs]. destruct U as [Ec|content e1 Ec Ed|content data v Ec Ed Et Nt|content data tool v Ec Ed Et Ef Nt]; rewrite Ec; auto; rewrite Ed; cbn [bind]; auto.
      * unfold fixit_section. rewrite Et. destruct v; auto. exfalso. eapply Nt; eauto.
      * unfold fixit_section. rewrite Et. unfold given in Ef. destruct (dget (u "fixit") tool) as [w|]; [|discriminate]. destruct (truthy w); [|discriminate].
        injection Ef as ->. cbn [bind]. destruct v; auto. exfalso. eapply Nt; eauto.
    + assert (Rb : read_configs E F (b ++ q :: a) = Err e).
      { apply IH. exists b, q, a. split; auto. split; auto. intros y Iy. apply Gb. simpl. auto. }
      cbn [read_configs]. destruct (Gb x (or_introl eq_refl)) as [G|(d & G & R)].
      * pose proof G as G2. destruct G as (content & data & A & B & _). rewrite A, B. cbn [bind].
        apply (section_none E F (resolve x) content data) in G2; auto. rewrite G2. cbn [bind]. exact Rb.
      * pose proof G as G2. destruct G as (content & data & tool & A & B & _). rewrite A, B. cbn [bind].
        apply (section_table E F (resolve x) content data) in G2; auto. rewrite G2. cbn [bind].
        destruct (truthy_opt (dget (u "root") d)) eqn:Er; [apply given_root in Er; congruence|]. rewrite Rb. reflexivity.
Qed.

(** ** Examples *)

Definition err_env : env :=
  Env (fun _ => Ok []) (fun s => str_eqb s (u "3.10")) (u "3.10") [u "black"] (fun l => l).

Definition dirty (d : table) : option exn :=
  match merge_configs err_env [u "p"; u "f.py"] [Raw [u "p"; u "pyproject.toml"] d] None with Ok _ => None | Err e => Some e end.

Example C12_raises_example :
  dirty [(u "enable", TArr [TStr (u "a.b"); TInt 3]); (u "python-version", TStr (u "x"))] = Some TypeError /\
  dirty [(u "python-version", TStr (u "x")); (u "enable", TArr [TStr (u "a.b"); TInt 3])] = Some TypeError /\
  dirty [(u "enable", TArr [TStr (u "a b"); TInt 3])] = Some ConfigError /\
  dirty [(u "options", TTab [(u "R", TInt 1)]); (u "enable", TArr [TInt 3])] = Some AttributeError /\
  dirty [(u "python-version", TInt 3)] = Some TypeError /\
  dirty [(u "python-version", TStr (u "3.10")); (u "formatter", TInt 3)] = Some ConfigError /\
  dirty [(u "formatter", TArr [TInt 3])] = Some TypeError /\
  dirty [(u "formatter", TStr (u "black")); (u "overrides", TArr [TTab [(u "path", TStr (u "other")); (u "enable", TArr [TInt 3])]])] = None /\
  dirty [(u "overrides", TArr [TTab [(u "path", TStr (u "f.py")); (u "enable", TArr [TInt 3])]])] = Some TypeError.
Proof. repeat split; vm_compute; reflexivity. Qed.

Example C02_raises_example :
  let F := FS (fun p => if path_eqb p [u "a"] then Some (u "x") else None) (fun _ => false) in
  read_configs err_env F [[u "a"]; [u "b"]] = Err OSError.
Proof. vm_compute. reflexivity. Qed.

(** ** What counts as given *)

(** The values Python takes for false. *)
Inductive empty_value : toml -> Prop :=
| ev_str : empty_value (TStr [])
| ev_int : empty_value (TInt 0)
| ev_float : forall repr, empty_value (TFloat true repr)
| ev_bool : empty_value (TBool false)
| ev_arr : empty_value (TArr [])
| ev_tab : empty_value (TTab []).

Theorem C12_given : forall key d v, given key d = Some v <-> dget (u key) d = Some v /\ ~ empty_value v.
Proof.
  intros key d v. unfold given.
  assert (K : forall w, truthy w = false <-> empty_value w).
  { intro w. split.
    - destruct w as [s|z|z ?|b|?|l|t]; cbn [truthy]; intro H; try discriminate.
      + destruct s; [constructor|discriminate].
      + destruct (Z.eqb_spec z 0); [subst; constructor|discriminate].
      + destruct z; [constructor|discriminate].
      + subst. constructor.
      + destruct l; [constructor|discriminate].
      + destruct t; [constructor|discriminate].
    - intros []; reflexivity. }
  destruct (dget (u key) d) as [w|]; [|split; [discriminate|intros [X _]; discriminate]].
  destruct (truthy w) eqn:T; split.
  - intro X. injection X as <-. split; auto. intro X. apply K in X. congruence.
  - intros [X _]. exact X.
  - discriminate.
  - intros [X N]. injection X as ->. exfalso. now apply N, K.
Qed.
