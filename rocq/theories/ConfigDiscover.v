(** * C01-C03, C10, C11: finding and reading configuration files *)
From Coq Require Import String List NArith ZArith Bool Arith Lia Permutation Sorted.
From Verif Require Import Base PyStr Regex Ftypes Paths RuleNameSpec RuleNameFacts RuleNameProps
  Config ConfigSpec ConfigFacts ConfigMentions ConfigValid ConfigProps.
Import ListNotations.

(** ** C01 *)

(** The directory a path stands for. *)
Definition directory_of (F : fs) (p : path) : path := if f_isdir F p then p else parent p.

Definition exists_file (F : fs) (p : path) : Prop := exists content, f_file F p = Some content.

(** The config files of one directory, in name order. *)
Definition configs_in (F : fs) (d : path) : list path :=
  filter (is_file F) [d ++ [u "fixit.toml"]; d ++ [u ".fixit.toml"]; d ++ [u "pyproject.toml"]].

(** The directories from [dir] up to its ancestor with [n] components. *)
Definition upwards (dir : path) (n : nat) : list path :=
  map (fun k => firstn k dir) (rev (seq n (S (List.length dir - n)))).

Lemma firstn_app_exact : forall A (a b : list A), firstn (List.length a) (a ++ b) = a.
Proof. intros. rewrite firstn_app, firstn_all, Nat.sub_diag. simpl. apply app_nil_r. Qed.

Lemma locate_loop_spec : forall F r b,
  locate_loop F r (rev (r ++ b)) = flat_map (configs_in F) (upwards (r ++ b) (List.length r)).
Proof.
  intros F r b. unfold upwards. rewrite app_length.
  replace (List.length r + List.length b - List.length r) with (List.length b) by lia.
  induction b as [|x b IH] using rev_ind.
  - rewrite app_nil_r. simpl seq. simpl rev at 2. cbn [map flat_map].
    destruct (rev r) as [|y up] eqn:Er.
    + assert (r = []) by (rewrite <- (rev_involutive r), Er; reflexivity). subst. simpl. reflexivity.
    + cbn [locate_loop]. rewrite <- Er, rev_involutive, path_eqb_refl, firstn_all.
      rewrite !app_nil_r. reflexivity.
  - rewrite app_length, Nat.add_1_r. rewrite app_assoc, rev_app_distr. cbn [rev app].
    cbn [locate_loop]. cbn [rev]. rewrite rev_involutive.
    replace (path_eqb ((r ++ b) ++ [x]) r) with false.
    2: { symmetry. destruct (path_eqb _ _) eqn:Ep; auto. apply path_eqb_eq in Ep.
         apply (f_equal (@List.length str)) in Ep. rewrite !app_length in Ep. simpl in Ep. lia. }
    rewrite IH. rewrite (seq_S (S (List.length b)) (List.length r)). rewrite rev_app_distr. cbn [rev app map flat_map].
    f_equal.
    + f_equal. replace (List.length r + S (List.length b)) with (List.length ((r ++ b) ++ [x]))
        by (rewrite !app_length; simpl; lia).
      rewrite firstn_all. reflexivity.
    + f_equal. apply map_ext_in. intros k Hk. apply in_rev, in_seq in Hk.
      rewrite (firstn_app k (r ++ b) [x]).
      replace (k - List.length (r ++ b)) with 0 by (rewrite app_length; lia). simpl. now rewrite app_nil_r.
Qed.

Theorem C01_locate : forall F p root,
  let r := match root with Some r => resolve r | None => [] end in
  (above r (directory_of F p) ->
     locate_configs F p root = Ok (flat_map (configs_in F) (upwards (directory_of F p) (List.length r)))) /\
  (~ above r (directory_of F p) -> locate_configs F p root = Err ValueError).
Proof.
  intros F p root r. unfold locate_configs. fold (directory_of F p). fold r. split; intro H.
  - rewrite above_prefix in H. rewrite H. apply is_prefix_spec in H. destruct H as (b & Hb).
    rewrite Hb. f_equal. apply locate_loop_spec.
  - rewrite above_prefix in H. destruct (is_prefix r (directory_of F p)); congruence.
Qed.

Lemma is_file_iff : forall F p, is_file F p = true <-> exists_file F p.
Proof.
  intros F p. unfold is_file, exists_file. destruct (f_file F p); split; intro H; eauto; try discriminate.
  destruct H as (c & H). discriminate.
Qed.

Lemma firstn_length_app : forall A (l : list A) n, l = firstn n l ++ skipn n l.
Proof. intros. symmetry. apply firstn_skipn. Qed.

(** Exactly these files, and none outside the root. *)
Theorem C01_members : forall F p root ps f,
  locate_configs F p root = Ok ps ->
  (In f ps <-> exists d name, f = d ++ [name] /\
     (name = u "fixit.toml" \/ name = u ".fixit.toml" \/ name = u "pyproject.toml") /\
     above (match root with Some r => resolve r | None => [] end) d /\
     above d (directory_of F p) /\ exists_file F f).
Proof.
  intros F p root ps f H. set (r := match root with Some r => resolve r | None => [] end).
  destruct (C01_locate F p root) as [A B]. fold r in A, B.
  assert (Ha : above r (directory_of F p)).
  { rewrite above_prefix. destruct (is_prefix r (directory_of F p)) eqn:E; auto.
    rewrite B in H; [discriminate|]. rewrite above_prefix. congruence. }
  rewrite (A Ha) in H. injection H as <-. clear A B.
  destruct Ha as (b & Hb). rewrite Hb. rewrite in_flat_map. unfold upwards, configs_in. split.
  - intros (d & Hd & Hf). apply in_map_iff in Hd. destruct Hd as (k & <- & Hk).
    apply in_rev, in_seq in Hk. apply filter_In in Hf. destruct Hf as [Hf1 Hf2]. apply is_file_iff in Hf2.
    assert (Hr : above r (firstn k (r ++ b))).
    { exists (firstn (k - List.length r) b). rewrite firstn_app. rewrite firstn_all2 by lia. reflexivity. }
    assert (Hd : above (firstn k (r ++ b)) (r ++ b)) by (exists (skipn k (r ++ b)); apply firstn_length_app).
    simpl in Hf1. destruct Hf1 as [<-|[<-|[<-|[]]]]; eexists; eexists; split; try reflexivity; auto 10.
  - intros (d & name & -> & Hn & (b1 & ->) & (b2 & Hd) & Hf). exists (r ++ b1). split.
    + apply in_map_iff. exists (List.length (r ++ b1)). split.
      * rewrite Hd. apply firstn_app_exact.
      * apply -> in_rev. apply in_seq. apply (f_equal (@List.length str)) in Hd. rewrite !app_length in *. lia.
    + apply filter_In. split; [|now apply is_file_iff].
      simpl. destruct Hn as [->|[->| ->]]; auto.
Qed.

(** ** C02 *)

(** The file holds a non-empty tool.fixit table. *)
Definition has_table (E : env) (F : fs) (p : path) (d : table) : Prop :=
  exists content data tool, f_file F p = Some content /\ e_load E content = Ok data /\
    dget (u "tool") data = Some (TTab tool) /\ dget (u "fixit") tool = Some (TTab d) /\ d <> [].

(** The file is fine but has no tool.fixit section, or an empty one. *)
Definition has_no_table (E : env) (F : fs) (p : path) : Prop :=
  exists content data, f_file F p = Some content /\ e_load E content = Ok data /\
    (dget (u "tool") data = None \/
     exists tool, dget (u "tool") data = Some (TTab tool) /\ given "fixit" tool = None).

Inductive reads (E : env) (F : fs) : list path -> list raw -> Prop :=
| rd_nil : reads E F [] []
| rd_skip : forall p ps cs, has_no_table E F (resolve p) -> reads E F ps cs -> reads E F (p :: ps) cs
| rd_keep : forall p ps cs d, has_table E F (resolve p) d -> given "root" d = None ->
    reads E F ps cs -> reads E F (p :: ps) (Raw (resolve p) d :: cs)
| rd_stop : forall p ps d, has_table E F (resolve p) d -> given "root" d <> None ->
    reads E F (p :: ps) [Raw (resolve p) d].

Lemma section_table : forall E F p content data d, f_file F p = Some content -> e_load E content = Ok data ->
  (fixit_section data = Ok (Some (TTab d)) <-> has_table E F p d).
Proof.
  intros E F p content data d Hc Hd. unfold fixit_section, has_table. split.
  - intro H. destruct (dget (u "tool") data) as [[| | | | | |tool]|] eqn:Et; try discriminate.
    destruct (dget (u "fixit") tool) as [v|] eqn:Ef; [|discriminate].
    destruct (truthy v) eqn:Ev; [|discriminate]. injection H as ->.
    exists content, data, tool. repeat split; auto. intros ->. discriminate.
  - intros (c & x & tool & A & B & C & D & N). rewrite Hc in A. injection A as <-. rewrite Hd in B. injection B as <-.
    rewrite C, D. destruct d; [congruence|]. reflexivity.
Qed.

Lemma section_none : forall E F p content data, f_file F p = Some content -> e_load E content = Ok data ->
  (fixit_section data = Ok None <-> has_no_table E F p).
Proof.
  intros E F p content data Hc Hd. unfold fixit_section, has_no_table. split.
  - intro H. exists content, data. split; auto. split; auto.
    destruct (dget (u "tool") data) as [[| | | | | |tool]|] eqn:Et; try discriminate; auto.
    right. exists tool. split; auto. unfold given.
    destruct (dget (u "fixit") tool) as [v|]; auto. destruct (truthy v); [discriminate|auto].
  - intros (c & x & A & B & C). rewrite Hc in A. injection A as <-. rewrite Hd in B. injection B as <-.
    destruct C as [->|(tool & -> & H)]; auto. unfold given in H.
    destruct (dget (u "fixit") tool) as [v|]; auto. destruct (truthy v); [discriminate|auto].
Qed.

Lemma given_root : forall d, truthy_opt (dget (u "root") d) = true <-> given "root" d <> None.
Proof.
  intro d. unfold given, truthy_opt. destruct (dget (u "root") d) as [v|]; [|split; congruence].
  destruct (truthy v); split; congruence.
Qed.

Theorem C02_read : forall E F ps cs, read_configs E F ps = Ok cs <-> reads E F ps cs.
Proof.
  intros E F. induction ps as [|p ps IH]; intro cs.
  - simpl. split; intro H; [injection H as <-; constructor | inversion H; reflexivity].
  - cbn [read_configs]. split; intro H.
    + destruct (f_file F (resolve p)) as [content|] eqn:Ec; [|discriminate].
      apply bind_ok in H. destruct H as (data & Hd & H). apply bind_ok in H. destruct H as (sec & Hs & H).
      destruct sec as [v|].
      * destruct v; try discriminate. pose proof Hs as Ht. apply (section_table E F (resolve p) content) in Ht; auto.
        destruct (truthy_opt (dget (u "root") d)) eqn:Er.
        -- injection H as <-. apply rd_stop; auto. now apply given_root.
        -- apply bind_ok in H. destruct H as (more & Hm & H). injection H as <-. apply rd_keep; auto.
           ++ destruct (given "root" d) eqn:Eg; auto. rewrite <- not_true_iff_false, given_root in Er. exfalso. apply Er. congruence.
           ++ now apply IH.
      * apply rd_skip; [|now apply IH]. now apply (section_none E F (resolve p) content data).
    + inversion H as [|? ? ? Hn Hr|? ? ? d Ht Hg Hr|? ? d Ht Hg]; subst.
      * pose proof Hn as Hn2. destruct Hn as (content & data & A & B & _). rewrite A, B. cbn [bind].
        apply (section_none E F (resolve p) content data) in Hn2; auto. rewrite Hn2. cbn [bind]. now apply IH.
      * pose proof Ht as Ht2. destruct Ht as (content & data & tool & A & B & _). rewrite A, B. cbn [bind].
        apply (section_table E F (resolve p) content data) in Ht2; auto. rewrite Ht2. cbn [bind].
        destruct (truthy_opt (dget (u "root") d)) eqn:Er; [apply given_root in Er; congruence|].
        apply IH in Hr. rewrite Hr. reflexivity.
      * pose proof Ht as Ht2. destruct Ht as (content & data & tool & A & B & _). rewrite A, B. cbn [bind].
        apply (section_table E F (resolve p) content data) in Ht2; auto. rewrite Ht2. cbn [bind].
        apply given_root in Hg. rewrite Hg. reflexivity.
Qed.

(** Reading stops at a root config: neither later paths nor the content of other files matter. *)
Theorem C02_stops : forall E F1 F2 before p after1 after2 d,
  (forall q, In q (before ++ [p]) -> f_file F1 (resolve q) = f_file F2 (resolve q)) ->
  has_table E F1 (resolve p) d -> given "root" d <> None ->
  read_configs E F1 (before ++ p :: after1) = read_configs E F2 (before ++ p :: after2).
Proof.
  intros E F1 F2 before p after1 after2 d Hag Ht Hr.
  induction before as [|q before IH]; cbn [app read_configs].
  - rewrite <- (Hag p) by (simpl; auto).
    pose proof Ht as Ht2. destruct Ht as (content & data & tool & A & B & _). rewrite A, B. cbn [bind].
    apply (section_table E F1 (resolve p) content data) in Ht2; auto. rewrite Ht2. cbn [bind].
    apply given_root in Hr. now rewrite Hr.
  - rewrite <- (Hag q) by (simpl; auto).
    destruct (f_file F1 (resolve q)); auto. apply bind_ext. intro data. apply bind_ext. intros [v|].
    + destruct v; auto. destruct (truthy_opt _); auto. rewrite IH; auto. intros x Hx. apply Hag. simpl. auto.
    + apply IH. intros x Hx. apply Hag. simpl. auto.
Qed.

(** ** C03 *)

Lemma upwards_nodots : forall dir n d, In d (upwards dir n) -> above d dir.
Proof.
  intros dir n d H. unfold upwards in H. apply in_map_iff in H. destruct H as (k & <- & _).
  exists (skipn k dir). apply firstn_length_app.
Qed.

Lemma in_split_first : forall (l : list path) x, In x l -> exists l1 l2, l = l1 ++ x :: l2.
Proof. intros. now apply in_split. Qed.

Lemma parent_nodots : forall p, ~ In (u "..") p -> ~ In (u "..") (parent p).
Proof. intros p H Hi. apply H. now apply in_removelast in Hi. Qed.

Lemma directory_nodots : forall F p, ~ In (u "..") p -> ~ In (u "..") (directory_of F p).
Proof. intros F p H. unfold directory_of. destruct (f_isdir F p); auto using parent_nodots. Qed.

Lemma configs_in_nodots : forall F d f, ~ In (u "..") d -> In f (configs_in F d) -> resolve f = f.
Proof.
  intros F d f Hd Hf. unfold configs_in in Hf. apply filter_In in Hf. destruct Hf as [Hf _].
  apply resolve_nodots. intro Hi.
  destruct Hf as [<-|[<-|[<-|[]]]]; apply in_app_iff in Hi; destruct Hi as [Hi|[Hi|[]]]; auto; discriminate.
Qed.

Lemma configs_in_below : forall F d f, In f (configs_in F d) -> above d f.
Proof.
  intros F d f Hf. unfold configs_in in Hf. apply filter_In in Hf. destruct Hf as [Hf _].
  destruct Hf as [<-|[<-|[<-|[]]]]; eexists; reflexivity.
Qed.

Lemma configs_in_agree : forall F1 F2 d D, above D d ->
  (forall p, above D p -> f_file F1 p = f_file F2 p) -> configs_in F1 d = configs_in F2 d.
Proof.
  intros F1 F2 d D (t & ->) H. unfold configs_in, is_file. simpl.
  rewrite !H by (eexists; rewrite <- app_assoc; reflexivity). reflexivity.
Qed.

Lemma bind_cong2 : forall A B C (r1 r2 : res A) (f1 f2 : A -> res B) (g : B -> res C),
  bind r1 f1 = bind r2 f2 -> bind r1 (fun x => bind (f1 x) g) = bind r2 (fun x => bind (f2 x) g).
Proof. intros. rewrite <- !bind_assoc. now rewrite H. Qed.
Arguments bind_cong2 {A B C} _ _ _ _ _ _.

Lemma read_agree : forall E F1 F2 ps, (forall q, In q ps -> f_file F1 (resolve q) = f_file F2 (resolve q)) ->
  read_configs E F1 ps = read_configs E F2 ps.
Proof.
  induction ps as [|q ps IH]; intro H; cbn [read_configs]; auto.
  rewrite <- (H q) by (simpl; auto).
  destruct (f_file F1 (resolve q)); auto. apply bind_ext. intro data. apply bind_ext. intros [v|].
  - destruct v; auto. destruct (truthy_opt _); auto. rewrite IH; auto. intros x Hx. apply H. simpl. auto.
  - apply IH. intros x Hx. apply H. simpl. auto.
Qed.

Theorem C03_root_shields : forall E F1 F2 path root opts D name d,
  (* the two file systems agree at and below directory D *)
  (forall p, above D p -> f_file F1 p = f_file F2 p /\ f_isdir F1 p = f_isdir F2 p) ->
  (* D is a directory above the path, and holds a config with root = true *)
  above D (resolve path) -> above D (directory_of F1 (resolve path)) ->
  In name [u "fixit.toml"; u ".fixit.toml"; u "pyproject.toml"] ->
  has_table E F1 (D ++ [name]) d -> given "root" d <> None ->
  (* no --config-file *)
  (forall o, opts = Some o -> o_config_file o = None) ->
  generate_config E F1 path root opts = generate_config E F2 path root opts.
Proof.
  intros E F1 F2 path root opts D name d Hag Hp HD Hname Ht Hr Hopts.
  unfold generate_config. set (p := resolve path) in *.
  set (root' := match root with Some r => Some (resolve r) | None => None end).
  set (r := match root' with Some r => resolve r | None => [] end).
  assert (Hdir : directory_of F1 p = directory_of F2 p).
  { unfold directory_of. destruct (Hag p Hp) as [_ ->]. reflexivity. }
  assert (K : (let! ps := locate_configs F1 p root' in read_configs E F1 ps) =
              (let! ps := locate_configs F2 p root' in read_configs E F2 ps)).
  { destruct (C01_locate F1 p root') as [A1 B1]. destruct (C01_locate F2 p root') as [A2 B2].
    fold r in A1, A2, B1, B2. rewrite <- Hdir in A2, B2.
    destruct (is_prefix r (directory_of F1 p)) eqn:Ep.
    2: { assert (~ above r (directory_of F1 p)) by (rewrite above_prefix; congruence).
         rewrite B1, B2; auto. }
    assert (Ha : above r (directory_of F1 p)) by (now apply above_prefix).
    rewrite (A1 Ha), (A2 Ha). cbn [bind]. clear A1 A2 B1 B2.
    set (dir := directory_of F1 p) in *.
    assert (Hnd : ~ In (u "..") dir) by (apply directory_nodots, resolve_has_nodots).
    destruct HD as (b & Hb).
    destruct (le_lt_dec (List.length r) (List.length D)) as [Hle|Hlt].
    - (* D is at or below the root *)
      assert (Hup : exists hi lo, upwards dir (List.length r) = hi ++ D :: lo /\ forall x, In x hi -> above D x).
      { unfold upwards.
        replace (seq (List.length r) (S (List.length dir - List.length r))) with
          (seq (List.length r) (List.length D - List.length r) ++ List.length D ::
           seq (S (List.length D)) (List.length dir - List.length D)).
        2: { rewrite Hb, app_length.
             replace (S (List.length D + List.length b - List.length r))
               with ((List.length D - List.length r) + S (List.length b)) by lia.
             rewrite seq_app. f_equal. simpl.
             replace (List.length r + (List.length D - List.length r)) with (List.length D) by lia.
             replace (List.length D + List.length b - List.length D) with (List.length b) by lia. reflexivity. }
        rewrite rev_app_distr. cbn [rev]. rewrite !map_app. cbn [map]. rewrite <- app_assoc.
        eexists. eexists. split.
        { cbn [app]. rewrite Hb at 2. rewrite firstn_app_exact. reflexivity. }
        intros x Hx. apply in_map_iff in Hx. destruct Hx as (k & <- & Hk). apply in_rev, in_seq in Hk.
        exists (firstn (k - List.length D) b). rewrite Hb, firstn_app, firstn_all2 by lia. reflexivity. }
      destruct Hup as (hi & lo & Hup & Hhi). rewrite Hup, !flat_map_app. cbn [flat_map].
      assert (Hd1 : flat_map (configs_in F1) hi = flat_map (configs_in F2) hi).
      { clear -Hhi Hag. induction hi as [|x hi IH]; simpl; auto.
        rewrite IH by (intros; apply Hhi; simpl; auto). f_equal.
        apply configs_in_agree with D; [apply Hhi; simpl; auto | apply Hag]. }
      assert (Hd2 : configs_in F1 D = configs_in F2 D)
        by (apply configs_in_agree with D; [exists []; now rewrite app_nil_r | apply Hag]).
      rewrite <- Hd1, <- Hd2.
      assert (HinD : In (D ++ [name]) (configs_in F1 D)).
      { apply filter_In. split.
        - simpl in Hname. simpl. destruct Hname as [<-|[<-|[<-|[]]]]; auto.
        - apply is_file_iff. destruct Ht as (c & ? & ? & Hc & _). exists c. exact Hc. }
      apply in_split in HinD. destruct HinD as (l1 & l2 & HinD).
      assert (HDn : ~ In (u "..") D).
      { intro Hi. apply Hnd. rewrite Hb. apply in_app_iff. auto. }
      assert (Hres : resolve (D ++ [name]) = D ++ [name]).
      { apply configs_in_nodots with F1 D; auto. rewrite HinD. apply in_app_iff. simpl. auto. }
      replace (flat_map (configs_in F1) hi ++ configs_in F1 D ++ flat_map (configs_in F1) lo)
        with ((flat_map (configs_in F1) hi ++ l1) ++ (D ++ [name]) :: (l2 ++ flat_map (configs_in F1) lo))
        by (rewrite HinD; rewrite <- !app_assoc; reflexivity).
      replace (flat_map (configs_in F1) hi ++ configs_in F1 D ++ flat_map (configs_in F2) lo)
        with ((flat_map (configs_in F1) hi ++ l1) ++ (D ++ [name]) :: (l2 ++ flat_map (configs_in F2) lo))
        by (rewrite HinD; rewrite <- !app_assoc; reflexivity).
      apply C02_stops with d; auto; [|now rewrite Hres].
      intros q Hq. rewrite <- app_assoc in Hq. apply in_app_iff in Hq.
      assert (Hq2 : exists x, above D x /\ ~ In (u "..") x /\ In q (configs_in F1 x)).
      { destruct Hq as [Hq|Hq].
        - apply in_flat_map in Hq. destruct Hq as (x & Hx & Hq). exists x. split; auto. split; auto.
          intro Hi. assert (Hax : above x dir).
          { apply upwards_nodots with (List.length r). rewrite Hup. apply in_app_iff. auto. }
          destruct Hax as (t & Hx2). apply Hnd. rewrite Hx2. apply in_app_iff. auto.
        - exists D. split; [exists []; now rewrite app_nil_r|]. split; auto.
          rewrite HinD. apply in_app_iff in Hq. apply in_app_iff. simpl in *. destruct Hq as [Hq|[Hq|[]]]; auto. }
      destruct Hq2 as (x & (t & ->) & Hxn & Hq2). rewrite (configs_in_nodots F1 _ q Hxn Hq2).
      apply configs_in_below in Hq2. destruct Hq2 as (t2 & ->).
      apply Hag. exists (t ++ t2). now rewrite <- app_assoc.
    - (* the root is strictly below D *)
      assert (Hall : forall x, In x (upwards dir (List.length r)) -> above D x /\ ~ In (u "..") x).
      { intros x Hx. split.
        - unfold upwards in Hx. apply in_map_iff in Hx. destruct Hx as (k & <- & Hk). apply in_rev, in_seq in Hk.
          exists (firstn (k - List.length D) b). rewrite Hb, firstn_app, firstn_all2 by lia. reflexivity.
        - apply upwards_nodots in Hx. destruct Hx as (t & Ht2). intro Hi. apply Hnd. rewrite Ht2.
          apply in_app_iff. auto. }
      assert (Hd1 : flat_map (configs_in F1) (upwards dir (List.length r)) = flat_map (configs_in F2) (upwards dir (List.length r))).
      { clear -Hall Hag. induction (upwards dir (List.length r)) as [|x hi IH]; simpl; auto.
        rewrite IH by (intros; apply Hall; simpl; auto). f_equal.
        apply configs_in_agree with D; [apply Hall; simpl; auto | apply Hag]. }
      rewrite <- Hd1. apply read_agree. intros q Hq. apply in_flat_map in Hq. destruct Hq as (x & Hx & Hq).
      destruct (Hall x Hx) as [(t & ->) Hxn]. rewrite (configs_in_nodots F1 _ q Hxn Hq).
      apply configs_in_below in Hq. destruct Hq as (t2 & ->).
      apply Hag. exists (t ++ t2). now rewrite <- app_assoc. }
  destruct opts as [o|].
  - rewrite (Hopts o eq_refl). exact (bind_cong2 _ _ _ _ _ K).
  - exact (bind_cong2 _ _ _ _ _ K).
Qed.

(** ** C10: enable-root-import *)

Lemma reads_roots : forall E F ps cs, reads E F ps cs ->
  forall near c far, cs = near ++ c :: far -> far <> [] -> given "root" (rc_data c) = None.
Proof.
  intros E F ps cs H. induction H as [|p ps cs Hn H IH|p ps cs d Ht Hg H IH|p ps d Ht Hg];
    intros near c far E1 Hf.
  - destruct near; discriminate.
  - eauto.
  - destruct near as [|x near]; injection E1 as <- E1; auto. eapply IH; eauto.
  - destruct near as [|x near]; injection E1 as <- E1; [congruence|]. destruct near; discriminate.
Qed.

Lemma reads_files : forall E F ps cs, reads E F ps cs ->
  forall c, In c cs -> has_table E F (rc_path c) (rc_data c) /\ ~ In (u "..") (rc_path c).
Proof.
  intros E F ps cs H. induction H as [|p ps cs Hn H IH|p ps cs d Ht Hg H IH|p ps d Ht Hg]; intros c Hc; auto.
  - contradiction.
  - destruct Hc as [<-|Hc]; auto. split; auto. apply resolve_has_nodots.
  - destruct Hc as [<-|[]]. split; auto. apply resolve_has_nodots.
Qed.

(** What [root_import_of] accepts *)
Lemma root_import_ok : forall root c cur im,
  root_import_of root (rc_dir c) (dget (u "enable-root-import") (rc_data c)) cur = Ok im ->
  im = cur \/
  (rc_dir c = root /\ exists v, given "enable-root-import" (rc_data c) = Some v /\
     match im with
     | RIFalse => False
     | RITrue => forall s, v <> TStr s
     | RIPath ps => exists s, v = TStr s /\ ps = parts s /\ is_absolute s = false /\ ~ In (u "..") ps
     end).
Proof.
  intros root c cur im H. unfold root_import_of, given, truthy_opt in *.
  destruct (dget (u "enable-root-import") (rc_data c)) as [v|]; [|injection H as <-; auto].
  destruct (truthy v); [|injection H as <-; auto]. right.
  destruct (path_eqb root (rc_dir c)) eqn:Ep; [|discriminate]. cbn [negb] in H. apply path_eqb_eq in Ep.
  split; auto. exists v. split; auto.
  destruct v; try (injection H as <-; intros; discriminate).
  destruct (is_absolute s) eqn:Ea; [discriminate|].
  destruct (existsb (str_eqb (u "..")) (parts s)) eqn:Ed; [discriminate|]. injection H as <-.
  exists s. repeat split; auto. intro Hi.
  assert (existsb (str_eqb (u "..")) (parts s) = true); [|congruence].
  apply existsb_exists. exists (u ".."). split; auto.
Qed.

(** What the setting may say, and where. *)
Definition import_from (im : root_import) (root : path) (cs : list raw) : Prop :=
  match im with
  | RIFalse => True
  | RITrue => exists c v, In c cs /\ rc_dir c = root /\ given "enable-root-import" (rc_data c) = Some v /\
                          forall s, v <> TStr s
  | RIPath ps => exists c s, In c cs /\ rc_dir c = root /\ given "enable-root-import" (rc_data c) = Some (TStr s) /\
                          ps = parts s /\ is_absolute s = false /\ ~ In (u "..") ps
  end.

Lemma import_from_incl : forall im root cs cs', incl cs cs' -> import_from im root cs -> import_from im root cs'.
Proof.
  intros [| |ps] root cs cs' Hi H; simpl in *; auto.
  - destruct H as (c & v & Hc & H). exists c, v. auto.
  - destruct H as (c & s & Hc & H). exists c, s. auto.
Qed.

Lemma merge_import : forall E file cs g g' r all,
  fold_res (merge_one E file) cs g = Ok g' -> g_root g = Some r ->
  (forall c, In c cs -> given "root" (rc_data c) = None) -> incl cs all ->
  import_from (g_import g) r all -> g_root g' = Some r /\ import_from (g_import g') r all.
Proof.
  induction cs as [|c cs IH]; intros g g' r all H Hr Hn Hi Him; cbn [fold_res] in H.
  - injection H as <-. auto.
  - apply bind_ok in H. destruct H as (g1 & H1 & H2).
    destruct (merge_one_ok _ _ _ _ H1) as (_ & A & B & _).
    assert (Hra : root_after (g_root g) c = r).
    { unfold root_after. rewrite (Hn c) by (simpl; auto). now rewrite Hr. }
    rewrite Hra in A, B. apply (IH g1 g' r all H2); auto.
    + intros; apply Hn; simpl; auto.
    + intros x Hx. apply Hi. simpl. auto.
    + apply root_import_ok in B. destruct B as [->|(Hd & v & Hv & Hm)]; auto.
      assert (In c all) by (apply Hi; simpl; auto).
      destruct (g_import g1) as [| |ps]; simpl; auto.
      * exists c, v. auto.
      * destruct Hm as (s & -> & ? & ? & ?). exists c, s. auto 10.
Qed.

Lemma merge_import_all : forall E file raws root c w,
  merge_configs E file raws root = Ok (c, w) ->
  (forall near x far, raws = near ++ x :: far -> far <> [] -> given "root" (rc_data x) = None) ->
  import_from (c_import c) (c_root c) raws /\
  (c_root c = match root with Some r => r | None => [] end \/ exists x, In x raws /\ c_root c = rc_dir x).
Proof.
  intros E file raws root c w H Hn. unfold merge_configs in H. apply bind_ok in H. destruct H as (g & H & H').
  injection H' as <- _. cbn [c_import c_root].
  destruct (rev raws) as [|x cs] eqn:Er.
  - simpl in H. injection H as <-. simpl. auto.
  - cbn [fold_res] in H. apply bind_ok in H. destruct H as (g1 & H1 & H2).
    destruct (merge_one_ok _ _ _ _ H1) as (_ & A & B & _). cbn [g_root init_state] in A, B.
    assert (Hraws : raws = rev cs ++ [x]) by (rewrite <- (rev_involutive raws), Er; reflexivity).
    assert (Hx : In x raws) by (rewrite Hraws; apply in_app_iff; simpl; auto).
    destruct (merge_import E file cs g1 g _ raws H2 A) as [C D].
    + intros y Hy. apply in_rev in Hy. apply in_split in Hy. destruct Hy as (l1 & l2 & Hy).
      apply (Hn l1 y (l2 ++ [x])).
      * rewrite Hraws, Hy, <- app_assoc. reflexivity.
      * destruct l2; discriminate.
    + intros y Hy. rewrite Hraws. apply in_app_iff. left. now apply -> in_rev.
    + apply root_import_ok in B. destruct B as [->|(Hd & v & Hv & Hm)]; [exact I|].
      destruct (g_import g1) as [| |ps]; simpl; auto.
      * exists x, v. auto.
      * destruct Hm as (s & -> & ? & ? & ?). exists x, s. auto 10.
    + rewrite C. split; auto. unfold root_after.
      destruct (given "root" (rc_data x)); [eauto|]. destruct root; [auto|eauto].
Qed.

(** The directory that root imports come from: config.py 220-226 appends [root] or
    [root / enable_root_import] to sys.path. It is the root or below it, and it was chosen by a
    config file in the root directory itself. *)
Theorem C10_root_import : forall E F path root opts c,
  f_file F [] = None ->                 (* "/" is not a regular file *)
  generate_config E F path root opts = Ok c -> c_import c <> RIFalse ->
  exists name d v, has_table E F (c_root c ++ [name]) d /\ given "enable-root-import" d = Some v /\
    match c_import c with
    | RIPath ps => exists s, v = TStr s /\ ps = parts s /\ is_absolute s = false /\
                     resolve (joinpath (c_root c) s) = c_root c ++ ps
    | _ => forall s, v <> TStr s
    end.
Proof.
  intros E F path root opts c HF H Him. unfold generate_config in H.
  apply bind_ok in H. destruct H as (ps & _ & H). apply bind_ok in H. destruct H as (raws & Hr & H).
  apply bind_ok in H. destruct H as ([c0 w] & Hm & H).
  assert (E1 : c_import c = c_import c0 /\ c_root c = c_root c0).
  { injection H as <-. destruct opts; auto. }
  destruct E1 as [Ei Er]. rewrite Ei in *. rewrite Er in *. clear H.
  apply C02_read in Hr. pose proof (reads_roots _ _ _ _ Hr) as R1. pose proof (reads_files _ _ _ _ Hr) as R2.
  apply merge_import_all in Hm; auto. destruct Hm as [Hf Hroot].
  assert (Hnd : ~ In (u "..") (c_root c0)).
  { destruct Hroot as [->|(x & Hx & ->)].
    - destruct root; [apply resolve_has_nodots | intros []].
    - apply parent_nodots. apply R2. exact Hx. }
  assert (Hpath : forall x, In x raws -> rc_dir x = c_root c0 -> exists name, rc_path x = c_root c0 ++ [name] \/ rc_path x = []).
  { intros x Hx Hd. unfold rc_dir, parent in Hd. destruct (rc_path x) as [|y l] eqn:El; [exists []; auto|].
    exists (last (y :: l) []). left. rewrite <- Hd. apply app_removelast_last. discriminate. }
  destruct (c_import c0) as [| |ips] eqn:Eim; [congruence| |]; simpl in Hf.
  - destruct Hf as (x & v & Hx & Hd & Hv & Hs). destruct (Hpath x Hx Hd) as (name & [Hp|Hp]).
    + exists name, (rc_data x), v. rewrite <- Hp. split; [apply R2; auto|]. auto.
    + exfalso. destruct (R2 x Hx) as [(ct & ? & ? & Hc & _) _]. rewrite Hp in Hc. congruence.
  - destruct Hf as (x & s & Hx & Hd & Hv & Hi1 & Hi2 & Hi3). destruct (Hpath x Hx Hd) as (name & [Hp|Hp]).
    + exists name, (rc_data x), (TStr s). rewrite <- Hp. split; [apply R2; auto|]. split; auto.
      exists s. repeat split; auto. unfold joinpath. rewrite Hi2, <- Hi1. apply resolve_nodots.
      intro Hi. apply in_app_iff in Hi. tauto.
    + exfalso. destruct (R2 x Hx) as [(ct & ? & ? & Hc & _) _]. rewrite Hp in Hc. congruence.
Qed.

(** The root known when the configs [cs] (furthest first) have been processed. *)
Definition root_then (root : option path) (cs : list raw) (c : raw) : path :=
  root_after (fold_left (fun r x => Some (root_after r x)) cs root) c.

Lemma merge_fold_root : forall E file cs g g', fold_res (merge_one E file) cs g = Ok g' ->
  g_root g' = fold_left (fun r x => Some (root_after r x)) cs (g_root g).
Proof.
  induction cs as [|c cs IH]; intros g g' H; cbn [fold_res fold_left] in *; [congruence|].
  apply bind_ok in H. destruct H as (g1 & H1 & H2). rewrite (IH _ _ H2).
  destruct (merge_one_ok _ _ _ _ H1) as (_ & -> & _). reflexivity.
Qed.

(** A config outside the root directory, an absolute path or a ".." component is a ConfigError. *)
Theorem C10_rejected : forall E file near c far root v,
  valid_configs E file root (rev far) ->
  given "enable-root-import" (rc_data c) = Some v ->
  (rc_dir c <> root_then root (rev far) c \/
   exists s, v = TStr s /\ (is_absolute s = true \/ In (u "..") (parts s))) ->
  merge_configs E file (near ++ c :: far) root = Err ConfigError.
Proof.
  intros E file near c far root v Hv Hg Hbad. unfold merge_configs.
  rewrite rev_app_distr. cbn [rev]. rewrite <- app_assoc, fold_res_app.
  change root with (g_root (init_state E root)) in Hv. apply merge_fold_iff in Hv.
  destruct Hv as (g & Hg1). rewrite Hg1. cbn [bind app fold_res]. apply merge_fold_root in Hg1.
  cbn [g_root init_state] in Hg1.
  assert (K : merge_one E file g c = Err ConfigError).
  { rewrite merge_one_eq. cbn zeta. rewrite Hg1. fold (root_then root (rev far) c).
    unfold root_import_of, given, truthy_opt in *.
    destruct (dget (u "enable-root-import") (rc_data c)) as [x|]; [|discriminate].
    destruct (truthy x); [|discriminate]. injection Hg as ->.
    destruct (path_eqb (root_then root (rev far) c) (rc_dir c)) eqn:Ep; [|reflexivity].
    apply path_eqb_eq in Ep. destruct Hbad as [Hbad|(s & -> & Hbad)]; [congruence|].
    cbn [negb]. destruct (is_absolute s); [reflexivity|]. destruct Hbad as [Hbad|Hbad]; [discriminate|].
    replace (existsb (str_eqb (u "..")) (parts s)) with true; [reflexivity|].
    symmetry. apply existsb_exists. exists (u ".."). split; auto. }
  rewrite K. reflexivity.
Qed.

(** ** C11: command line options *)

Theorem C11_options : forall E F path root o c,
  o_config_file o = None ->
  (generate_config E F path root (Some o) = Ok c <->
   exists c0, generate_config E F path root None = Ok c0 /\
    (o_rules o = [] -> c_enable c = c_enable c0 /\ c_disable c = c_disable c0) /\
    (o_rules o <> [] -> c_enable c = o_rules o /\ c_disable c = []) /\
    (match o_tags o with
     | Some t => c_tags c = (match t_include t, t_exclude t with [], [] => c_tags c0 | _, _ => t end)
     | None => c_tags c = c_tags c0 end) /\
    (match o_format o with Some f => c_format c = f | None => c_format c = c_format c0 end) /\
    c_template c = (match o_template o with [] => c_template c0 | t => TStr t end) /\
    c_path c = c_path c0 /\ c_root c = c_root c0 /\ c_import c = c_import c0 /\
    c_options c = c_options c0 /\ c_python c = c_python c0 /\ c_formatter c = c_formatter c0).
Proof.
  intros E F path root o c Ho. unfold generate_config. rewrite Ho.
  set (L := locate_configs _ _ _). set (rt := match root with Some r => _ | None => _ end).
  split.
  - intro H. apply bind_ok in H. destruct H as (ps & -> & H). apply bind_ok in H. destruct H as (raws & Hr & H).
    apply bind_ok in H. destruct H as ([c0 w] & Hm & H). injection H as <-.
    exists c0. cbn [bind]. rewrite Hr. cbn [bind]. rewrite Hm. cbn [bind]. split; auto. unfold apply_options. simpl.
    split; [intros ->; auto|]. split; [destruct (o_rules o); [congruence|auto]|].
    split; [destruct (o_tags o) as [t|]; auto; unfold tags_bool; destruct (t_include t), (t_exclude t); reflexivity|]. split; [destruct (o_format o); auto|]. auto 10.
  - intros (c0 & H & A1 & A2 & A3 & A4 & A5 & A6 & A7 & A8 & A9 & A10 & A11).
    apply bind_ok in H. destruct H as (ps & -> & H). apply bind_ok in H. destruct H as (raws & Hr & H).
    apply bind_ok in H. destruct H as ([c1 w] & Hm & H). injection H as ->.
    cbn [bind]. rewrite Hr. cbn [bind]. rewrite Hm. cbn [bind]. f_equal. unfold apply_options.
    destruct c as [x1 x2 x3 x4 x5 x6 x7 x8 x9 x10 x11]. simpl in *. subst.
    destruct (o_rules o) as [|r rs].
    + destruct A1 as [-> ->]; auto. destruct (o_tags o) as [t|], (o_format o); subst; try reflexivity; unfold tags_bool; destruct (t_include t), (t_exclude t); reflexivity.
    + destruct A2 as [-> ->]; [discriminate|]. destruct (o_tags o) as [t|], (o_format o); subst; try reflexivity; unfold tags_bool; destruct (t_include t), (t_exclude t); reflexivity.
Qed.

(** --config-file: only that file counts, whatever else is on the disk. *)
Theorem C11_config_file : forall E F1 F2 path root o f,
  o_config_file o = Some f -> f_file F1 (resolve f) = f_file F2 (resolve f) ->
  generate_config E F1 path root (Some o) = generate_config E F2 path root (Some o).
Proof.
  intros E F1 F2 path root o f Ho Hf. unfold generate_config. rewrite Ho. cbn [bind].
  rewrite (read_agree E F1 F2 [f]); auto. intros q [<-|[]]. exact Hf.
Qed.

(** ... but "use that file" fails for a file outside the directories above the linted path: its
    enable, disable, options, python-version and formatter settings are silently ignored. *)
Definition ex_env (cfg : str -> res table) : env :=
  Env cfg (fun _ => true) (u "3.12") [u "black"; u "ufmt"] (fun l => l).

Definition ex_table : table :=
  [(u "tool", TTab [(u "fixit", TTab [(u "enable", TArr [TStr (u "my.rules")]); (u "disable", TArr [TStr (u "fixit.rules")])])])].

Definition ex_opts (f : path) : options := Options (Some f) None [] None [].

Definition file_says (E : env) (F : fs) (f : path) (rule : string) : Prop :=
  exists d, has_table E F f d /\ In (TStr (u rule)) (elements "enable" d).

Theorem C11_config_file_elsewhere_refuted : exists E F path f c,
  fair_iteration E /\ file_says E F f "my.rules" /\
  generate_config E F path None (Some (ex_opts f)) = Ok c /\
  map qrule_str (c_enable c) = [u "fixit.rules"] /\ c_disable c = [].
Proof.
  set (E := ex_env (fun _ => Ok ex_table)).
  set (F := FS (fun p => if path_eqb p [u "etc"; u "fixit.toml"] then Some [] else None) (fun _ => false)).
  exists E, F, [u "repo"; u "a.py"], [u "etc"; u "fixit.toml"].
  eexists. split; [intro l; apply Permutation_refl|]. split.
  { exists [(u "enable", TArr [TStr (u "my.rules")]); (u "disable", TArr [TStr (u "fixit.rules")])]. split.
    - exists [], ex_table. eexists. repeat split; try reflexivity. discriminate.
    - vm_compute. auto. }
  split; [vm_compute; reflexivity|]. split; vm_compute; reflexivity.
Qed.

(** ** Concrete cases *)

(** A project /p with a root config, a nearer config in /p/s and an override for /p/s/gen. *)
Definition ex_far : raw := Raw [u "p"; u "pyproject.toml"]
  [(u "root", TBool true); (u "enable-root-import", TStr (u "tools/lint"));
   (u "disable", TArr [TStr (u "fixit.rules:UseFstring")]);
   (u "python-version", TStr (u "3.10")); (u "formatter", TStr (u "black"));
   (u "options", TTab [(u "A", TTab [(u "k", TInt 1); (u "l", TInt 2)])])].

Definition ex_near : raw := Raw [u "p"; u "s"; u "fixit.toml"]
  [(u "enable", TArr [TStr (u ".rules"); TStr (u "fixit.rules:UseFstring")]);
   (u "options", TTab [(u "A", TTab [(u "k", TInt 3)])]);
   (u "overrides", TArr [TTab [(u "path", TStr (u "gen")); (u "disable", TArr [TStr (u "fixit.rules")]);
                               (u "python-version", TStr [])]])].

Definition ex_merge (file : path) := merge_configs (ex_env (fun _ => Ok [])) file [ex_near; ex_far] None.

Example C05_ex_near : ex_merge [u "p"; u "s"; u "a.py"] =
  Ok (Config [u "p"; u "s"; u "a.py"] [u "p"] (RIPath [u "tools"; u "lint"])
        [QRule (u ".rules") None (Some (u ".")) (Some [u "p"; u "s"]);
         QRule (u "fixit.rules") None None None;
         QRule (u "fixit.rules") (Some (u "UseFstring")) None None]
        [] [(u "A", [(u "k", TInt 3)])] (Some (u "3.10")) no_tags (Some (u "black")) OFfixit (TStr []), []).
Proof. vm_compute. reflexivity. Qed.

Example C05_ex_override : ex_merge [u "p"; u "s"; u "gen"; u "a.py"] =
  Ok (Config [u "p"; u "s"; u "gen"; u "a.py"] [u "p"] (RIPath [u "tools"; u "lint"])
        [QRule (u ".rules") None (Some (u ".")) (Some [u "p"; u "s"]);
         QRule (u "fixit.rules") (Some (u "UseFstring")) None None]
        [QRule (u "fixit.rules") None None None]
        [(u "A", [(u "k", TInt 3)])] None no_tags (Some (u "black")) OFfixit (TStr []), []).
Proof. vm_compute. reflexivity. Qed.

Example C12_ex_valid : valid_configs (ex_env (fun _ => Ok [])) [u "p"; u "s"; u "a.py"] None (rev [ex_near; ex_far]).
Proof. apply C12_accepts_exactly. eexists. eexists. vm_compute. reflexivity. Qed.

Example C07_ex_layers : layers [u "p"; u "s"; u "a.py"] [ex_near; ex_far]
  [([u "p"], rc_data ex_far); ([u "p"; u "s"], rc_data ex_near)].
Proof. apply layers_iff. reflexivity. Qed.

Example C10_ex_rejected : merge_configs (ex_env (fun _ => Ok [])) [u "p"; u "s"; u "a.py"]
  [Raw [u "p"; u "s"; u "fixit.toml"] [(u "enable-root-import", TBool true)]; ex_far] None = Err ConfigError.
Proof. vm_compute. reflexivity. Qed.

Definition ex_fs : fs := FS
  (fun p => if path_eqb p [u "p"; u "pyproject.toml"] then Some (u "far")
            else if path_eqb p [u "p"; u "s"; u "fixit.toml"] then Some (u "near")
            else if path_eqb p [u "fixit.toml"] then Some (u "beyond") else None)
  (fun p => path_eqb p [u "p"; u "s"]).

Definition ex_load (s : str) : res table :=
  if str_eqb s (u "far") then Ok [(u "tool", TTab [(u "fixit", TTab (rc_data ex_far))])]
  else if str_eqb s (u "near") then Ok [(u "tool", TTab [(u "fixit", TTab (rc_data ex_near))])]
  else Err TOMLDecodeError.

Example C01_ex : locate_configs ex_fs [u "p"; u "s"; u "a.py"] None =
  Ok [[u "p"; u "s"; u "fixit.toml"]; [u "p"; u "pyproject.toml"]; [u "fixit.toml"]].
Proof. vm_compute. reflexivity. Qed.

(** The broken file /fixit.toml is shielded by the root config of /p. *)
Example C03_ex : exists c, generate_config (ex_env ex_load) ex_fs [u "p"; u "s"; u "a.py"] None None = Ok c.
Proof. eexists. vm_compute. reflexivity. Qed.

Example C03_ex_hyp : has_table (ex_env ex_load) ex_fs [u "p"; u "pyproject.toml"] (rc_data ex_far) /\
  given "root" (rc_data ex_far) <> None.
Proof.
  split; [|discriminate]. exists (u "far"). eexists. eexists.
  repeat split; try reflexivity. discriminate.
Qed.

(** C09 in full fails: when a far and a near config both enable [.rules], the rule is bound to
    the far directory, although it is the near config that enables it last. *)
Theorem C09_nearest_refuted : exists E file raws root c w ls before x after q,
  fair_iteration E /\ merge_configs E file raws root = Ok (c, w) /\ layers file raws ls /\
  mentions ls = before ++ x :: after /\ m_enable x = true /\ names (u ".rules") x /\
  (forall y, In y after -> ~ names (u ".rules") y) /\
  In q (c_enable c) /\ qrule_str q = u ".rules" /\ q_root q <> Some (m_dir x).
Proof.
  set (far := Raw [u "p"; u "fixit.toml"] [(u "enable", TArr [TStr (u ".rules")])]).
  set (near := Raw [u "p"; u "s"; u "fixit.toml"] [(u "enable", TArr [TStr (u ".rules")])]).
  exists (ex_env (fun _ => Ok [])), [u "p"; u "s"; u "a.py"], [near; far], None.
  eexists. eexists. exists (layers_f [u "p"; u "s"; u "a.py"] [near; far]).
  exists [Mention [] true (TStr (u "fixit.rules")); Mention [u "p"] true (TStr (u ".rules"))].
  exists (Mention [u "p"; u "s"] true (TStr (u ".rules"))), [].
  exists (QRule (u ".rules") None (Some (u ".")) (Some [u "p"])).
  split; [intro l; apply Permutation_refl|]. split; [vm_compute; reflexivity|].
  split; [now apply layers_iff|]. split; [vm_compute; reflexivity|]. split; [reflexivity|].
  split; [left; reflexivity|]. split; [intros y []|]. split; [vm_compute; auto|].
  split; [reflexivity|]. discriminate.
Qed.
