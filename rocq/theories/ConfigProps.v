(** * C04-C09, C12: merging configurations *)
From Coq Require Import String List NArith ZArith Bool Arith Lia Permutation Sorted.
From Verif Require Import Base PyStr Regex Ftypes Paths RuleNameSpec RuleNameFacts RuleNameProps
  Config ConfigSpec ConfigFacts ConfigMentions ConfigValid.
Import ListNotations.

(** The layers of any list of configs exist and are unique, so that the hypothesis
    [layers file raws ls] of the theorems below is never an obstacle. *)
Theorem C07_layers_defined : forall file raws,
  (exists ls, layers file raws ls) /\
  forall ls1 ls2, layers file raws ls1 -> layers file raws ls2 -> ls1 = ls2.
Proof.
  intros file raws. split.
  - exists (layers_f file raws). now apply layers_iff.
  - intros ls1 ls2 H1 H2. apply layers_iff in H1. apply layers_iff in H2. congruence.
Qed.

(** ** C04: the nearest setting wins *)

Theorem C04_python_version : forall E file raws root c w ls,
  merge_configs E file raws root = Ok (c, w) -> layers file raws ls ->
  c_python c =
    match last_some (map (fun l => dget (u "python-version") (snd l)) ls) with
    | None => Some (e_running E)          (* nobody sets it *)
    | Some (TStr []) => None              (* python-version = "": no filtering *)
    | Some (TStr s) => Some s
    | Some _ => None                      (* other empty values such as false or 0 *)
    end.
Proof.
  intros E file raws root c w ls H Hl. apply layers_iff in Hl. subst ls.
  apply merge_ok in H. destruct H as (s & H & _ & _ & _ & Hp & _).
  apply steps_ok in H. destruct H as (_ & H & _). rewrite Hp, H. unfold py_of. cbn [s_python].
  destruct (last_some _) as [v|]; auto. destruct v as [[|]| | | | | |]; auto;
    match goal with |- context[truthy ?x] => destruct (truthy x) end; auto.
Qed.

Theorem C04_formatter : forall E file raws root c w ls,
  merge_configs E file raws root = Ok (c, w) -> layers file raws ls ->
  match last_some (map (fun l => given "formatter" (snd l)) ls) with
  | None => c_formatter c = None
  | Some v => exists s, v = TStr s /\ c_formatter c = Some s
  end.
Proof.
  intros E file raws root c w ls H Hl. pose proof H as Hm. apply layers_iff in Hl. subst ls.
  apply merge_ok in H. destruct H as (s & H & _ & _ & _ & _ & Hf & _).
  pose proof H as H0. apply steps_ok in H. destruct H as (_ & _ & H). rewrite Hf, H. unfold fm_of. cbn [s_formatter].
  pose proof (last_given_truthy "formatter" (layers_f file raws)) as Ht.
  destruct (last_some (map (fun l => given "formatter" (snd l)) (layers_f file raws))) as [v|] eqn:El; auto.
  rewrite (Ht v eq_refl).
  assert (Hv : exists t, v = TStr t).
  { clear -H0 El. revert H0 El.
    generalize (MState [default_rules] [] [] (Some (e_running E)) None).
    induction (layers_f file raws) as [|l ls IH]; intros s0 H0 El; cbn [map last_some fold_res] in *; [discriminate|].
    apply bind_ok in H0. destruct H0 as (s1 & H1 & H2).
    destruct (last_some (map (fun l => given "formatter" (snd l)) ls)) eqn:E2; [eauto|].
    unfold step in H1. apply bind_ok in H1. destruct H1 as (? & _ & H1).
    apply bind_ok in H1. destruct H1 as (? & _ & H1). apply bind_ok in H1. destruct H1 as (? & _ & H1).
    apply bind_ok in H1. destruct H1 as (? & _ & H1).
    assert (K : ok (set_formatter E (dget (u "formatter") (snd l)) x2)) by (exists s1; exact H1).
    apply set_formatter_iff with (v := v) in K; auto. destruct K as (t & -> & _). eauto. }
  destruct Hv as (t & ->). eauto.
Qed.

(** output-format and output-template: the nearest config that gives it, whether or not the
    config's directory is above the file. *)
Theorem C04_output_format : forall E file raws root c w,
  merge_configs E file raws root = Ok (c, w) ->
  match first_some (map (fun r => given "output-format" (rc_data r)) raws) with
  | None => c_format c = OFfixit
  | Some v => (v = TStr (u "custom") /\ c_format c = OFcustom) \/
              (v = TStr (u "fixit") /\ c_format c = OFfixit) \/
              (v = TStr (u "vscode") /\ c_format c = OFvscode)
  end.
Proof.
  intros E file raws root c w H. apply merge_ok in H. destruct H as (s & _ & _ & _ & _ & _ & _ & _ & _ & H).
  destruct (first_some _) as [v|]; [|congruence]. unfold parse_output_format in H.
  destruct v; try discriminate.
  destruct (str_eqb s0 (u "custom")) eqn:E1; [apply str_eqb_eq in E1; subst; injection H as <-; auto|].
  destruct (str_eqb s0 (u "fixit")) eqn:E2; [apply str_eqb_eq in E2; subst; injection H as <-; auto|].
  destruct (str_eqb s0 (u "vscode")) eqn:E3; [apply str_eqb_eq in E3; subst; injection H as <-; auto|].
  discriminate.
Qed.

Theorem C04_output_template : forall E file raws root c w,
  merge_configs E file raws root = Ok (c, w) ->
  c_template c = match first_some (map (fun r => given "output-template" (rc_data r)) raws) with
                 | None => TStr [] | Some v => v end.
Proof.
  intros E file raws root c w H. apply merge_ok in H. destruct H as (s & _ & _ & _ & _ & _ & _ & _ & H & _). exact H.
Qed.

(** ** C05: the last mention decides *)

Lemma sorted_texts : forall E l t, fair_iteration E ->
  (In t (map qrule_str (sorted qrule_leb (e_iter E l))) <-> In t (texts l)).
Proof.
  intros E l t HE. unfold texts. rewrite !in_map_iff.
  assert (P : Permutation (sorted qrule_leb (e_iter E l)) l)
    by (eapply perm_trans; [apply Permutation_sym, sorted_perm | apply HE]).
  split; intros (x & Hx & Hi); exists x; split; auto.
  - eapply Permutation_in; eauto.
  - eapply Permutation_in; [apply Permutation_sym|]; eauto.
Qed.

Theorem C05_enable : forall E file raws root c w ls local mm n t,
  fair_iteration E ->
  merge_configs E file raws root = Ok (c, w) -> layers file raws ls -> rule_name local mm n t ->
  (In t (map qrule_str (c_enable c)) <-> last_mention t true (mentions ls)).
Proof.
  intros E file raws root c w ls local mm n t HE H Hl Ht. apply layers_iff in Hl. subst ls.
  apply merge_ok in H. destruct H as (s & H & He & _). rewrite He, sorted_texts by auto.
  apply merge_inv in H. apply (i_en H Ht).
Qed.

Theorem C05_disable : forall E file raws root c w ls local mm n t,
  fair_iteration E ->
  merge_configs E file raws root = Ok (c, w) -> layers file raws ls -> rule_name local mm n t ->
  (In t (map qrule_str (c_disable c)) <-> last_mention t false (mentions ls)).
Proof.
  intros E file raws root c w ls local mm n t HE H Hl Ht. apply layers_iff in Hl. subst ls.
  apply merge_ok in H. destruct H as (s & H & _ & He & _). rewrite He, sorted_texts by auto.
  apply merge_inv in H. apply (i_dis H Ht).
Qed.

(** ... and nothing but rule names is ever in the lists. *)
Theorem C05_only_names : forall E file raws root c w q,
  fair_iteration E ->
  merge_configs E file raws root = Ok (c, w) -> In q (c_enable c) \/ In q (c_disable c) ->
  exists local mm n, rule_name local mm n (qrule_str q) /\
    q_module q = (if local then u "." else []) ++ mm /\ q_name q = n /\
    q_local q = (if local then Some (u ".") else None).
Proof.
  intros E file raws root c w q HE H Hq. apply merge_ok in H. destruct H as (s & H & He & Hd & _).
  apply merge_inv in H. apply wfq_text.
  assert (P : forall l, Permutation (sorted qrule_leb (e_iter E l)) l)
    by (intro l; eapply perm_trans; [apply Permutation_sym, sorted_perm | apply HE]).
  destruct Hq as [Hq|Hq]; [rewrite He in Hq | rewrite Hd in Hq];
    apply (Permutation_in _ (P _)) in Hq.
  - pose proof (i_wf1 H) as W. rewrite Forall_forall in W. apply W. exact Hq.
  - pose proof (i_wf2 H) as W. rewrite Forall_forall in W. apply W. exact Hq.
Qed.

(** ** C06: disjoint, sorted, deterministic *)

Definition str_lt (a b : str) : Prop := str_leb a b = true /\ a <> b.

Lemma strictly : forall l, StronglySorted (fun a b => qrule_leb a b = true) l -> NoDup (texts l) ->
  StronglySorted str_lt (map qrule_str l).
Proof.
  intros l H. induction H as [|x l H IH Hx]; intro Hn; simpl; [constructor|].
  unfold texts in Hn. simpl in Hn. inversion Hn as [|? ? Hni Hnl]; subst.
  constructor; auto. rewrite Forall_forall in *. intros t Ht. pose proof Ht as Ht2.
  apply in_map_iff in Ht. destruct Ht as (y & <- & Hy). split; [apply Hx; auto|].
  intro Eq. rewrite Eq in Hni. contradiction.
Qed.

Theorem C06_disjoint_sorted : forall E file raws root c w,
  fair_iteration E ->
  merge_configs E file raws root = Ok (c, w) ->
  StronglySorted str_lt (map qrule_str (c_enable c)) /\
  StronglySorted str_lt (map qrule_str (c_disable c)) /\
  forall t, In t (map qrule_str (c_enable c)) -> In t (map qrule_str (c_disable c)) -> False.
Proof.
  intros E file raws root c w HE H. pose proof H as Hm.
  apply merge_ok in H. destruct H as (s & H & He & Hd & _). apply merge_inv in H.
  assert (P : forall l, Permutation (sorted qrule_leb (e_iter E l)) l)
    by (intro l; eapply perm_trans; [apply Permutation_sym, sorted_perm | apply HE]).
  assert (Q : forall l, NoDup (texts l) -> StronglySorted str_lt (map qrule_str (sorted qrule_leb (e_iter E l)))).
  { intros l Hn. apply strictly.
    - apply sorted_sorted; [apply qrule_leb_total | apply qrule_leb_trans].
    - unfold texts. eapply Permutation_NoDup; [|exact Hn]. apply Permutation_map, Permutation_sym, P. }
  split; [|split].
  - rewrite He. apply Q. apply sset_texts_nodup; [apply (i_wf1 H) | apply (i_set1 H)].
  - rewrite Hd. apply Q. apply sset_texts_nodup; [apply (i_wf2 H) | apply (i_set2 H)].
  - intros t H1 H2. rewrite He, sorted_texts in H1 by auto. rewrite Hd, sorted_texts in H2 by auto.
    assert (Hr : exists l mm n, rule_name l mm n t).
    { apply in_map_iff in H1. destruct H1 as (q & <- & Hq). pose proof (i_wf1 H) as W.
      rewrite Forall_forall in W. destruct (wfq_text (W q Hq)) as (l & mm & n & R & _). eauto. }
    destruct Hr as (l & mm & n & R).
    apply (i_en H R) in H1. apply (i_dis H R) in H2.
    destruct H1 as (b1 & x1 & a1 & E1 & N1 & M1 & L1). destruct H2 as (b2 & x2 & a2 & E2 & N2 & M2 & L2).
    rewrite E1 in E2.
    assert (K : forall b1 x1 a1 b2 x2 a2, b1 ++ x1 :: a1 = b2 ++ x2 :: a2 ->
      names t x1 -> names t x2 -> (forall y, In y a1 -> ~ names t y) -> (forall y, In y a2 -> ~ names t y) -> x1 = x2).
    { clear. induction b1 as [|z b1 IH]; intros x1 a1 [|z2 b2] x2 a2 Eq N1 N2 L1 L2; simpl in Eq.
      - congruence.
      - injection Eq as -> ->. exfalso. apply (L1 x2); auto. apply in_app_iff. simpl. auto.
      - injection Eq as -> <-. exfalso. apply (L2 x1); auto. apply in_app_iff. simpl. auto.
      - injection Eq as _ Eq. eapply IH; eauto. }
    assert (x1 = x2) by (eapply K; eauto). subst. congruence.
Qed.

(** The result does not depend on the iteration order of the sets. *)
Theorem C06_deterministic : forall E E' file raws root,
  fair_iteration E -> fair_iteration E' ->
  e_version_ok E = e_version_ok E' -> e_running E = e_running E' -> e_styles E = e_styles E' ->
  merge_configs E file raws root = merge_configs E' file raws root.
Proof.
  intros E E' file raws root HE HE' H1 H2 H3.
  assert (K : forall cs g, fold_res (merge_one E file) cs g = fold_res (merge_one E' file) cs g).
  { assert (S : forall s l, step E s l = step E' s l).
    { intros s l. unfold step. apply bind_ext; intro. apply bind_ext; intro. apply bind_ext; intro.
      unfold set_python, set_formatter. rewrite H1, H3. reflexivity. }
    assert (P : forall dir sub en dis op py fm s, process_subpath E file dir sub en dis op py fm s
                 = process_subpath E' file dir sub en dis op py fm s).
    { intros. unfold process_subpath. destruct (negb _); auto. apply bind_ext; intro. apply bind_ext; intro.
      unfold set_python, set_formatter. rewrite H1, H3. reflexivity. }
    assert (O : forall dir s o, process_override E file dir s o = process_override E' file dir s o).
    { intros. unfold process_override. destruct o; auto. destruct (dget _ _) as [v|]; auto.
      destruct (truthy v); auto. destruct v; auto. rewrite !process_table_eq.
      f_equal. apply bind_ext; intro. apply bind_ext; intro. apply bind_ext; intro. now rewrite P. }
    assert (OF : forall dir os s, fold_res (process_override E file dir) os s = fold_res (process_override E' file dir) os s).
    { induction os as [|o os IH]; intro s; cbn [fold_res]; auto. rewrite O. apply bind_ext; auto. }
    assert (M : forall g c, merge_one E file g c = merge_one E' file g c).
    { intros. rewrite !merge_one_eq. cbn zeta. do 5 (apply bind_ext; intro). rewrite P.
      apply bind_ext; intro. apply bind_ext; intro. now rewrite OF. }
    induction cs as [|c cs IH]; intro g; cbn [fold_res]; auto. rewrite M. apply bind_ext; auto. }
  unfold merge_configs. rewrite K. unfold init_state. rewrite <- H2.
  destruct (fold_res (merge_one E' file) (rev raws) _) as [g|e] eqn:Eg; simpl; auto.
  assert (Eg' : merge_configs E' file raws root = Ok (Config file
        (match g_root g with Some r => r | None => [] end) (g_import g)
        (sorted qrule_leb (e_iter E' (s_enable (g_m g)))) (sorted qrule_leb (e_iter E' (s_disable (g_m g))))
        (s_options (g_m g)) (s_python (g_m g)) no_tags (s_formatter (g_m g)) (g_format g) (g_template g), g_warn g)).
  { unfold merge_configs, init_state. rewrite <- H2, Eg. reflexivity. }
  pose proof Eg as Eg2. apply merge_fold_ok in Eg2. destruct Eg2 as [Eg2 _].
  cbn [g_m] in Eg2. rewrite H2 in Eg2. fold (layers_f file raws) in Eg2. apply merge_inv in Eg2.
  pose proof (sset_texts_nodup (i_wf1 Eg2) (i_set1 Eg2)) as N1.
  pose proof (sset_texts_nodup (i_wf2 Eg2) (i_set2 Eg2)) as N2. cbn [fst snd ed] in N1, N2.
  rewrite (@sort_canonical (s_enable (g_m g)) (e_iter E (s_enable (g_m g))) (e_iter E' (s_enable (g_m g)))) by auto.
  rewrite (@sort_canonical (s_disable (g_m g)) (e_iter E (s_disable (g_m g))) (e_iter E' (s_disable (g_m g)))) by auto.
  reflexivity.
Qed.

(** ** C07: overrides *)

(** Two lists of configs with the same applying tables give the same five settings: nothing
    else of the tables matters, and an override that applies counts as a table of its own. *)
Theorem C07_only_layers_matter : forall E file raws raws' root root' c c' w w' ls,
  layers file raws ls -> layers file raws' ls ->
  merge_configs E file raws root = Ok (c, w) -> merge_configs E file raws' root' = Ok (c', w') ->
  c_enable c = c_enable c' /\ c_disable c = c_disable c' /\ c_options c = c_options c' /\
  c_python c = c_python c' /\ c_formatter c = c_formatter c'.
Proof.
  intros E file raws raws' root root' c c' w w' ls L L' H H'.
  apply layers_iff in L. apply layers_iff in L'.
  apply merge_ok in H. destruct H as (s & H & A1 & A2 & A3 & A4 & A5 & _).
  apply merge_ok in H'. destruct H' as (s' & H' & B1 & B2 & B3 & B4 & B5 & _).
  rewrite <- L in H. rewrite <- L' in H'. rewrite H in H'. injection H' as <-. intuition congruence.
Qed.

Lemma ddel_dset : forall A k v (d : dict A), dget k d <> None -> ddel k (dset k v d) = ddel k d.
Proof.
  induction d as [|[k1 v1] d IH]; simpl; intro H; [congruence|].
  destruct (str_eqb k k1) eqn:E1; simpl.
  - now rewrite str_eqb_refl.
  - rewrite E1. f_equal. apply IH. exact H.
Qed.

Lemma ddel_dset_neq : forall A k k' v (d : dict A), k <> k' -> ddel k' (dset k v d) = dset k v (ddel k' d).
Proof.
  induction d as [|[k1 v1] d IH]; simpl; intro Hn.
  - destruct (str_eqb k' k) eqn:E; auto. apply str_eqb_eq in E. congruence.
  - destruct (str_eqb k k1) eqn:E1; simpl.
    + apply str_eqb_eq in E1. subst k1.
      destruct (str_eqb k' k) eqn:E; [apply str_eqb_eq in E; congruence|]. simpl. now rewrite str_eqb_refl.
    + destruct (str_eqb k' k1) eqn:E; [auto|]. simpl. rewrite E1. now rewrite IH.
Qed.

(** A well-formed override that does not apply can be removed without any effect. *)
Theorem C07_inert_override : forall E file root p d far near os1 o os2,
  dget (u "overrides") d = Some (TArr (os1 ++ o :: os2)) ->
  ~ override_applies (parent p) file o ->
  valid_override E file (parent p) o ->
  merge_configs E file (near ++ Raw p d :: far) root =
  merge_configs E file (near ++ Raw p (dset (u "overrides") (TArr (os1 ++ os2)) d) :: far) root.
Proof.
  intros E file root p d far near os1 o os2 Hd Ha Hv.
  assert (HO : forall s, process_override E file (parent p) s o = Ok s).
  { intro s. apply (override_iff E file (parent p) s o) in Hv. destruct Hv as (s' & Hs). rewrite Hs.
    apply override_step in Hs. rewrite <- applies_b_spec in Ha.
    assert (Hn : ov_layer (parent p) file o = []) by (unfold ov_layer; destruct (applies_b _ _ _); [congruence|destruct o; auto]).
    rewrite Hn in Hs. simpl in Hs. congruence. }
  assert (HF : forall s, fold_res (process_override E file (parent p)) (os1 ++ o :: os2) s =
                         fold_res (process_override E file (parent p)) (os1 ++ os2) s).
  { intro s. rewrite !fold_res_app. apply bind_ext. intro s1. cbn [fold_res]. rewrite HO. reflexivity. }
  assert (HR : rest9 (dset (u "overrides") (TArr (os1 ++ os2)) d) = rest9 d).
  { unfold rest9, rest5. rewrite !ddel_dset_neq by (intro; discriminate).
    apply ddel_dset. rewrite !dget_ddel_neq by (intro; discriminate). congruence. }
  assert (HM : forall g, merge_one E file g (Raw p d) =
                         merge_one E file g (Raw p (dset (u "overrides") (TArr (os1 ++ os2)) d))).
  { intro g. rewrite !merge_one_eq. cbn zeta. cbn [rc_data rc_dir rc_path].
    unfold root_after, format_of, given. cbn [rc_data rc_dir rc_path].
    rewrite !dget_dset_neq by (intro; discriminate). rewrite dget_dset_eq, Hd. cbn [as_seq].
    do 6 (apply bind_ext; intro). cbn [bind]. rewrite HF. apply bind_ext. intro s2.
    rewrite HR. rewrite ?dget_dset_neq by (intro; discriminate). reflexivity. }
  unfold merge_configs. rewrite !rev_app_distr. cbn [rev]. rewrite !fold_res_app.
  cbn [fold_res]. rewrite !bind_assoc. apply bind_ext. intro g1.
  rewrite HM. reflexivity.
Qed.

(** ** C08: rule options *)

Theorem C08_options : forall E file raws root c w ls rule,
  merge_configs E file raws root = Ok (c, w) -> layers file raws ls ->
  (forall l, In l ls -> distinct_options (snd l)) ->
  dget rule (c_options c) = last_some (map (fun l => options_for rule (snd l)) ls).
Proof.
  intros E file raws root c w ls rule H Hl Hd. apply layers_iff in Hl. subst ls.
  apply merge_ok in H. destruct H as (s & H & _ & _ & Ho & _). rewrite Ho.
  rewrite (steps_options _ _ _ H Hd). destruct (last_some _); reflexivity.
Qed.

(** ** C09: local rules *)

(** A local rule in the enable list is bound to the directory of a config that enables it: of the
    first one after the rule was last disabled (or from the beginning). *)
Theorem C09_local_root_partial : forall E file raws root c w ls q,
  fair_iteration E ->
  merge_configs E file raws root = Ok (c, w) -> layers file raws ls ->
  In q (c_enable c) -> q_local q <> None ->
  exists before x after, mentions ls = before ++ x :: after /\ names (qrule_str q) x /\ m_enable x = true /\
    q_root q = Some (m_dir x) /\
    ~ last_mention (qrule_str q) true before /\
    (forall y, In y after -> names (qrule_str q) y -> m_enable y = true).
Proof.
  intros E file raws root c w ls q HE H Hl Hq Hloc. apply layers_iff in Hl. subst ls.
  apply merge_ok in H. destruct H as (s & H & He & _). apply merge_inv in H.
  rewrite He in Hq.
  assert (Hi : In q (s_enable s)).
  { eapply Permutation_in; [|exact Hq].
    eapply perm_trans; [apply Permutation_sym, sorted_perm | apply HE]. }
  destruct (i_origin H q Hi) as (l1 & x & l2 & A & B & C & D & F & G).
  exists l1, x, l2. auto 10.
Qed.

(** ** C12: validity *)

Theorem C12_accepts_exactly : forall E file raws root,
  (exists c w, merge_configs E file raws root = Ok (c, w)) <-> valid_configs E file root (rev raws).
Proof.
  intros E file raws root. rewrite <- (merge_fold_iff E file (rev raws) (init_state E root)).
  unfold merge_configs. rewrite <- ok_bind_const with
    (f := fun g => Ok (Config file
        (match g_root g with Some r => r | None => [] end) (g_import g)
        (sorted qrule_leb (e_iter E (s_enable (g_m g)))) (sorted qrule_leb (e_iter E (s_disable (g_m g))))
        (s_options (g_m g)) (s_python (g_m g)) no_tags (s_formatter (g_m g)) (g_format g) (g_template g), g_warn g))
    by auto.
  split.
  - intros (c & w & H). eexists. exact H.
  - intros ([c w] & H). eauto.
Qed.

Theorem C12_formatter_registered : forall E file raws root c w s,
  merge_configs E file raws root = Ok (c, w) -> c_formatter c = Some s -> In s (e_styles E).
Proof.
  intros E file raws root c w s H Hs.
  apply merge_ok in H. destruct H as (st & H & _ & _ & _ & _ & Hf & _). rewrite Hf in Hs.
  assert (K : forall ls s0 s1, fold_res (step E) ls s0 = Ok s1 ->
    (forall t, s_formatter s0 = Some t -> In t (e_styles E)) ->
    (forall t, s_formatter s1 = Some t -> In t (e_styles E))).
  { induction ls as [|l ls IH]; intros s0 s1 H0 Hi; cbn [fold_res] in H0; [injection H0 as <-; auto|].
    apply bind_ok in H0. destruct H0 as (s2 & H1 & H2). apply (IH _ _ H2). intros t Ht.
    unfold step in H1. apply bind_ok in H1. destruct H1 as (a1 & R1 & H1).
    apply bind_ok in H1. destruct H1 as (a2 & R2 & H1). apply bind_ok in H1. destruct H1 as (op & _ & H1).
    apply bind_ok in H1. destruct H1 as (a4 & R4 & H1).
    destruct (fold_enable_rest _ _ _ R1) as (_ & _ & Q1). destruct (fold_disable_rest _ _ _ R2) as (_ & _ & Q2).
    destruct (set_python_ed _ _ _ R4) as (_ & _ & Q4 & _).
    assert (Q : s_formatter a4 = s_formatter s0) by (rewrite Q4; destruct op; simpl; congruence).
    unfold set_formatter in H1. destruct (dget (u "formatter") (snd l)) as [v|].
    2: { injection H1 as <-. apply Hi. congruence. }
    destruct (truthy v).
    2: { injection H1 as <-. apply Hi. congruence. }
    destruct v; try discriminate. destruct (existsb _ _) eqn:Ex; [|discriminate].
    injection H1 as <-. cbn [s_formatter] in Ht. injection Ht as <-.
    apply existsb_exists in Ex. destruct Ex as (y & Hy & Ey). apply str_eqb_eq in Ey. now subst. }
  apply (K _ _ _ H); auto. discriminate.
Qed.
