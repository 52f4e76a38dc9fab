(** * Enable and disable as a fold over the mentions of rules *)
From Coq Require Import String List NArith ZArith Bool Arith Lia Permutation Sorted.
From Verif Require Import Base PyStr Regex Ftypes Paths RuleNameSpec RuleNameFacts RuleNameProps Config ConfigSpec ConfigFacts.
Import ListNotations.
Set Implicit Arguments.

(** ** Parsed rules: equality is equality of text *)

Definition wfq (q : qrule) : Prop := exists s root, parse_rule s root = Ok q.

Lemma wfq_text : forall q, wfq q -> exists local mm n, rule_name local mm n (qrule_str q) /\
  q_module q = (if local then u "." else []) ++ mm /\ q_name q = n /\
  q_local q = (if local then Some (u ".") else None).
Proof.
  intros q (s & root & H). apply parse_rule_ok in H.
  destruct H as (l & mm & n & s0 & Hr & Hs & ->). exists l, mm, n.
  assert (Es : qrule_str (QRule ((if l then u "." else []) ++ mm) n
              (if l then Some (u ".") else None) (if l then Some root else None)) = s0).
  { destruct Hr as (Hm & Hn & E). unfold qrule_str. cbn [q_module q_name]. rewrite E. rewrite <- app_assoc.
    destruct n as [[|c v]|]; simpl; auto. destruct Hn as [Hn _]. congruence. }
  rewrite Es. auto.
Qed.

Lemma opt_eqb_eq : forall (a b : option str), opt_eqb str_eqb a b = true <-> a = b.
Proof.
  intros [a|] [b|]; simpl; split; intro H; try discriminate; auto.
  - apply str_eqb_eq in H. congruence.
  - injection H as ->. apply str_eqb_refl.
Qed.

Lemma qrule_eqb_fields : forall a b, qrule_eqb a b = true <->
  q_module a = q_module b /\ q_name a = q_name b /\ q_local a = q_local b.
Proof.
  intros a b. unfold qrule_eqb. rewrite !andb_true_iff, !opt_eqb_eq, str_eqb_eq. tauto.
Qed.

Lemma qrule_eqb_refl : forall a, qrule_eqb a a = true.
Proof. intro a. apply qrule_eqb_fields. auto. Qed.

Lemma qrule_eqb_sym : forall a b, qrule_eqb a b = qrule_eqb b a.
Proof.
  intros a b. destruct (qrule_eqb a b) eqn:E1, (qrule_eqb b a) eqn:E2; auto.
  - apply qrule_eqb_fields in E1. assert (qrule_eqb b a = true) by (apply qrule_eqb_fields; intuition). congruence.
  - apply qrule_eqb_fields in E2. assert (qrule_eqb a b = true) by (apply qrule_eqb_fields; intuition). congruence.
Qed.

Lemma qrule_eqb_trans : forall a b c, qrule_eqb a b = true -> qrule_eqb b c = true -> qrule_eqb a c = true.
Proof. intros a b c. rewrite !qrule_eqb_fields. intuition congruence. Qed.

Lemma qrule_eqb_text : forall a b, wfq a -> wfq b -> (qrule_eqb a b = true <-> qrule_str a = qrule_str b).
Proof.
  intros a b Ha Hb. rewrite qrule_eqb_fields. split.
  - intros (H1 & H2 & _). unfold qrule_str. now rewrite H1, H2.
  - intro H. destruct (wfq_text Ha) as (l1 & m1 & n1 & R1 & A1 & A2 & A3).
    destruct (wfq_text Hb) as (l2 & m2 & n2 & R2 & B1 & B2 & B3).
    rewrite H in R1. destruct (rule_name_unique R1 R2) as (-> & -> & ->).
    rewrite A1, A2, A3, B1, B2, B3. auto.
Qed.

(** ** Sets of parsed rules *)

Definition texts (l : list qrule) : list str := map qrule_str l.

Lemma smem_text : forall q l, wfq q -> Forall wfq l ->
  (smem qrule_eqb q l = true <-> In (qrule_str q) (texts l)).
Proof.
  intros q l Hq Hl. unfold smem, texts. rewrite existsb_exists, in_map_iff. rewrite Forall_forall in Hl.
  split; intros (x & H1 & H2).
  - exists x. split; auto. symmetry. apply qrule_eqb_text; auto.
  - exists x. split; auto. apply qrule_eqb_text; auto.
Qed.

Lemma sadd_text : forall q l t, wfq q -> Forall wfq l ->
  (In t (texts (sadd qrule_eqb q l)) <-> t = qrule_str q \/ In t (texts l)).
Proof.
  intros q l t Hq Hl. unfold sadd. destruct (smem qrule_eqb q l) eqn:E.
  - apply smem_text in E; auto. split; auto. intros [->|H]; auto.
  - unfold texts. rewrite map_app, in_app_iff. simpl. intuition.
Qed.

Lemma sdiscard_text : forall q l t, wfq q -> Forall wfq l ->
  (In t (texts (sdiscard qrule_eqb q l)) <-> t <> qrule_str q /\ In t (texts l)).
Proof.
  intros q l t Hq Hl. unfold sdiscard, texts. rewrite Forall_forall in Hl.
  rewrite !in_map_iff. split.
  - intros (x & Hx & H). apply filter_In in H. destruct H as [H1 H2]. split; eauto.
    intro Et. apply negb_true_iff in H2.
    assert (qrule_eqb q x = true) by (apply qrule_eqb_text; auto; congruence). congruence.
  - intros (Hn & x & Hx & H). exists x. split; auto. apply filter_In. split; auto.
    apply negb_true_iff. destruct (qrule_eqb q x) eqn:E; auto.
    apply qrule_eqb_text in E; auto. congruence.
Qed.

Lemma sadd_wf : forall q l, wfq q -> Forall wfq l -> Forall wfq (sadd qrule_eqb q l).
Proof.
  intros. unfold sadd. destruct (smem qrule_eqb q l); auto. apply Forall_app. split; auto.
Qed.

Lemma sdiscard_wf : forall q l, Forall wfq l -> Forall wfq (sdiscard qrule_eqb q l).
Proof.
  intros q l H. unfold sdiscard. rewrite Forall_forall in *. intros x Hx. apply filter_In in Hx. apply H. tauto.
Qed.

(** ** The fold *)

Definition estate := (list qrule * list qrule)%type.

Definition apply_mention (e : estate) (x : mention) : res estate :=
  let! q := parse_rule_toml (m_value x) (m_dir x) in
  Ok (if m_enable x then (sadd qrule_eqb q (fst e), sdiscard qrule_eqb q (snd e))
      else (sdiscard qrule_eqb q (fst e), sadd qrule_eqb q (snd e))).

Definition ed (s : mstate) : estate := (s_enable s, s_disable s).

Lemma enable_mentions : forall dir l s s', fold_res (add_enable dir) l s = Ok s' ->
  fold_res apply_mention (map (Mention dir true) l) (ed s) = Ok (ed s').
Proof.
  induction l as [|v l IH]; intros s s' H; cbn [fold_res map] in *.
  - congruence.
  - apply bind_ok in H. destruct H as (s1 & H1 & H2). apply IH in H2.
    unfold add_enable in H1. apply bind_ok in H1. destruct H1 as (q & Hq & H1). injection H1 as <-.
    unfold apply_mention at 1. cbn [m_value m_dir m_enable]. rewrite Hq. simpl. exact H2.
Qed.

Lemma disable_mentions : forall dir l s s', fold_res (add_disable dir) l s = Ok s' ->
  fold_res apply_mention (map (Mention dir false) l) (ed s) = Ok (ed s').
Proof.
  induction l as [|v l IH]; intros s s' H; cbn [fold_res map] in *.
  - congruence.
  - apply bind_ok in H. destruct H as (s1 & H1 & H2). apply IH in H2.
    unfold add_disable in H1. apply bind_ok in H1. destruct H1 as (q & Hq & H1). injection H1 as <-.
    unfold apply_mention at 1. cbn [m_value m_dir m_enable]. rewrite Hq. simpl. exact H2.
Qed.

Lemma set_python_ed : forall E v s s', set_python E v s = Ok s' ->
  ed s' = ed s /\ s_options s' = s_options s /\ s_formatter s' = s_formatter s /\
  s_python s' = match v with
                | None => s_python s
                | Some x => if truthy x then match x with TStr t => Some t | _ => None end else None
                end.
Proof.
  intros E v s s' H. unfold set_python in H. destruct v as [x|]; [|injection H as <-; auto].
  destruct (truthy x).
  - destruct x; try discriminate. destruct (e_version_ok E s0); [|discriminate]. injection H as <-. auto.
  - injection H as <-. auto.
Qed.

Lemma set_formatter_ed : forall E v s s', set_formatter E v s = Ok s' ->
  ed s' = ed s /\ s_options s' = s_options s /\ s_python s' = s_python s /\
  s_formatter s' = match v with
                | None => s_formatter s
                | Some x => if truthy x then match x with TStr t => Some t | _ => None end else s_formatter s
                end.
Proof.
  intros E v s s' H. unfold set_formatter in H. destruct v as [x|]; [|injection H as <-; auto].
  destruct (truthy x).
  - destruct x; try discriminate. destruct (existsb _ _); [|discriminate]. injection H as <-. auto.
  - injection H as <-. auto.
Qed.

Lemma fold_enable_rest : forall dir l s s', fold_res (add_enable dir) l s = Ok s' ->
  s_options s' = s_options s /\ s_python s' = s_python s /\ s_formatter s' = s_formatter s.
Proof.
  induction l as [|v l IH]; intros s s' H; cbn [fold_res] in *.
  - injection H as <-. auto.
  - apply bind_ok in H. destruct H as (s1 & H1 & H2). apply IH in H2.
    unfold add_enable in H1. apply bind_ok in H1. destruct H1 as (q & Hq & H1). injection H1 as <-. exact H2.
Qed.

Lemma fold_disable_rest : forall dir l s s', fold_res (add_disable dir) l s = Ok s' ->
  s_options s' = s_options s /\ s_python s' = s_python s /\ s_formatter s' = s_formatter s.
Proof.
  induction l as [|v l IH]; intros s s' H; cbn [fold_res] in *.
  - injection H as <-. auto.
  - apply bind_ok in H. destruct H as (s1 & H1 & H2). apply IH in H2.
    unfold add_disable in H1. apply bind_ok in H1. destruct H1 as (q & Hq & H1). injection H1 as <-. exact H2.
Qed.

Definition py_of (v : option toml) (cur : option str) : option str :=
  match v with
  | None => cur
  | Some x => if truthy x then match x with TStr t => Some t | _ => None end else None
  end.

Definition fm_of (v : option toml) (cur : option str) : option str :=
  match v with
  | None => cur
  | Some x => if truthy x then match x with TStr t => Some t | _ => None end else cur
  end.

Lemma step_ok : forall E s l s', step E s l = Ok s' ->
  fold_res apply_mention (mentions_of l) (ed s) = Ok (ed s') /\
  s_python s' = py_of (dget (u "python-version") (snd l)) (s_python s) /\
  s_formatter s' = fm_of (dget (u "formatter") (snd l)) (s_formatter s) /\
  exists op, as_options (dget (u "options") (snd l)) = Ok op /\ s_options s' = dupdate (s_options s) op.
Proof.
  intros E s l s' H. unfold step in H.
  apply bind_ok in H. destruct H as (s1 & H1 & H).
  apply bind_ok in H. destruct H as (s2 & H2 & H).
  apply bind_ok in H. destruct H as (op & Hop & H).
  apply bind_ok in H. destruct H as (s4 & H4 & H5).
  set (s3 := match op with [] => s2 | _ => _ end) in *.
  assert (E3 : ed s3 = ed s2 /\ s_python s3 = s_python s2 /\ s_formatter s3 = s_formatter s2 /\
               s_options s3 = dupdate (s_options s2) op).
  { subst s3. destruct op; auto. }
  clearbody s3. destruct E3 as (A1 & A2 & A3 & A4).
  destruct (set_python_ed _ _ _ H4) as (B1 & B2 & B3 & B4).
  destruct (set_formatter_ed _ _ _ H5) as (C1 & C2 & C3 & C4).
  destruct (fold_enable_rest _ _ _ H1) as (D1 & D2 & D3).
  destruct (fold_disable_rest _ _ _ H2) as (F1 & F2 & F3).
  split; [|split; [|split]].
  - unfold mentions_of. rewrite fold_res_app, (enable_mentions _ _ _ H1). simpl.
    rewrite (disable_mentions _ _ _ H2). congruence.
  - unfold py_of. rewrite C3, B4, A2, F2, D2. reflexivity.
  - unfold fm_of. rewrite C4, B3, A3, F3, D3. reflexivity.
  - exists op. split; auto. congruence.
Qed.

Lemma last_given_truthy : forall k (ls : list (path * table)) v,
  last_some (map (fun l => given k (snd l)) ls) = Some v -> truthy v = true.
Proof.
  induction ls as [|l ls IH]; simpl; intros v H; [discriminate|].
  destruct (last_some (map (fun l => given k (snd l)) ls)) as [w|].
  - apply IH. exact H.
  - unfold given in H. destruct (dget (u k) (snd l)) as [w|]; [|discriminate].
    destruct (truthy w) eqn:Ew; [|discriminate]. congruence.
Qed.

Lemma steps_ok : forall E ls s s', fold_res (step E) ls s = Ok s' ->
  fold_res apply_mention (flat_map mentions_of ls) (ed s) = Ok (ed s') /\
  s_python s' = py_of (last_some (map (fun l => dget (u "python-version") (snd l)) ls)) (s_python s) /\
  s_formatter s' = fm_of (last_some (map (fun l => given "formatter" (snd l)) ls)) (s_formatter s).
Proof.
  induction ls as [|l ls IH]; intros s s' H; cbn [fold_res flat_map map last_some] in *.
  - injection H as <-. auto.
  - apply bind_ok in H. destruct H as (s1 & H1 & H2).
    destruct (step_ok _ _ _ H1) as (A & B & C & _). destruct (IH _ _ H2) as (A2 & B2 & C2).
    split; [|split].
    + rewrite fold_res_app, A. exact A2.
    + rewrite B2, B. destruct (last_some _); reflexivity.
    + rewrite C2, C.
      pose proof (last_given_truthy "formatter" ls) as Ht.
      destruct (last_some (map (fun l => given "formatter" (snd l)) ls)) as [v|].
      { unfold fm_of. now rewrite (Ht v eq_refl). }
      simpl.
      unfold given, fm_of. destruct (dget (u "formatter") (snd l)) as [v|]; auto.
      destruct (truthy v) eqn:Ev; auto. now rewrite Ev.
Qed.

(** ** Last mentions *)

Lemma names_dec : forall t x, names t x \/ ~ names t x.
Proof.
  intros t x. unfold names. destruct (m_value x) as [s| | | | | |]; try (right; intros [H|H]; discriminate).
  destruct (str_eq_dec s t) as [->|H1]; auto.
  destruct (str_eq_dec s (t ++ [10%N])) as [->|H2]; auto.
  right. intros [H|H]; congruence.
Qed.

Lemma last_mention_nil : forall t b, ~ last_mention t b [].
Proof. intros t b (l1 & x & l2 & H & _). destruct l1; discriminate. Qed.

Lemma last_mention_snoc : forall t b ms x,
  last_mention t b (ms ++ [x]) <->
  (names t x /\ m_enable x = b) \/ (~ names t x /\ last_mention t b ms).
Proof.
  intros t b ms x. split.
  - intros (l1 & y & l2 & E & H1 & H2 & H3).
    destruct l2 as [|z l2 _] using rev_ind.
    + apply app_inj_tail in E. destruct E as [-> ->]. auto.
    + rewrite app_comm_cons, app_assoc in E. apply app_inj_tail in E. destruct E as [-> ->].
      right. split.
      * apply H3. apply in_app_iff. simpl. auto.
      * exists l1, y, l2. repeat split; auto. intros w Hw. apply H3. apply in_app_iff. auto.
  - intros [[H1 H2]|[H1 (l1 & y & l2 & -> & H2 & H3 & H4)]].
    + exists ms, x, []. repeat split; auto.
    + exists l1, y, (l2 ++ [x]). rewrite app_comm_cons, app_assoc. repeat split; auto.
      intros w Hw. apply in_app_iff in Hw. destruct Hw as [Hw|[<-|[]]]; auto.
Qed.


(** ** The invariant of the fold *)


Lemma parse_toml_wf : forall v d q, parse_rule_toml v d = Ok q -> wfq q.
Proof. intros v d q H. unfold parse_rule_toml in H. destruct v; try discriminate. exists s, d. exact H. Qed.

Lemma parse_names : forall x q local mm n t,
  parse_rule_toml (m_value x) (m_dir x) = Ok q -> rule_name local mm n t ->
  (names t x <-> t = qrule_str q).
Proof.
  intros x q local mm n t Hq Ht. pose proof (parse_toml_wf _ _ Hq) as Hw.
  destruct (wfq_text Hw) as (l2 & m2 & n2 & Hr & _).
  destruct (rule_name_chars Hr) as [_ Hn2].
  unfold parse_rule_toml in Hq. unfold names.
  destruct (m_value x) as [s| | | | | |]; try discriminate.
  apply C13_parse_rule_str in Hq. change (u "
") with [10%N] in Hq.
  destruct (rule_name_chars Ht) as [_ Hn]. split.
  - intros [H|H]; injection H as ->; destruct Hq as [Hq|Hq]; auto.
    + exfalso. apply (Hn _ Hq).
    + exfalso. apply (Hn2 t). auto.
    + apply app_inj_tail in Hq. tauto.
  - intros ->. destruct Hq as [-> | ->]; auto.
Qed.

(** The mention that put [q] into the enabled set. *)
Definition origin (ms : list mention) (q : qrule) : Prop :=
  exists l1 x l2, ms = l1 ++ x :: l2 /\ names (qrule_str q) x /\ m_enable x = true /\
    (q_local q <> None -> q_root q = Some (m_dir x)) /\
    ~ last_mention (qrule_str q) true l1 /\
    (forall y, In y l2 -> names (qrule_str q) y -> m_enable y = true).

Record inv (ms : list mention) (e : estate) : Prop := Inv {
  i_wf1 : Forall wfq (fst e);
  i_wf2 : Forall wfq (snd e);
  i_set1 : sset qrule_eqb (fst e);
  i_set2 : sset qrule_eqb (snd e);
  i_en : forall local mm n t, rule_name local mm n t ->
         (In t (texts (fst e)) <-> last_mention t true ms);
  i_dis : forall local mm n t, rule_name local mm n t ->
         (In t (texts (snd e)) <-> last_mention t false ms);
  i_origin : forall q, In q (fst e) -> origin ms q }.

Lemma inv_nil : inv [] ([], []).
Proof.
  apply Inv; cbn [fst snd texts map].
  - apply Forall_nil.
  - apply Forall_nil.
  - apply sset_nil.
  - apply sset_nil.
  - intros l mm n t _; split; intro H; [contradiction | destruct (last_mention_nil H)].
  - intros l mm n t _; split; intro H; [contradiction | destruct (last_mention_nil H)].
  - intros q [].
Qed.

Lemma parse_root : forall v d q, parse_rule_toml v d = Ok q -> q_local q <> None -> q_root q = Some d.
Proof.
  intros v d q H Hl. unfold parse_rule_toml in H. destruct v; try discriminate.
  apply parse_rule_ok in H. destruct H as (l & mm & n & s0 & _ & _ & ->). simpl in *.
  destruct l; congruence.
Qed.

Lemma inv_snoc : forall ms e x e', inv ms e -> apply_mention e x = Ok e' -> inv (ms ++ [x]) e'.
Proof.
  intros ms e x e' I H. unfold apply_mention in H. apply bind_ok in H. destruct H as (q & Hq & H).
  injection H as <-. pose proof (parse_toml_wf _ _ Hq) as Hw.
  destruct I as [W1 W2 S1 S2 En Di Or]. destruct e as [en dis]. cbn [fst snd] in *.
  destruct (wfq_text Hw) as (lq & mq & nq & Rq & _).
  destruct (m_enable x) eqn:Ex.
  - split; cbn [fst snd].
    + now apply sadd_wf.
    + now apply sdiscard_wf.
    + apply sset_sadd; auto using qrule_eqb_refl, qrule_eqb_sym.
    + apply sset_sdiscard; auto using qrule_eqb_refl, qrule_eqb_sym. exact qrule_eqb_trans.
    + intros l mm n t Ht. rewrite sadd_text, last_mention_snoc, (En l mm n t Ht) by auto.
      pose proof (@parse_names x q l mm n t Hq Ht) as Hn. rewrite <- Hn, Ex.
      destruct (names_dec t x); tauto.
    + intros l mm n t Ht. rewrite sdiscard_text, last_mention_snoc, (Di l mm n t Ht) by auto.
      pose proof (@parse_names x q l mm n t Hq Ht) as Hn. rewrite <- Hn, Ex.
      destruct (names_dec t x); intuition congruence.
    + intros p Hp. unfold sadd in Hp. destruct (smem qrule_eqb q en) eqn:Em.
      * destruct (Or p Hp) as (l1 & y & l2 & -> & A & B & C & D & F).
        exists l1, y, (l2 ++ [x]). rewrite app_comm_cons, app_assoc. split; auto. split; auto.
        split; auto. split; auto. split; auto.
        intros z Hz Hnz. apply in_app_iff in Hz. destruct Hz as [Hz|[<-|[]]]; auto.
      * apply in_app_iff in Hp. destruct Hp as [Hp|[<-|[]]].
        -- destruct (Or p Hp) as (l1 & y & l2 & -> & A & B & C & D & F).
           exists l1, y, (l2 ++ [x]). rewrite app_comm_cons, app_assoc. split; auto. split; auto.
           split; auto. split; auto. split; auto.
           intros z Hz Hnz. apply in_app_iff in Hz. destruct Hz as [Hz|[<-|[]]]; auto.
        -- exists ms, x, []. split; auto. split.
           { apply (@parse_names x q lq mq nq _ Hq Rq). reflexivity. }
           split; auto. split; [exact (parse_root _ _ Hq)|]. split.
           { rewrite <- (En lq mq nq _ Rq). intro Hi. apply smem_text in Hi; auto. congruence. }
           intros y [].
  - split; cbn [fst snd].
    + now apply sdiscard_wf.
    + now apply sadd_wf.
    + apply sset_sdiscard; auto using qrule_eqb_refl, qrule_eqb_sym. exact qrule_eqb_trans.
    + apply sset_sadd; auto using qrule_eqb_refl, qrule_eqb_sym.
    + intros l mm n t Ht. rewrite sdiscard_text, last_mention_snoc, (En l mm n t Ht) by auto.
      pose proof (@parse_names x q l mm n t Hq Ht) as Hn. rewrite <- Hn, Ex.
      destruct (names_dec t x); intuition congruence.
    + intros l mm n t Ht. rewrite sadd_text, last_mention_snoc, (Di l mm n t Ht) by auto.
      pose proof (@parse_names x q l mm n t Hq Ht) as Hn. rewrite <- Hn, Ex.
      destruct (names_dec t x); tauto.
    + intros p Hp.
      assert (Hp2 : In (qrule_str p) (texts (sdiscard qrule_eqb q en)))
        by (unfold texts; apply in_map_iff; eauto).
      apply sdiscard_text in Hp2; auto. destruct Hp2 as [Hne _].
      unfold sdiscard in Hp. apply filter_In in Hp. destruct Hp as [Hp _].
      destruct (Or p Hp) as (l1 & y & l2 & -> & A & B & C & D & F).
      exists l1, y, (l2 ++ [x]). rewrite app_comm_cons, app_assoc. split; auto. split; auto.
      split; auto. split; auto. split; auto.
      intros z Hz Hnz. apply in_app_iff in Hz. destruct Hz as [Hz|[<-|[]]]; auto.
      exfalso. rewrite Forall_forall in W1. destruct (wfq_text (W1 p Hp)) as (lp & mp & np & Rp & _).
      apply (@parse_names x q lp mp np _ Hq Rp) in Hnz. contradiction.
Qed.

Lemma inv_fold : forall ms2 ms1 e e', inv ms1 e -> fold_res apply_mention ms2 e = Ok e' -> inv (ms1 ++ ms2) e'.
Proof.
  induction ms2 as [|x ms2 IH]; intros ms1 e e' I H; cbn [fold_res] in H.
  - injection H as <-. now rewrite app_nil_r.
  - apply bind_ok in H. destruct H as (e1 & H1 & H2).
    replace (ms1 ++ x :: ms2) with ((ms1 ++ [x]) ++ ms2) by now rewrite <- app_assoc.
    apply IH with e1; auto. eapply inv_snoc; eauto.
Qed.

Lemma merge_inv : forall E ls s,
  fold_res (step E) ls (MState [default_rules] [] [] (Some (e_running E)) None) = Ok s ->
  inv (mentions ls) (ed s).
Proof.
  intros E ls s H. apply steps_ok in H. destruct H as [H _].
  unfold mentions. change (Mention [] true (TStr (u "fixit.rules")) :: flat_map mentions_of ls)
    with ([Mention [] true (TStr (u "fixit.rules"))] ++ flat_map mentions_of ls).
  apply inv_fold with ([default_rules], []); [|exact H].
  change [Mention [] true (TStr (u "fixit.rules"))] with ([] ++ [Mention [] true (TStr (u "fixit.rules"))]).
  apply inv_snoc with ([], []); [apply inv_nil | vm_compute; reflexivity].
Qed.

(** ** Sorting by text *)

Lemma qrule_leb_total : forall x y, qrule_leb x y = true \/ qrule_leb y x = true.
Proof. intros. apply str_leb_total. Qed.

Lemma qrule_leb_trans : forall x y z, qrule_leb x y = true -> qrule_leb y z = true -> qrule_leb x z = true.
Proof. intros x y z. apply str_leb_trans. Qed.

Lemma sset_texts_nodup : forall l, Forall wfq l -> sset qrule_eqb l -> NoDup (texts l).
Proof.
  intros l W H. induction H as [|x l Hx H IH]; [constructor|]. inversion W; subst.
  unfold texts in *. simpl. constructor; auto. intro Hi.
  assert (smem qrule_eqb x l = true) by (apply smem_text; auto). congruence.
Qed.

Lemma sort_canonical : forall l l1 l2, NoDup (texts l) ->
  Permutation l1 l -> Permutation l2 l -> sorted qrule_leb l1 = sorted qrule_leb l2.
Proof.
  intros l l1 l2 Hn P1 P2.
  assert (P : Permutation (sorted qrule_leb l1) l)
    by (eapply perm_trans; [apply Permutation_sym, sorted_perm | exact P1]).
  apply sorted_unique with (leb := qrule_leb).
  - apply sorted_sorted; [apply qrule_leb_total | apply qrule_leb_trans].
  - apply sorted_sorted; [apply qrule_leb_total | apply qrule_leb_trans].
  - eapply perm_trans; [exact P|]. apply Permutation_sym.
    eapply perm_trans; [apply Permutation_sym, sorted_perm | exact P2].
  - intros x y Hx Hy A B. unfold qrule_leb in *. pose proof (@str_leb_antisym _ _ A B) as Et.
    apply (Permutation_in _ P) in Hx. apply (Permutation_in _ P) in Hy.
    clear -Hn Hx Hy Et. induction l as [|z l IH]; [contradiction|].
    unfold texts in *. simpl in Hn. inversion Hn; subst.
    destruct Hx as [->|Hx], Hy as [->|Hy]; auto.
    + exfalso. apply H1. rewrite Et. now apply in_map.
    + exfalso. apply H1. rewrite <- Et. now apply in_map.
Qed.
