(** * Lemmas about parse_rule *)
From Coq Require Import String List NArith Bool Arith Lia.
From Verif Require Import Base PyStr Regex Ftypes RuleNameSpec.
Import ListNotations.
Set Implicit Arguments.

Lemma cls_word_spec : forall c, cls_word c = true <-> name_char c.
Proof.
  intro c. unfold cls_word, is_ascii_alnum, name_char.
  rewrite !orb_true_iff, !andb_true_iff, !N.leb_le, N.eqb_eq. tauto.
Qed.

Lemma cls_word_dash_spec : forall c, cls_word_dash c = true <-> name_char_dash c.
Proof.
  intro c. unfold cls_word_dash, name_char_dash. rewrite orb_true_iff, N.eqb_eq, cls_word_spec. tauto.
Qed.

Lemma forallb_Forall : forall (p : N -> bool) P, (forall c, p c = true <-> P c) ->
  forall w, forallb p w = true <-> Forall P w.
Proof.
  intros p P H w. rewrite forallb_forall, Forall_forall. split; intros Hx x Hi; apply H; auto.
Qed.

Lemma word_F : forall w, forallb cls_word w = true <-> Forall name_char w.
Proof. apply forallb_Forall. apply cls_word_spec. Qed.

Lemma dash_F : forall w, forallb cls_word_dash w = true <-> Forall name_char_dash w.
Proof. apply forallb_Forall. apply cls_word_dash_spec. Qed.

Lemma consumed_app : forall w t b b' k k',
  consumed (St b (w ++ t) k) (St b' t k') = w.
Proof.
  intros. unfold consumed. simpl. rewrite app_length.
  replace (length w + length t - length t) with (length w) by lia.
  rewrite firstn_app, Nat.sub_diag, firstn_all. simpl. apply app_nil_r.
Qed.

(** Characters of module names. *)
Lemma module_name_chars : forall mm, module_name mm ->
  mm <> [] /\ (forall c, In c mm -> name_char_dash c \/ c = 46%N) /\
  (exists c t, mm = c :: t /\ name_char c).
Proof.
  induction 1 as [w Hne Hw | mm w Hm IH Hne Hw].
  - split; auto. split.
    + intros c Hc. left. left. rewrite Forall_forall in Hw. auto.
    + destruct w as [|c t]; [congruence|]. exists c, t. split; auto. now inversion Hw.
  - destruct IH as (H1 & H2 & c & t & E & Hc). split; [|split].
    + subst mm. discriminate.
    + intros d Hd. apply in_app_iff in Hd. destruct Hd as [Hd|Hd]; auto.
      simpl in Hd. destruct Hd as [<-|Hd]; auto. left. rewrite Forall_forall in Hw. auto.
    + subst mm. exists c, (t ++ u "." ++ w). auto.
Qed.

(** The star over [.word] parts: consumed text extends a module name to a module name. *)
Definition dotword : re := Grp 3 (Cat (Chr (N.eqb 46)) (Plus (Chr cls_word_dash))).

Definition no_groups (ks : list nat) (k k' : list (nat * str)) : Prop :=
  forall g, In g ks -> group g k' = group g k.

Lemma dotword_chain : forall s x, star_chain (m dotword) s x ->
  forall pre, module_name pre ->
  exists w, st_rest s = w ++ st_rest x /\ module_name (pre ++ w) /\
            no_groups [1; 2; 4] (st_caps s) (st_caps x).
Proof.
  induction 1 as [s | s s1 s2 Hin Hlt Hch IH]; intros pre Hpre.
  - exists []. rewrite app_nil_r. repeat split; auto.
  - unfold dotword in Hin. cbn [m] in Hin. apply in_map_iff in Hin.
    destruct Hin as (y & <- & Hy). apply in_flat_map in Hy. destruct Hy as (z & Hz & Hy).
    destruct s as [b r k]. cbn [st_rest st_caps] in *.
    destruct r as [|c r]; [contradiction|].
    destruct (N.eqb_spec 46 c); [|contradiction]. subst c. destruct Hz as [<-|[]].
    apply in_plus_chr in Hy. destruct Hy as (w & t & -> & Hne & Hw & ->).
    cbn [st_rest st_caps st_bos] in *.
    assert (Hm : module_name (pre ++ u "." ++ w)).
    { apply mn_dot; auto. now apply dash_F. }
    destruct (IH _ Hm) as (w' & E & Hm' & Hg).
    exists (46%N :: w ++ w'). split; [|split].
    + rewrite E. simpl. now rewrite <- app_assoc.
    + rewrite <- app_assoc in Hm'. simpl in Hm'. exact Hm'.
    + intros g Hgi. rewrite (Hg g Hgi). simpl in Hgi.
      destruct Hgi as [<-|[<-|[<-|[]]]]; reflexivity.
Qed.

Lemma in_lit_dot : forall b s k x, In x (m (Grp 2 (Chr (N.eqb 46))) (St b s k)) ->
  exists t, s = u "." ++ t /\ x = St false t ((2, u ".") :: k).
Proof.
  intros b s k x H. cbn [m] in H. apply in_map_iff in H. destruct H as (y & <- & Hy).
  cbn [st_rest st_caps] in Hy. destruct s as [|c t]; [contradiction|].
  destruct (N.eqb_spec 46 c); [|contradiction]. subst. destruct Hy as [<-|[]].
  exists t. split; auto. cbn [st_bos st_rest st_caps].
  change (46%N :: t) with ([46%N] ++ t). now rewrite consumed_app.
Qed.

(** Every success of the regex is a reading of the string by the grammar. *)
Lemma qrr_sound : forall s x, In x (m QualifiedRuleRegex (St true s [])) ->
  exists local mm n nl,
    (nl = [] \/ nl = [10%N]) /\
    rule_name local mm n (firstn (length s - length nl) s) /\ s = firstn (length s - length nl) s ++ nl /\
    group 1 (st_caps x) = Some ((if local then u "." else []) ++ mm) /\
    group 2 (st_caps x) = (if local then Some (u ".") else None) /\
    group 4 (st_caps x) = n.
Proof.
  intros s x H. unfold QualifiedRuleRegex in H. cbn [m st_bos flat_map] in H.
  rewrite app_nil_r in H. fold dotword in H.
  apply in_flat_map in H. destruct H as (y & Hy & H).
  (* module group *)
  apply in_map_iff in Hy. destruct Hy as (y0 & <- & Hy).
  apply in_flat_map in Hy. destruct Hy as (z & Hz & Hy).
  apply in_flat_map in Hy. destruct Hy as (z1 & Hz1 & Hy).
  assert (HL : exists (local : bool) t, s = (if local then u "." else []) ++ t /\ st_rest z = t /\
     st_caps z = if local then [(2, u ".")] else []).
  { unfold Opt in Hz. cbn [m] in Hz. apply in_app_iff in Hz. destruct Hz as [Hz|Hz].
    - apply (@in_lit_dot true s [] z) in Hz. destruct Hz as (t & E & ->).
      exists true, t. auto.
    - destruct Hz as [<-|[]]. exists false, s. auto. }
  destruct HL as (local & t & Es & Ez & Ek).
  destruct z as [bz rz kz]. cbn [st_rest st_caps] in Ez, Ek. subst rz.
  apply in_plus_chr in Hz1. destruct Hz1 as (w & t1 & -> & Hne & Hw & ->).
  assert (Hm : module_name w).
  { constructor; auto. now apply word_F. }
  cbn [st_rest] in Hy.
  apply in_star in Hy; [|cbn [st_rest]; lia].
  apply dotword_chain with (pre := w) in Hy; auto.
  destruct Hy as (w' & E1 & Hm' & Hg). cbn [st_rest st_caps] in *.
  (* name group and end *)
  apply in_flat_map in H. destruct H as (q & Hq & H).
  assert (HE : exists nl, (nl = [] \/ nl = [10%N]) /\ st_rest q = nl /\ x = q).
  { destruct q as [bq rq kq]. cbn [st_rest] in H. destruct rq as [|c [|? ?]].
    - destruct H as [<-|[]]. exists []. auto.
    - destruct (N.eqb_spec c 10); [|contradiction]. subst. destruct H as [<-|[]].
      exists [10%N]. auto.
    - contradiction. }
  destruct HE as (nl & Hnl & Eq & ->).
  set (gm := consumed (St true s []) y0) in *.
  assert (Egm : gm = (if local then u "." else []) ++ w ++ w').
  { subst gm. destruct y0 as [by0 ry ky]. cbn [st_rest] in *.
    rewrite Es, E1, !app_assoc. apply consumed_app. }
  assert (HN : exists n, rule_part n /\
     st_rest y0 = match n with None => [] | Some v => u ":" ++ v end ++ nl /\
     group 1 (st_caps q) = Some gm /\ group 2 (st_caps q) = group 2 (st_caps y0) /\
     group 4 (st_caps q) = (match n with None => group 4 (st_caps y0) | _ => n end)).
  { unfold Opt in Hq. cbn [m] in Hq. apply in_app_iff in Hq. destruct Hq as [Hq|Hq].
    - apply in_flat_map in Hq. destruct Hq as (a & Ha & Hq). cbn [st_rest st_caps] in Ha.
      destruct (st_rest y0) as [|c r]; [contradiction|].
      destruct (N.eqb_spec 58 c); [|contradiction]. subst c. destruct Ha as [<-|[]].
      apply in_map_iff in Hq. destruct Hq as (e & <- & He).
      apply in_plus_chr in He. destruct He as (v & t2 & -> & Hv & Hvc & ->).
      cbn [st_rest st_caps st_bos] in *. subst t2.
      exists (Some v). split; [|split; [reflexivity|]].
      + split; auto. now apply dash_F.
      + cbn [group Nat.eqb]. rewrite consumed_app. auto.
    - destruct Hq as [<-|[]]. cbn [st_rest st_caps] in *. exists None.
      repeat split; simpl; auto. }
  destruct HN as (n & Hn & En & G1 & G2 & G4).
  assert (Hs : s = ((if local then u "." else []) ++ (w ++ w') ++
                  match n with None => [] | Some v => u ":" ++ v end) ++ nl).
  { rewrite Es, E1, En. now rewrite <- !app_assoc. }
  assert (Hf : firstn (length s - length nl) s = (if local then u "." else []) ++ (w ++ w') ++
                  match n with None => [] | Some v => u ":" ++ v end).
  { rewrite Hs at 1 2. rewrite app_length.
    match goal with |- context [?a + ?b - ?b] => replace (a + b - b) with a by lia end.
    rewrite firstn_app, Nat.sub_diag, firstn_all. simpl. apply app_nil_r. }
  exists local, (w ++ w'), n, nl. split; [exact Hnl|]. rewrite Hf.
  split; [|split; [exact Hs|split; [|split]]].
  - split; [exact Hm'|]. split; auto.
  - rewrite G1, Egm. reflexivity.
  - rewrite G2, (Hg 2) by (simpl; auto). rewrite Ek. destruct local; reflexivity.
  - rewrite G4. destruct n; auto. rewrite (Hg 4) by (simpl; auto). rewrite Ek.
    destruct local; reflexivity.
Qed.

(** Splitting a module name for the regex: a first word and a rest matched by the star. *)
Lemma module_name_star : forall mm, module_name mm -> exists w r, mm = w ++ r /\ w <> [] /\
  forallb cls_word w = true /\
  forall t b k, exists b' k', star_chain (m dotword) (St b (r ++ t) k) (St b' t k').
Proof.
  induction 1 as [w Hne Hw | mm w Hm IH Hne Hw].
  - exists w, []. rewrite app_nil_r. repeat split; auto.
    + now apply word_F.
    + intros t b k. exists b, k. constructor.
  - destruct IH as (w0 & r & -> & H1 & H2 & H3).
    exists w0, (r ++ u "." ++ w). rewrite <- app_assoc. repeat split; auto.
    intros t b k. rewrite <- !app_assoc.
    destruct (H3 (u "." ++ w ++ t) b k) as (b1 & k1 & Hc).
    assert (Hstep : exists k2, In (St false t k2) (m dotword (St b1 (u "." ++ w ++ t) k1))).
    { unfold dotword. cbn [m]. eexists. apply in_map_iff.
      exists (St false t k1). split; [reflexivity|]. apply in_flat_map.
      exists (St false (w ++ t) k1). split; [simpl; auto|].
      apply in_plus_chr. exists w, t. repeat split; auto.
      now apply dash_F. }
    destruct Hstep as (k2 & Hstep). exists false, k2.
    assert (Happ : forall a, star_chain (m dotword) a (St b1 (u "." ++ w ++ t) k1) ->
                   star_chain (m dotword) a (St false t k2)).
    { intros a Ha. remember (St b1 (u "." ++ w ++ t) k1) as e eqn:Ee.
      induction Ha as [s0 | s0 s1 s2 Hi Hl Hch IHc].
      - subst s0. econstructor; [exact Hstep | | constructor].
        cbn [st_rest]. rewrite !app_length. simpl. lia.
      - econstructor; eauto. }
    apply Happ. exact Hc.
Qed.

Lemma qrr_complete : forall local mm n nl,
  (nl = [] \/ nl = [10%N]) ->
  forall s, rule_name local mm n s -> m QualifiedRuleRegex (St true (s ++ nl) []) <> [].
Proof.
  intros local mm n nl Hnl s (Hm & Hn & Es) Hnil.
  destruct (module_name_star Hm) as (w & r & -> & Hne & Hw & Hr).
  set (tail := match n with None => [] | Some v => u ":" ++ v end ++ nl).
  assert (Hs : s ++ nl = (if local then u "." else []) ++ w ++ r ++ tail).
  { subst s tail. now rewrite <- !app_assoc. }
  assert (Hin : exists x, In x (m QualifiedRuleRegex (St true (s ++ nl) []))).
  { rewrite Hs. unfold QualifiedRuleRegex. cbn [m st_bos flat_map]. fold dotword.
    set (s0 := St true ((if local then u "." else []) ++ w ++ r ++ tail) []).
    assert (H1 : exists k1 b1, In (St b1 (w ++ r ++ tail) k1)
       (m (Opt (Grp 2 (Chr (N.eqb 46)))) s0)).
    { destruct local; do 2 eexists; unfold Opt; cbn [m]; apply in_app_iff.
      - left. apply in_map_iff. eexists. split; [|left; reflexivity]. reflexivity.
      - right. left. reflexivity. }
    destruct H1 as (k1 & b1 & H1).
    assert (H2 : In (St false (r ++ tail) k1) (m (Plus (Chr cls_word)) (St b1 (w ++ r ++ tail) k1)))
      by (apply in_plus_chr; exists w, (r ++ tail); auto).
    destruct (Hr tail false k1) as (b2 & k2 & H3).
    set (y := St b2 tail ((1, consumed s0 (St b2 tail k2)) :: k2)).
    assert (H4 : exists q, In q (m (Opt (Cat (Chr (N.eqb 58)) (Grp 4 (Plus (Chr cls_word_dash))))) y) /\
                 st_rest q = nl).
    { unfold Opt. destruct n as [v|]; subst y tail.
      - destruct Hn as [Hv Hvc]. eexists. split; [|].
        + cbn [m]. apply in_app_iff. left. apply in_flat_map.
          exists (St false (v ++ nl) ((1, consumed s0 (St b2 ((u ":" ++ v) ++ nl) k2)) :: k2)).
          split; [left; reflexivity|]. apply in_map_iff. eexists. split; [reflexivity|].
          apply in_plus_chr. exists v, nl. repeat split; eauto.
          now apply dash_F.
        + reflexivity.
      - eexists. split; [cbn [m]; apply in_app_iff; right; left; reflexivity|]. reflexivity. }
    destruct H4 as (q & H4 & Eq).
    exists q. apply in_app_iff. left. apply in_flat_map. exists y. split.
    - apply in_map_iff. exists (St b2 tail k2). split; [reflexivity|].
      apply in_flat_map. exists (St b1 (w ++ r ++ tail) k1). split; [exact H1|].
      apply in_flat_map. exists (St false (r ++ tail) k1). split; [exact H2|].
      cbn [st_rest]. apply in_star; [cbn [st_rest]; lia|]. exact H3.
    - apply in_flat_map. exists q. split; [exact H4|]. rewrite Eq.
      destruct Hnl as [->| ->]; left; reflexivity. }
  destruct Hin as (x & Hx). rewrite Hnil in Hx. contradiction.
Qed.

Lemma name_char_dash_not : forall c, name_char_dash c -> c <> 58%N /\ c <> 10%N /\ c <> 46%N.
Proof.
  intros c H. unfold name_char_dash, name_char in H. repeat split; intro E; subst; lia.
Qed.

Lemma split_unique : forall (P : N -> Prop) (sep : N), ~ P sep ->
  forall a b a' b', Forall P a -> Forall P a' ->
  (b = [] \/ exists t, b = sep :: t) -> (b' = [] \/ exists t, b' = sep :: t) ->
  a ++ b = a' ++ b' -> a = a' /\ b = b'.
Proof.
  intros P sep Hs. induction a as [|x a IH]; intros b [|x' a'] b' Ha Ha' Hb Hb' E; simpl in *.
  - auto.
  - subst b. inversion Ha'; subst. destruct Hb as [Hb|(t & Hb)]; [discriminate|].
    injection Hb as -> _. contradiction.
  - subst b'. inversion Ha; subst. destruct Hb' as [Hb'|(t & Hb')]; [discriminate|].
    injection Hb' as -> _. contradiction.
  - injection E as -> E. inversion Ha; inversion Ha'; subst.
    destruct (IH b a' b') as [-> ->]; auto.
Qed.

(** The grammar is unambiguous. *)
Lemma rule_name_unique : forall l1 m1 n1 l2 m2 n2 s,
  rule_name l1 m1 n1 s -> rule_name l2 m2 n2 s -> l1 = l2 /\ m1 = m2 /\ n1 = n2.
Proof.
  intros l1 m1 n1 l2 m2 n2 s (Hm1 & Hn1 & E1) (Hm2 & Hn2 & E2).
  destruct (module_name_chars Hm1) as (Hne1 & Hc1 & c1 & t1 & Ec1 & Hd1).
  destruct (module_name_chars Hm2) as (Hne2 & Hc2 & c2 & t2 & Ec2 & Hd2).
  assert (El : l1 = l2).
  { destruct l1, l2; auto; exfalso; rewrite E1 in E2; [rewrite Ec2 in E2 | rewrite Ec1 in E2];
      simpl in E2; injection E2 as E2 _; subst;
      [apply (name_char_dash_not (or_introl Hd2)) | apply (name_char_dash_not (or_introl Hd1))]; auto. }
  subst l2. split; auto.
  rewrite E1 in E2. apply app_inv_head in E2.
  apply split_unique with (P := fun c => name_char_dash c \/ c = 46%N) (sep := 58%N) in E2.
  - destruct E2 as [-> E2]. split; auto. destruct n1, n2; try discriminate; auto.
    simpl in E2. injection E2 as ->. reflexivity.
  - intros [H|H]; [|discriminate]. destruct (name_char_dash_not H) as (H' & _). congruence.
  - apply Forall_forall. exact Hc1.
  - apply Forall_forall. exact Hc2.
  - destruct n1; [right; eexists; reflexivity | auto].
  - destruct n2; [right; eexists; reflexivity | auto].
Qed.

Lemma rule_name_chars : forall l mm n s, rule_name l mm n s -> s <> [] /\ forall t, s <> t ++ [10%N].
Proof.
  intros l mm n s (Hm & Hn & E).
  destruct (module_name_chars Hm) as (Hne & Hc & _). split.
  - subst s. destruct l; [discriminate|]. destruct mm; [congruence|discriminate].
  - intros t Et.
    assert (Hin : In 10%N s) by (rewrite Et; apply in_app_iff; right; simpl; auto).
    rewrite E in Hin. apply in_app_iff in Hin. destruct Hin as [Hin|Hin].
    + destruct l; [|contradiction]. simpl in Hin. destruct Hin as [Hin|[]]. discriminate.
    + apply in_app_iff in Hin. destruct Hin as [Hin|Hin].
      * destruct (Hc _ Hin) as [H|H]; [|discriminate]. destruct (name_char_dash_not H) as (_ & H' & _). congruence.
      * destruct n as [v|]; [|contradiction]. simpl in Hin. destruct Hin as [Hin|Hin]; [discriminate|].
        destruct Hn as [_ Hv]. rewrite Forall_forall in Hv.
        destruct (name_char_dash_not (Hv _ Hin)) as (_ & H' & _). congruence.
Qed.

Lemma parse_rule_ok : forall s root q,
  parse_rule s root = Ok q <->
  exists local mm n s0, rule_name local mm n s0 /\ (s = s0 \/ s = s0 ++ [10%N]) /\
    q = QRule ((if local then u "." else []) ++ mm) n
              (if local then Some (u ".") else None) (if local then Some root else None).
Proof.
  intros s root q. unfold parse_rule, re_match. split.
  - destruct (m QualifiedRuleRegex (St true s [])) as [|x l] eqn:E; [discriminate|].
    cbn [hd_error].
    destruct (@qrr_sound s x) as (local & mm & n & nl & Hnl & Hr & Es & G1 & G2 & G4).
    { rewrite E. simpl. auto. }
    rewrite G1, G2, G4. intro H.
    exists local, mm, n, (firstn (length s - length nl) s). split; [exact Hr|]. split.
    + destruct Hnl as [-> | ->]; [left | right]; rewrite Es at 1; auto. apply app_nil_r.
    + destruct local; injection H as <-; reflexivity.
  - intros (local & mm & n & s0 & Hr & Hs & ->).
    assert (Hnl : exists nl, (nl = [] \/ nl = [10%N]) /\ s = s0 ++ nl).
    { destruct Hs as [-> | ->]; [exists [] | exists [10%N]]; rewrite ?app_nil_r; auto. }
    destruct Hnl as (nl & Hnl & ->).
    destruct (m QualifiedRuleRegex (St true (s0 ++ nl) [])) as [|x l] eqn:E.
    { exfalso. eapply qrr_complete; eauto. }
    cbn [hd_error].
    destruct (@qrr_sound (s0 ++ nl) x) as (local' & mm' & n' & nl' & Hnl' & Hr' & Es & G1 & G2 & G4).
    { rewrite E. simpl. auto. }
    assert (Es0 : firstn (length (s0 ++ nl) - length nl') (s0 ++ nl) = s0).
    { remember (firstn (length (s0 ++ nl) - length nl') (s0 ++ nl)) as f.
      destruct (rule_name_chars Hr) as [_ Hx]. destruct (rule_name_chars Hr') as [_ Hx'].
      destruct Hnl as [-> | ->], Hnl' as [-> | ->]; rewrite ?app_nil_r in Es.
      - auto.
      - exfalso. eapply Hx; eauto.
      - exfalso. eapply Hx'; eauto.
      - apply app_inv_tail in Es. auto. }
    rewrite Es0 in Hr'.
    destruct (rule_name_unique Hr Hr') as (<- & <- & <-).
    rewrite G1, G2, G4. destruct local; reflexivity.
Qed.

Lemma parse_rule_total : forall s root, (exists q, parse_rule s root = Ok q) \/ parse_rule s root = Err ConfigError.
Proof.
  intros s root. destruct (parse_rule s root) as [q|e] eqn:E; eauto. right.
  unfold parse_rule, re_match in E.
  destruct (m QualifiedRuleRegex (St true s [])) as [|x l] eqn:Em; cbn [hd_error] in E; auto.
  destruct (@qrr_sound s x) as (local & mm & n & nl & Hnl & Hr & Es & G1 & G2 & G4).
  { rewrite Em. simpl. auto. }
  rewrite G1, G2 in E. destruct local; discriminate.
Qed.
