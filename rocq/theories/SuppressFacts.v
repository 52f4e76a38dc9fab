(** * Lemmas about directives *)
From Coq Require Import String List NArith Bool Arith Lia.
From Verif Require Import Base PyStr Regex Ftypes RuleNameFacts Suppress SuppressSpec.
Import ListNotations.
Set Implicit Arguments.

Section D.
Variable U : unicode.

Definition W : N -> bool := is_word U.

(** The name list group and its parts. *)
Definition namesR : re :=
  Cat (Plus (Chr W)) (Star (Cat (Chr (N.eqb 44)) (Cat (Star (Chr is_space)) (Plus (Chr W))))).
Definition moreR : re := Cat (Chr (N.eqb 44)) (Cat (Star (Chr is_space)) (Plus (Chr W))).

Lemma spaces_b : forall s, spaces s <-> forallb is_space s = true.
Proof. intro s. unfold spaces. rewrite forallb_forall, Forall_forall. tauto. Qed.
Lemma word_b : forall s, wordlike U s <-> s <> [] /\ forallb W s = true.
Proof. intro s. unfold wordlike, W. rewrite forallb_forall, Forall_forall. tauto. Qed.

Lemma starts_word_no : forall s, ~ starts_word U s -> forall c t, s = c :: t -> W c = false.
Proof.
  intros s H c t ->. destruct (W c) eqn:E; auto. exfalso. apply H. exists c, t. auto.
Qed.

Lemma starts_word_dec : forall s, {starts_word U s} + {~ starts_word U s}.
Proof.
  intros [|c t].
  - right. intros (c & t & H & _). discriminate.
  - destruct (is_word U c) eqn:E.
    + left. exists c, t. auto.
    + right. intros (c' & t' & H & H'). injection H as -> ->. congruence.
Qed.

Lemma space_not_word : forall c, is_space c = true -> W c = false.
Proof.
  intros c H. destruct (W c) eqn:E; auto. apply is_word_not_space in E. congruence.
Qed.

Lemma m_plus_first : forall p b s k,
  hd_error (m (Plus (Chr p)) (St b s k)) =
  match s with
  | c :: t => if p c then Some (St false (drop_while p t) k) else None
  | [] => None
  end.
Proof.
  intros p b s k. destruct s as [|c t]; [reflexivity|].
  unfold Plus. cbn [m st_rest st_caps]. destruct (p c) eqn:E; [|reflexivity].
  cbn [flat_map]. rewrite app_nil_r. change (star _ _ _) with (m (Star (Chr p)) (St false t k)).
  rewrite m_star_chr, star_chr_first. destruct (take_while p t); reflexivity.
Qed.

Lemma m_plus_no : forall p b s k, (forall c t, s = c :: t -> p c = false) -> m (Plus (Chr p)) (St b s k) = [].
Proof.
  intros p b [|c t] k H; [reflexivity|]. unfold Plus. cbn [m st_rest]. now rewrite (H c t eq_refl).
Qed.

Lemma moreR_yes : forall b ws w rest k, spaces ws -> wordlike U w ->
  (forall c t, rest = c :: t -> W c = false) ->
  hd_error (m moreR (St b (u "," ++ ws ++ w ++ rest) k)) = Some (St false rest k).
Proof.
  intros b ws w rest k Hs Hw Hr. unfold moreR.
  apply spaces_b in Hs. apply word_b in Hw. destruct Hw as [Hne Hw].
  destruct w as [|c w]; [congruence|]. simpl in Hw. apply andb_true_iff in Hw. destruct Hw as [Hc Hw].
  erewrite m_cat_single; [|apply m_chr_yes; reflexivity].
  change (m (Cat (Star (Chr is_space)) (Plus (Chr W)))) with
    (fun s => flat_map (m (Plus (Chr W))) (m (Star (Chr is_space)) s)). cbn beta.
  change ([] ++ ws ++ (c :: w) ++ rest) with (ws ++ (c :: w) ++ rest).
  rewrite m_star_chr, star_chr_det.
  - destruct (@take_drop_app is_space ws ((c :: w) ++ rest)) as [_ Hd]; auto.
    { intros c' t' H. injection H as <- _. eapply is_word_not_space. exact Hc. }
    rewrite Hd. simpl app. rewrite m_plus_first, Hc. f_equal. f_equal.
    destruct (@take_drop_app W w rest Hw Hr) as [_ ->]. reflexivity.
  - intros b' c' t' k' H. apply m_plus_no. intros d t H'. injection H' as <- _. now apply space_not_word.
Qed.

Lemma moreR_inv : forall b s k x, In x (m moreR (St b s k)) ->
  exists ws r, s = u "," ++ ws ++ r /\ spaces ws /\ starts_word U r.
Proof.
  intros b s k x H. unfold moreR in H. cbn [m st_rest st_caps] in H.
  destruct s as [|c s]; [contradiction|]. destruct (N.eqb_spec 44 c); [|contradiction]. subst c.
  cbn [flat_map] in H. rewrite app_nil_r in H.
  apply in_flat_map in H. destruct H as (y & Hy & H).
  change (star _ _ _) with (m (Star (Chr is_space)) (St false s k)) in Hy.
  rewrite m_star_chr in Hy.
  assert (Hyy : exists ws, s = ws ++ st_rest y /\ forallb is_space ws = true).
  { clear H. revert Hy. generalize false as b0. induction s as [|d s IH]; intros b0 Hy; simpl in Hy.
    - destruct Hy as [<-|[]]. exists []. auto.
    - destruct (is_space d) eqn:E.
      + apply in_app_iff in Hy. destruct Hy as [Hy|[<-|[]]].
        * destruct (IH _ Hy) as (ws & -> & Hws). exists (d :: ws). simpl. rewrite E, Hws. auto.
        * exists []. auto.
      + destruct Hy as [<-|[]]. exists []. auto. }
  destruct Hyy as (ws & Es & Hws). exists ws, (st_rest y). subst s. split; [reflexivity|].
  split; [now apply spaces_b|].
  destruct y as [by0 ry ky]. cbn [st_rest] in *.
  change (flat_map (star (m (Chr W)) _) _) with (m (Plus (Chr W)) (St by0 ry ky)) in H.
  apply in_plus_chr in H. destruct H as (w & t & -> & Hne & Hw & _).
  destruct w as [|c w]; [congruence|]. simpl in Hw. apply andb_true_iff in Hw.
  exists c, (w ++ t). split; [reflexivity|]. apply Hw.
Qed.

Lemma moreR_no : forall b s k,
  (forall ws r, spaces ws -> starts_word U r -> s <> u "," ++ ws ++ r) -> m moreR (St b s k) = [].
Proof.
  intros b s k H. destruct (m moreR (St b s k)) as [|x l] eqn:E; auto. exfalso.
  destruct (@moreR_inv b s k x) as (ws & r & -> & Hws & Hr); [rewrite E; simpl; auto|].
  eapply H; eauto.
Qed.

Lemma names_at_word : forall s ns, names_at U s ns -> exists w rest ns', s = w ++ rest /\ wordlike U w /\
  ~ starts_word U rest /\ ns = w :: ns'.
Proof.
  intros s ns H. destruct H as [w rest Hw Hr Hm | w ws rest ns Hw Hws H].
  - exists w, rest, []. auto.
  - exists w, (u "," ++ ws ++ rest), ns. repeat split; auto; try apply Hw.
    intros (c & t & E & Hc). injection E as <- _. vm_compute in Hc. discriminate.
Qed.

(** After the first word of a name list, the star consumes the remaining names. *)
Lemma names_star : forall s ns, names_at U s ns ->
  exists txt rest, s = txt ++ rest /\ map strip (split 44 txt) = ns /\
    forall w r, s = w ++ r -> wordlike U w -> ~ starts_word U r ->
      exists b', hd_error (m (Star moreR) (St false r [])) = Some (St b' rest []) /\
      forall k, hd_error (m (Star moreR) (St false r k)) = Some (St b' rest k).
Proof.
  assert (Hw44 : forall w, wordlike U w -> ~ In 44%N w).
  { intros w [_ Hw] Hi. rewrite Forall_forall in Hw. specialize (Hw _ Hi). vm_compute in Hw. discriminate. }
  assert (Hws44 : forall w, spaces w -> ~ In 44%N w).
  { intros w Hw Hi. unfold spaces in Hw. rewrite Forall_forall in Hw.
    specialize (Hw _ Hi). vm_compute in Hw. discriminate. }
  assert (Hstrip : forall ws w, spaces ws -> wordlike U w -> strip (ws ++ w) = w).
  { intros ws w Hs Hw. apply strip_word with U; [now apply spaces_b | now apply word_b]. }
  assert (Huniq : forall w r w' r', wordlike U w -> ~ starts_word U r -> wordlike U w' -> ~ starts_word U r' ->
     w ++ r = w' ++ r' -> w = w' /\ r = r').
  { intros w r w' r' Hw Hr Hw' Hr' E. apply word_b in Hw. apply word_b in Hw'.
    destruct (@take_drop_app W w r (proj2 Hw) (starts_word_no Hr)) as [T D].
    destruct (@take_drop_app W w' r' (proj2 Hw') (starts_word_no Hr')) as [T' D'].
    rewrite E in T, D. split; congruence. }
  induction 1 as [w rest Hw Hr Hm | w ws rest ns Hw Hws H IH].
  - exists w, rest. split; [reflexivity|]. split.
    + rewrite split_no_sep by auto. simpl. f_equal. apply (Hstrip [] w); auto. constructor.
    + intros w' r E Hw' Hr'.
      destruct (Huniq w rest w' r) as [<- <-]; auto.
      exists false. split; intros; change (m (Star moreR)) with
        (fun s => star (m moreR) (length (st_rest s)) s); cbn beta;
        apply star_first_stop; apply moreR_no; auto.
  - destruct IH as (txt & rst & Es & Hsp & Hst).
    exists (w ++ u "," ++ ws ++ txt), rst. split; [|split].
    + subst rest. now rewrite <- !app_assoc.
    + change (w ++ u "," ++ ws ++ txt) with (w ++ 44%N :: (ws ++ txt)).
      rewrite split_app_sep by auto. cbn [map]. f_equal.
      { apply (Hstrip [] w); auto. constructor. }
      rewrite <- Hsp.
      destruct (names_at_word H) as (w1 & r1 & ns' & E1 & Hw1 & _ & En).
      (* strip of (ws ++ first piece) *)
      assert (Htx : exists h, split 44 txt = h :: tl (split 44 txt) /\
                    split 44 (ws ++ txt) = (ws ++ h) :: tl (split 44 txt)).
      { clear -Hws44 Hws. assert (Hn : ~ In 44%N ws) by auto. clear Hws. induction ws as [|c ws IHw]; simpl.
        - destruct (split 44 txt) as [|h t] eqn:E; [now apply split_nonempty in E|]. exists h. auto.
        - destruct IHw as (h & H1 & H2); [intro; apply Hn; simpl; auto|].
          destruct (N.eqb_spec c 44); [subst; exfalso; apply Hn; simpl; auto|].
          exists h. split; auto. rewrite H2. reflexivity. }
      destruct Htx as (h & H1 & H2). rewrite H2. rewrite H1. cbn [map tl].
      f_equal. apply spaces_b in Hws. unfold strip. now rewrite lstrip_app.
    + intros w' r E Hw' Hr'.
      assert (Hcomma : ~ starts_word U (u "," ++ ws ++ rest)).
      { intros (c & t & E0 & Hc). injection E0 as <- _. vm_compute in Hc. discriminate. }
      destruct (Huniq w (u "," ++ ws ++ rest) w' r) as [<- <-]; auto.
      destruct (names_at_word H) as (w1 & r1 & ns' & E1 & Hw1 & Hr1 & En).
      destruct (Hst w1 r1 E1 Hw1 Hr1) as (b' & _ & Hk).
      exists b'. assert (HH : forall k, hd_error (m (Star moreR) (St false (u "," ++ ws ++ rest) k)) = Some (St b' rst k)).
      { intro k. rewrite <- (Hk k).
        change (m (Star moreR)) with (fun s => star (m moreR) (length (st_rest s)) s). cbn beta.
        cbn [st_rest]. 
        assert (Hy : hd_error (m moreR (St false (u "," ++ ws ++ rest) k)) = Some (St false r1 k)).
        { rewrite E1. apply moreR_yes; auto. apply starts_word_no. exact Hr1. }
        assert (Hlen : length (u "," ++ ws ++ rest) = S (length (ws ++ rest))) by reflexivity.
        rewrite Hlen. erewrite star_first_step; [|exact Hy|].
        - rewrite (@star_fuel (m moreR) (length (ws ++ rest)) (length r1)); auto; cbn [st_rest]; try lia.
          rewrite E1, !app_length. lia.
        - cbn [st_rest]. rewrite Hlen, E1, !app_length. lia. }
      split; auto.
Qed.

Lemma names_at_exists : forall s, starts_word U s -> exists ns, names_at U s ns.
Proof.
  intro s. remember (length s) as n eqn:En. revert s En.
  induction n as [n IH] using lt_wf_ind. intros s -> Hs.
  set (w := take_while W s). set (r := drop_while W s).
  assert (E : s = w ++ r) by (symmetry; apply take_drop).
  assert (Hw : wordlike U w).
  { apply word_b. split; [|apply take_while_all].
    destruct Hs as (c & t & -> & Hc). subst w. simpl. unfold W. now rewrite Hc. }
  assert (Hr : ~ starts_word U r).
  { intros (c & t & Er & Hc). apply drop_while_head in Er. unfold W in Er. congruence. }
  (* does another name follow? *)
  destruct r as [|c r'] eqn:Er.
  - rewrite E. exists [w]. constructor; auto. intros ws r0 _ _ H0. discriminate.
  - destruct (N.eq_dec c 44) as [->|Hc].
    + set (ws := take_while is_space r'). set (q := drop_while is_space r').
      assert (Eq : r' = ws ++ q) by (symmetry; apply take_drop).
      destruct (starts_word_dec q) as [Hq|Hq].
      * destruct (IH (length q)) with (s := q) as (ns & Hns); auto.
        { rewrite E, Eq, !app_length. simpl. rewrite app_length. lia. }
        exists (w :: ns). rewrite E, Eq. apply (@na_more U w ws q ns); auto.
        apply spaces_b. apply take_while_all.
      * exists [w]. rewrite E. constructor; auto. intros ws' r0 Hws' Hr0 H0.
        injection H0 as H0. apply Hq.
        destruct (@take_drop_app is_space ws' r0) as [_ D].
        { now apply spaces_b. }
        { destruct Hr0 as (c0 & t0 & -> & Hc0). intros c1 t1 H1. injection H1 as <- _.
          eapply is_word_not_space; eauto. }
        subst q. rewrite H0, D. exact Hr0.
    + exists [w]. rewrite E. constructor; auto. intros ws' r0 _ _ H0. injection H0 as H0 _. congruence.
Qed.

(** The group of names. *)
Lemma namesR_first : forall s ns, names_at U s ns ->
  exists txt rest, s = txt ++ rest /\ map strip (split 44 txt) = ns /\
   forall b k, exists b', hd_error (m (Grp 2 namesR) (St b s k)) = Some (St b' rest ((2, txt) :: k)).
Proof.
  intros s ns H. destruct (names_star H) as (txt & rest & Es & Hsp & Hst).
  destruct (names_at_word H) as (w & r & ns' & Ew & Hw & Hr & En).
  destruct (Hst w r Ew Hw Hr) as (b' & _ & Hk).
  exists txt, rest. split; auto. split; auto. intros b k. exists b'.
  assert (HN : hd_error (m namesR (St b s k)) = Some (St b' rest k)).
  { unfold namesR. eapply m_cat_first; [|apply Hk].
    rewrite m_plus_first, Ew. apply word_b in Hw. destruct w as [|c w]; [destruct Hw; congruence|].
    destruct Hw as [_ Hw]. simpl in Hw. apply andb_true_iff in Hw. destruct Hw as [Hc Hw].
    simpl. rewrite Hc. destruct (@take_drop_app W w r Hw (starts_word_no Hr)) as [_ ->]. reflexivity. }
  cbn [m]. destruct (m namesR (St b s k)) as [|x l]; [discriminate|]. injection HN as ->.
  cbn [map hd_error st_bos st_rest st_caps]. rewrite Es. now rewrite consumed_app.
Qed.

Lemma namesR_no : forall b s k, ~ starts_word U s -> m (Grp 2 namesR) (St b s k) = [].
Proof.
  intros b s k H. cbn [m]. unfold namesR. rewrite m_cat_nil; [reflexivity|].
  apply m_plus_no. now apply starts_word_no.
Qed.

(** The optional part: separator and names. *)
Definition sepR : re := Alt (Cat (Chr (N.eqb 58)) (Star (Chr is_space))) (Plus (Chr is_space)).

Lemma sep_names : forall b s k, m (Cat sepR (Grp 2 namesR)) (St b s k) =
  match s with
  | c :: t => if N.eqb 58 c || is_space c
              then m (Grp 2 namesR) (St false (drop_while is_space t) k) else []
  | [] => []
  end.
Proof.
  intros b s k. unfold sepR.
  assert (Hno : forall b' c t k', is_space c = true -> m (Grp 2 namesR) (St b' (c :: t) k') = []).
  { intros b' c t k' H. apply namesR_no. intros (c' & t' & E & Hc). injection E as -> ->.
    apply space_not_word in H. unfold W in H. congruence. }
  change (m (Cat ?a ?b) ?s) with (flat_map (m b) (m a s)).
  destruct s as [|c t]; [reflexivity|].
  change (m (Alt ?a ?b) ?s) with (m a s ++ m b s). rewrite flat_map_app.
  destruct (N.eqb_spec 58 c).
  - subst c. cbn [orb].
    erewrite m_cat_single; [|apply m_chr_yes; reflexivity].
    rewrite m_plus_no.
    2:{ intros c' t' H. injection H as <- _. reflexivity. }
    rewrite m_star_chr, star_chr_det by exact Hno. cbn [flat_map]. rewrite app_nil_r.
    destruct (take_while is_space t); reflexivity.
  - rewrite m_cat_nil.
    2:{ apply m_chr_no. now apply N.eqb_neq. }
    cbn [flat_map app orb]. destruct (is_space c) eqn:Ec.
    + unfold Plus. erewrite m_cat_single; [|apply m_chr_yes; exact Ec].
      rewrite m_star_chr, star_chr_det by exact Hno.
      destruct (take_while is_space t); reflexivity.
    + rewrite m_plus_no; [reflexivity|]. intros c' t' H. injection H as <- _. exact Ec.
Qed.

Lemma separated_iff : forall rest names, separated U rest names <->
  exists c t, rest = c :: t /\ (N.eqb 58 c || is_space c = true) /\ names = drop_while is_space t /\ starts_word U names.
Proof.
  intros rest names. unfold separated. split.
  - intros (Hn & ws & Hws & [E|[Hne E]]).
    + exists 58%N, (ws ++ names). split; [exact E|]. split; [reflexivity|]. split; auto.
      destruct (@take_drop_app is_space ws names) as [_ ->]; auto; [now apply spaces_b|].
      destruct Hn as (c0 & t0 & -> & Hc0). intros c1 t1 H1. injection H1 as <- _.
      eapply is_word_not_space; eauto.
    + destruct ws as [|c ws]; [congruence|]. exists c, (ws ++ names). split; [exact E|].
      inversion Hws; subst. split; [rewrite orb_true_iff; auto|]. split; auto.
      destruct (@take_drop_app is_space ws names) as [_ ->]; auto; [now apply spaces_b|].
      destruct Hn as (c0 & t0 & -> & Hc0). intros c1 t1 H1'. injection H1' as <- _.
      eapply is_word_not_space; eauto.
  - intros (c & t & -> & Hc & -> & Hn). split; auto.
    destruct (N.eqb_spec 58 c).
    + subst c. exists (take_while is_space t). split; [apply spaces_b, take_while_all|]. left.
      simpl. now rewrite take_drop.
    + simpl in Hc. exists (c :: take_while is_space t). split.
      * constructor; auto. apply spaces_b, take_while_all.
      * right. split; [discriminate|]. simpl. now rewrite take_drop.
Qed.

(** The directive itself. *)
Definition dirR : re := Grp 1 (Cat (Lit (u "lint-")) (Alt (Lit (u "ignore")) (Lit (u "fixme")))).

Lemma dirR_yes : forall b s rest k,
  (s = u "lint-ignore" ++ rest \/ s = u "lint-fixme" ++ rest) ->
  exists d, m dirR (St b s k) = [St false rest ((1, d) :: k)].
Proof.
  intros b s rest k [->| ->]; unfold dirR;
    [change (u "lint-ignore" ++ rest) with (u "lint-" ++ u "ignore" ++ rest)
    |change (u "lint-fixme" ++ rest) with (u "lint-" ++ u "fixme" ++ rest)];
    cbn [m]; rewrite m_lit; cbn [flat_map]; rewrite app_nil_r.
  - change (m (Alt ?a ?b) ?s) with (m a s ++ m b s). rewrite m_lit.
    rewrite (@m_lit_no (u "fixme")) by (intros t H; discriminate). eexists. reflexivity.
  - change (m (Alt ?a ?b) ?s) with (m a s ++ m b s). rewrite m_lit.
    rewrite (@m_lit_no (u "ignore")) by (intros t H; discriminate). eexists. reflexivity.
Qed.

Lemma dirR_no : forall b s k,
  (forall rest, s <> u "lint-ignore" ++ rest /\ s <> u "lint-fixme" ++ rest) -> m dirR (St b s k) = [].
Proof.
  intros b s k H. destruct (m dirR (St b s k)) as [|x l] eqn:E; auto. exfalso.
  assert (Hi : In x (m dirR (St b s k))) by (rewrite E; simpl; auto). clear E.
  unfold dirR in Hi. cbn [m] in Hi. apply in_map_iff in Hi. destruct Hi as (y & _ & Hy).
  apply in_flat_map in Hy. destruct Hy as (z & Hz & Hy).
  destruct (m_lit_inv _ _ _ _ _ Hz) as (t & ->). rewrite m_lit in Hz. destruct Hz as [<-|[]].
  apply in_app_iff in Hy. destruct Hy as [Hy|Hy]; apply m_lit_inv in Hy; destruct Hy as (t' & ->).
  - apply (proj1 (H t')). reflexivity.
  - apply (proj2 (H t')). reflexivity.
Qed.

Lemma directive_at_iff : forall s rest, directive_at s rest <->
  exists t, s = 35%N :: t /\
   (drop_while is_space t = u "lint-ignore" ++ rest \/ drop_while is_space t = u "lint-fixme" ++ rest).
Proof.
  intros s rest. unfold directive_at. split.
  - intros (ws & Hws & [->| ->]); eexists; (split; [reflexivity|]); [left|right];
      apply take_drop_app; try (now apply spaces_b); intros c t H; injection H as <- _; reflexivity.
  - intros (t & -> & H). exists (take_while is_space t). split; [apply spaces_b, take_while_all|].
    destruct H as [H|H]; [left|right]; rewrite <- H; simpl; now rewrite take_drop.
Qed.

Lemma lintR_eq : LintIgnoreRegex U =
  Cat (Chr (N.eqb 35)) (Cat (Star (Chr is_space)) (Cat dirR (Opt (Cat sepR (Grp 2 namesR))))).
Proof. reflexivity. Qed.

Lemma lintR_at : forall b s,
  m (LintIgnoreRegex U) (St b s []) =
  match s with
  | c :: t => if N.eqb 35 c
              then m (Cat dirR (Opt (Cat sepR (Grp 2 namesR))))
                     (St (match take_while is_space t with [] => false | _ => false end) (drop_while is_space t) [])
              else []
  | [] => []
  end.
Proof.
  intros b s. rewrite lintR_eq. destruct s as [|c t]; [reflexivity|].
  destruct (N.eqb_spec 35 c).
  - subst c. erewrite m_cat_single; [|apply m_chr_yes; reflexivity].
    change (m (Cat (Star (Chr is_space)) ?b) ?s) with (flat_map (m b) (m (Star (Chr is_space)) s)).
    rewrite m_star_chr. apply star_chr_det.
    intros b' c t' k' H. apply m_cat_nil. apply dirR_no.
    intro rest. split; intro E; injection E as -> _; vm_compute in H; discriminate.
  - rewrite m_cat_nil; [reflexivity|]. apply m_chr_no. now apply N.eqb_neq.
Qed.

Lemma lintR_no : forall b s, (forall r, ~ directive_at s r) -> m (LintIgnoreRegex U) (St b s []) = [].
Proof.
  intros b s H. rewrite lintR_at. destruct s as [|c t]; auto. destruct (N.eqb_spec 35 c); auto. subst c.
  apply m_cat_nil. apply dirR_no. intro rest. split; intro E; apply (H rest);
    apply directive_at_iff; exists t; auto.
Qed.

Lemma lintR_yes : forall b s rest, directive_at s rest ->
  exists x, hd_error (m (LintIgnoreRegex U) (St b s [])) = Some x /\
   (((forall names, ~ separated U rest names) /\ group 2 (st_caps x) = None) \/
    (exists names ns txt, separated U rest names /\ names_at U names ns /\
       group 2 (st_caps x) = Some txt /\ map strip (split 44 txt) = ns)).
Proof.
  intros b s rest H. apply directive_at_iff in H. destruct H as (t & -> & H).
  rewrite lintR_at. rewrite N.eqb_refl.
  match goal with |- context [m _ (St ?bb _ _)] => destruct (@dirR_yes bb (drop_while is_space t) rest [] H) as (d & Hd) end.
  erewrite m_cat_single; [|exact Hd].
  unfold Opt. change (m (Alt ?a Eps) ?s) with (m a s ++ [s]). rewrite sep_names.
  destruct rest as [|c r].
  - eexists. split; [reflexivity|]. left. split; [|reflexivity].
    intros names Hs. apply separated_iff in Hs. destruct Hs as (c & t' & E & _). discriminate.
  - destruct (N.eqb 58 c || is_space c) eqn:Ec.
    + destruct (starts_word_dec (drop_while is_space r)) as [Hw|Hw].
      * destruct (names_at_exists Hw) as (ns & Hns).
        destruct (namesR_first Hns) as (txt & rst & Es & Hsp & Hm).
        destruct (Hm false [(1, d)]) as (b' & Hm').
        exists (St b' rst ((2, txt) :: [(1, d)])). split.
        -- destruct (m (Grp 2 namesR) _); [discriminate|]. exact Hm'.
        -- right. exists (drop_while is_space r), ns, txt. split; [|auto].
           apply separated_iff. exists c, r. auto.
      * rewrite namesR_no by exact Hw. eexists. split; [reflexivity|]. left. split; [|reflexivity].
        intros names Hs. apply separated_iff in Hs. destruct Hs as (c' & t' & E & _ & -> & Hn).
        injection E as -> ->. contradiction.
    + eexists. split; [reflexivity|]. left. split; [|reflexivity].
      intros names Hs. apply separated_iff in Hs. destruct Hs as (c' & t' & E & Hc & _).
      injection E as -> ->. congruence.
Qed.

Lemma directive_at_unique : forall s r r', directive_at s r -> directive_at s r' -> r = r'.
Proof.
  intros s r r' H H'. apply directive_at_iff in H. apply directive_at_iff in H'.
  destruct H as (t & -> & H), H' as (t' & E & H'). injection E as <-.
  destruct H as [H|H], H' as [H'|H']; rewrite H in H'; try discriminate; now apply app_inv_head in H'.
Qed.

Lemma separated_unique : forall r n n', separated U r n -> separated U r n' -> n = n'.
Proof.
  intros r n n' H H'. apply separated_iff in H. apply separated_iff in H'.
  destruct H as (c & t & -> & _ & -> & _), H' as (c' & t' & E & _ & -> & _). injection E as -> ->. reflexivity.
Qed.

Lemma names_at_unique : forall s ns ns', names_at U s ns -> names_at U s ns' -> ns = ns'.
Proof.
  intros s ns ns' H H'.
  destruct (namesR_first H) as (txt & rest & _ & Hs & Hm).
  destruct (namesR_first H') as (txt' & rest' & _ & Hs' & Hm').
  destruct (Hm true []) as (b & E). destruct (Hm' true []) as (b' & E').
  rewrite E in E'. injection E' as _ _ ->. congruence.
Qed.

Lemma directive_at_dec : forall s, (exists r, directive_at s r) \/ (forall r, ~ directive_at s r).
Proof.
  intro s. destruct (m (LintIgnoreRegex U) (St true s [])) as [|x l] eqn:E.
  - right. intros r Hr. destruct (@lintR_yes true s r Hr) as (y & Hy & _). rewrite E in Hy. discriminate.
  - left. rewrite lintR_at in E. destruct s as [|c t]; [discriminate|].
    destruct (N.eqb_spec 35 c); [|discriminate]. subst c.
    assert (Hd : exists rest, drop_while is_space t = u "lint-ignore" ++ rest \/ drop_while is_space t = u "lint-fixme" ++ rest).
    { set (q := drop_while is_space t) in *.
      destruct (startswith (u "lint-ignore") q) eqn:E1.
      { apply startswith_spec in E1. destruct E1 as (r & ->). eauto. }
      destruct (startswith (u "lint-fixme") q) eqn:E2.
      { apply startswith_spec in E2. destruct E2 as (r & ->). eauto. }
      exfalso. rewrite m_cat_nil in E; [discriminate|]. apply dirR_no. intro rest.
      split; intro Hq.
      - assert (startswith (u "lint-ignore") q = true) by (apply startswith_spec; eauto). congruence.
      - assert (startswith (u "lint-fixme") q = true) by (apply startswith_spec; eauto). congruence. }
    destruct Hd as (rest & Hd). exists rest. apply directive_at_iff. eauto.
Qed.

(** search finds the first directive *)
Lemma search_spec : forall b s,
  match search_from (LintIgnoreRegex U) b s with
  | None => ~ has_directive s
  | Some x => exists pre t rest, s = pre ++ t /\ directive_at t rest /\
      (forall pre' s' r, s = pre' ++ s' -> length pre' < length pre -> ~ directive_at s' r) /\
      exists b', hd_error (m (LintIgnoreRegex U) (St b' t [])) = Some x
  end.
Proof.
  intros b s. revert b. induction s as [|c s IH]; intro b.
  - cbn [search_from]. rewrite lintR_at. cbn [hd_error].
    intros (pre & t & r & E & Hd). apply directive_at_iff in Hd. destruct Hd as (t' & -> & _).
    destruct pre; discriminate.
  - cbn [search_from]. destruct (directive_at_dec (c :: s)) as [(r & Hr)|Hno].
    + destruct (@lintR_yes b (c :: s) r Hr) as (x & Hx & _). rewrite Hx.
      exists [], (c :: s), r. repeat split; eauto. intros pre' s' r' _ Hl. simpl in Hl. lia.
    + rewrite lintR_no by auto. cbn [hd_error]. specialize (IH false).
      destruct (search_from (LintIgnoreRegex U) false s) as [x|].
      * destruct IH as (pre & t & rest & -> & Hd & Hf & Hb).
        exists (c :: pre), t, rest. split; [reflexivity|]. split; auto. split; auto.
        intros pre' s' r' E Hl. destruct pre' as [|c' pre'].
        -- simpl in E. subst s'. apply Hno.
        -- injection E as <- E. apply (Hf pre' s' r' E). simpl in Hl. lia.
      * intros (pre & t & r & E & Hd). destruct pre as [|c' pre].
        -- simpl in E. subst t. eapply Hno; eauto.
        -- injection E as <- ->. apply IH. exists pre, t, r. auto.
Qed.

Lemma first_directive_unique : forall s r r', first_directive s r -> first_directive s r' -> r = r'.
Proof.
  intros s r r' (p & t & E & H & F) (p' & t' & E' & H' & F').
  assert (El : length p = length p').
  { destruct (lt_eq_lt_dec (length p) (length p')) as [[L|L]|L]; auto; exfalso.
    - exact (F' p t r E L H).
    - exact (F p' t' r' E' L H'). }
  assert (Et : t = t').
  { rewrite E in E'. clear -E' El. revert p' El E'. induction p as [|a p IH]; intros [|a' p'] El E'; simpl in *; try lia; auto.
    injection E' as _ E'. exact (IH p' ltac:(lia) E'). }
  subst t'. eapply directive_at_unique; eauto.
Qed.

Lemma names_rule_iff : forall n name, names_rule U n name <->
  (trim_rule n = name \/ trim_rule n = lower U name).
Proof.
  intros n name. unfold names_rule. split.
  - intros (base & [->|[-> Hn]] & H).
    + now rewrite trim_rule_app.
    + now rewrite trim_rule_other.
  - intro H. destruct (endswith (u "Rule") n) eqn:E.
    + apply endswith_spec in E. destruct E as (t & ->). rewrite trim_rule_app in H. exists t. auto.
    + assert (Hn : forall t, n <> t ++ u "Rule").
      { intros t Et. assert (endswith (u "Rule") n = true) by (apply endswith_spec; eauto). congruence. }
      rewrite trim_rule_other in H by auto. exists n. auto.
Qed.

Lemma comment_ignores_iff : forall name comment,
  comment_ignores U name comment = true <-> silences U comment name.
Proof.
  intros name comment. unfold comment_ignores, re_search.
  pose proof (search_spec true comment) as HS.
  destruct (search_from (LintIgnoreRegex U) true comment) as [x|].
  - destruct HS as (pre & t & rest & E & Hd & Hf & b' & Hx).
    assert (Hfd : first_directive comment rest) by (exists pre, t; auto).
    destruct (@lintR_yes b' t rest Hd) as (x' & Hx' & HC). rewrite Hx in Hx'. injection Hx' as <-.
    destruct HC as [[Hn Hg]|(names & ns & txt & Hs & Hns & Hg & Hsp)]; rewrite Hg.
    + split; auto. intros _. exists rest. auto.
    + rewrite <- map_map, Hsp.
      rewrite existsb_exists. split.
      * intros (q & Hq & Hb). apply in_map_iff in Hq. destruct Hq as (n & <- & Hn).
        exists rest. split; auto. right. exists names, ns, n. split; [exact Hs|]. split; [exact Hns|]. split; [exact Hn|].
        apply names_rule_iff. rewrite orb_true_iff, !str_eqb_eq in Hb. exact Hb.
      * intros (rest' & Hfd' & HC). rewrite <- (first_directive_unique Hfd Hfd') in HC.
        destruct HC as [Hno|(names' & ns' & n & Hs' & Hns' & Hn & Hr)].
        -- exfalso. eapply Hno; eauto.
        -- rewrite <- (separated_unique Hs Hs') in Hns'. rewrite <- (names_at_unique Hns Hns') in Hn.
           exists (trim_rule n). split; [now apply in_map|].
           apply names_rule_iff in Hr. rewrite orb_true_iff, !str_eqb_eq. exact Hr.
  - split; [discriminate|]. intros (rest & (pre & t & E & Hd & _) & _). exfalso. apply HS.
    exists pre, t, rest. auto.
Qed.
End D.

(** ** Scope *)

Lemma comments_of_in : forall c l, In c (comments_of l) <-> In (Some c) l.
Proof.
  intros c l. unfold comments_of. rewrite in_flat_map. split.
  - intros ([x|] & H & Hx); [|contradiction]. destruct Hx as [->|[]]. exact H.
  - intro H. exists (Some c). simpl. auto.
Qed.

Lemma own_attached : forall n c,
  attached n c <-> In c (own_comments n) \/ exists ll, n_leading n = Some ll /\ In (Some c) ll.
Proof.
  intros n c. unfold attached, own_comments. rewrite !in_app_iff, !comments_of_in. simpl.
  destruct (n_tw n) as [[x|]|]; destruct (n_body n) as [|[y|]|[y|]]; intuition (try congruence);
    repeat match goal with H : Some _ = Some _ |- _ => injection H as <- end; auto 10;
    match goal with H : SimpleSuite _ = _ |- _ => inversion H | H : Indented _ = _ |- _ => inversion H end.
Qed.

Lemma node_comments_iff : forall p c, In c (node_comments p) <-> in_scope p c.
Proof.
  intros [nodes header first] c. unfold node_comments, in_scope. cbn [p_nodes p_header p_first].
  induction nodes as [|n nodes IH]; cbn [node_comments_from].
  - rewrite comments_of_in. split.
    + intro H. right. split; auto.
    + intros [(i & n & o & E & _)|[H _]]; auto. destruct i; discriminate.
  - assert (Hstop : stops n \/ ~ stops n).
    { unfold stops. destruct (n_leading n); destruct (n_decorator n); intuition congruence. }
    rewrite in_app_iff.
    assert (Hcont : ~ stops n ->
      (In c (own_comments n ++ match n_leading n with Some ll => comments_of ll | None => [] end) \/
       In c (node_comments_from nodes header first)) <->
      ((exists inner n0 outer, n :: nodes = inner ++ n0 :: outer /\ Forall (fun x => ~ stops x) inner /\ attached n0 c)
       \/ (In (Some c) header /\ (Forall (fun x => ~ stops x) (n :: nodes) \/
           first = true /\ exists inner n0, n :: nodes = inner ++ [n0] /\ Forall (fun x => ~ stops x) inner /\ stops n0)))).
    { intro Hns. rewrite IH. split.
      - intros [H|[(i & n0 & o & -> & Hi & Ha)|[Hh [Hf|(Hf & i & n0 & -> & Hi & Ha)]]]].
        + left. exists [], n, nodes. repeat split; auto. apply own_attached.
          apply in_app_iff in H. destruct H as [H|H]; auto. right. destruct (n_leading n) as [ll|]; [|contradiction].
          exists ll. split; auto. now apply comments_of_in.
        + left. exists (n :: i), n0, o. repeat split; auto.
        + right. split; auto.
        + right. split; auto. right. split; auto. exists (n :: i), n0. repeat split; auto; apply Ha.
      - intros [(i & n0 & o & E & Hi & Ha)|[Hh [Hf|(Hf & i & n0 & E & Hi & Ha)]]].
        + destruct i as [|n1 i]; injection E as <- ->.
          * left. apply own_attached in Ha. apply in_app_iff. destruct Ha as [Ha|(ll & El & Ha)]; auto.
            right. rewrite El. now apply comments_of_in.
          * right. left. inversion Hi; subst. exists i, n0, o. auto.
        + right. right. split; auto. left. now inversion Hf.
        + destruct i as [|n1 i]; injection E as <- E.
          * contradiction.
          * right. right. split; auto. right. split; auto. inversion Hi; subst. exists i, n0. auto. }
    destruct (n_leading n) as [ll|] eqn:El.
    + destruct (n_decorator n) eqn:Ed.
      * rewrite <- Hcont; [|unfold stops; intuition congruence]. rewrite !in_app_iff. tauto.
      * assert (Hs : stops n) by (split; congruence).
        rewrite in_app_iff. split.
        -- intros [H|[H|H]].
           ++ left. exists [], n, nodes. repeat split; auto. apply own_attached. auto.
           ++ left. exists [], n, nodes. repeat split; auto. apply own_attached. right.
              exists ll. split; auto. now apply comments_of_in.
           ++ destruct nodes; [|contradiction]. destruct first; [|contradiction]. apply comments_of_in in H.
              right. split; auto. right. split; auto. exists [], n. auto.
        -- intros [(i & n0 & o & E & Hi & Ha)|[Hh [Hf|(Hf & i & n0 & E & Hi & Ha)]]].
           ++ destruct i as [|n1 i]; injection E as <- ->.
              ** apply own_attached in Ha. destruct Ha as [Ha|(ll' & El' & Ha)]; auto.
                 rewrite El in El'. injection El' as <-. right. left. now apply comments_of_in.
              ** inversion Hi; subst. contradiction.
           ++ inversion Hf; subst. contradiction.
           ++ destruct i as [|n1 i]; injection E as <- E.
              ** subst nodes first. right. right. now apply comments_of_in.
              ** inversion Hi; subst. contradiction.
    + rewrite <- Hcont; [|unfold stops; intuition congruence]. rewrite app_nil_r. tauto.
Qed.
