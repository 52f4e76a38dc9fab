(** * Syntax trees that are programs: what applying replacements does to them *)
From Coq Require Import String List NArith ZArith Bool Arith Lia Permutation.
From Verif Require Import Base PyStr Py Rules RulesSpec Whole WholeSpec WholeFacts WholeProps Ftypes Paths Config Collect CollectSpec Suppress SuppressSpec
  Cst EngineSpec EditFacts Engine EngineProps Batch Api ApiSpec System SystemSpec Session SessionSpec Cli CliSpec Commands CommandsSpec DiskSpec ProgramSpec.
Import ListNotations.

Section Visit.
  Context (node : N -> bool) (form : expr -> tree -> Prop) (Law : form_law form).
  Notation laid := (laid node form).
  Notation held := (held node).
  Notation held_part := (held_part node).
  Notation below := (below node).
  Notation blank := (blank node).
  Notation blank_part := (blank_part node).
  Notation outline := (outline node).
  Notation reached := (reached node).

  Lemma laid_inv : forall t e, laid t e -> node (node_id t) = true /\ removable t = false /\ form e (outline t) /\ Forall2 laid (below t) (children e).
  Proof. intros t e H. inversion H; subst. auto. Qed.

  Lemma laid_ind2 : forall P : tree -> expr -> Prop,
    (forall t e, node (node_id t) = true -> removable t = false -> form e (outline t) -> Forall2 laid (below t) (children e) -> Forall2 P (below t) (children e) -> P t e) ->
    forall t e, laid t e -> P t e.
  Proof.
    intros P H. fix go 3. intros t e L. destruct L as [t e A B C D]. apply H; auto.
    revert D. generalize (below t) (children e). fix go2 3. intros l l' D. destruct D as [|x y l l' D1 D2]; constructor; [apply go; exact D1|apply go2; exact D2].
  Qed.

  Lemma removable_outline : forall t, removable (outline t) = removable t.
  Proof.
    intros [id line ps]. cbn [outline removable]. f_equal. induction ps as [|p ps IH]; [reflexivity|]. cbn [map forallb]. rewrite IH. f_equal.
    destruct p as [| | |[|]|[|]|[|] [|]|]; reflexivity.
  Qed.

  Lemma held_node : forall t, node (node_id t) = true -> held t = [t].
  Proof. intros [id line ps] H. cbn in *. now rewrite H. Qed.
  Lemma held_other : forall id line ps, node id = false -> held (Node id line ps) = flat_map held_part ps.
  Proof. intros id line ps H. cbn. now rewrite H. Qed.

  Lemma blank_node : forall id line ps, node id = true -> blank (Node id line ps) = Node 1 false [].
  Proof. intros id line ps H. cbn. now rewrite H. Qed.
  Lemma blank_other : forall id line ps, node id = false -> blank (Node id line ps) = Node 0 line (map blank_part ps).
  Proof. intros id line ps H. cbn. now rewrite H. Qed.

  Section Acc.
    Context (acc : N -> option repl) (fixes : expr -> option expr).
    Context (Wr : forall i, node i = false -> acc i = None).
    Definition fixed_here (x : expr) : bool := match fixes x with Some _ => true | None => false end.

    (** What is accepted for a node is what [fixes] says. *)
    Definition right_at (i : N) (x : expr) : Prop :=
      match fixes x with Some e' => exists t', acc i = Some (RNode t') /\ laid t' e' | None => acc i = None end.
    Definition agrees (t : tree) (e : expr) : Prop := forall i x, reached fixed_here t e i x -> right_at i x.

    Lemma agrees_below : forall t e, agrees t e -> fixes e = None -> Forall2 laid (below t) (children e) -> Forall2 (fun t e => laid t e /\ agrees t e) (below t) (children e).
    Proof.
      intros t e A N F. assert (H : forall t' e', In (t', e') (combine (below t) (children e)) -> agrees t' e').
      { intros t' e' I i x R. apply A. eapply rd_below; eauto. unfold fixed_here. now rewrite N. }
      clear A. induction F as [|a b l l' F1 F2 IH]; constructor; [split; auto; apply H; left; auto|]. apply IH. intros t' e' I. apply H. right. exact I.
    Qed.

    Definition good (t : tree) (e : expr) : Prop := laid t e /\ agrees t e.

    Lemma split2 : forall (A B : Type) (R : A -> B -> Prop) l1 l2 l', Forall2 R (l1 ++ l2) l' -> exists l1' l2', l' = l1' ++ l2' /\ Forall2 R l1 l1' /\ Forall2 R l2 l2'.
    Proof. intros A B R l1 l2 l' H. apply Forall2_app_inv_l in H. destruct H as (a & b & H1 & H2 & ->). eauto. Qed.

    Lemma visit_laid :
      (forall t es, Forall2 good (held t) es ->
         exists t', visit acc t = Ok (RNode t') /\ blank t' = blank t /\ Forall2 laid (held t') (map (pass fixes) es) /\ (removable t' = false \/ removable t' = removable t)) /\
      (forall p es, Forall2 good (held_part p) es ->
         exists p', visit_part acc p = Ok p' /\ blank_part p' = blank_part p /\ Forall2 laid (held_part p') (map (pass fixes) es)).
    Proof.
      apply trees_ind.
      - intros id line ps H es G. rewrite visit_eq.
        assert (K : forall es, Forall2 good (flat_map held_part ps) es ->
          exists ps', visit_parts acc ps = Ok ps' /\ map blank_part ps' = map blank_part ps /\ Forall2 laid (flat_map held_part ps') (map (pass fixes) es)).
        { clear G. induction H as [|p ps Hp Hr IH]; intros es0 G.
          - inversion G; subst. exists []. cbn. auto.
          - cbn [flat_map] in G. apply split2 in G. destruct G as (l1 & l2 & -> & G1 & G2). destruct (Hp _ G1) as (p' & E1 & B1 & F1). destruct (IH _ G2) as (ps' & E2 & B2 & F2).
            exists (p' :: ps'). cbn [visit_parts map flat_map]. rewrite E1, E2, B1, B2. cbn [bind]. split; auto. split; auto. rewrite map_app. now apply Forall2_app. }
        destruct (node id) eqn:Nd.
        + rewrite held_node in G by exact Nd. inversion G as [|? e ? ? (L & A) G']; subst. inversion G'; subst. clear G G'.
          destruct (laid_inv _ _ L) as (_ & Rm & Fo & Ch). cbn [below] in Ch.
          pose proof (A id e (rd_here _ _ _ _)) as R. unfold right_at in R. destruct (fixes e) as [e'|] eqn:Fe.
          * destruct R as (t' & -> & L'). exists t'. split; auto. destruct (laid_inv _ _ L') as (N' & R' & _). split; [|split; [|now left]].
            -- destruct t' as [id' line' ps']. cbn [node_id] in N'. now rewrite !blank_node.
            -- rewrite held_node by exact N'. cbn [map]. rewrite pass_eq, Fe. auto.
          * rewrite R. pose proof (agrees_below _ _ A Fe Ch) as G. destruct (K _ G) as (ps' & -> & B & F). cbn [bind]. exists (Node id line ps'). split; auto.
            assert (O : outline (Node id line ps') = outline (Node id line ps)) by (cbn [outline]; now rewrite B).
            assert (Rm' : removable (Node id line ps') = removable (Node id line ps)) by (now rewrite <- removable_outline, O, removable_outline).
            split; [now rewrite !blank_node by exact Nd|]. split; [|now right]. rewrite held_node by exact Nd. cbn [map]. constructor; auto. constructor; auto; [congruence| |].
            -- rewrite O, pass_eq, Fe. now apply Law.
            -- cbn [below]. rewrite pass_eq, Fe, children_rebuild. exact F.
        + rewrite held_other in G by exact Nd. rewrite (Wr _ Nd). destruct (K _ G) as (ps' & -> & B & F). cbn [bind]. exists (Node id line ps'). split; auto.
          split; [now rewrite !blank_other, B by exact Nd|]. split; [now rewrite held_other|]. right. rewrite <- removable_outline. cbn [outline]. rewrite B. apply (removable_outline (Node id line ps)).
      - intros s es G. inversion G; subst. exists (Txt s). cbn. auto.
      - intros es G. inversion G; subst. exists Ind. cbn. auto.
      - intros t H es G. destruct (H _ G) as (t' & E & B & F & _). exists (Req t'). split; [cbn [visit_part]; now rewrite E|]. split; [change (Req (blank t') = Req (blank t)); now rewrite B|exact F].
      - intros es G. inversion G; subst. exists (Opt None). cbn. auto.
      - intros t H es G. destruct (H _ G) as (t' & E & B & F & _). exists (Opt (Some t')). split; [cbn [visit_part]; now rewrite E|]. split; [change (Opt (Some (blank t')) = Opt (Some (blank t))); now rewrite B|exact F].
      - intros d es G. inversion G; subst. exists (Sep None d). cbn. auto.
      - intros t d H es G. destruct (H _ G) as (t' & E & B & F & _). exists (Sep (Some t') d). split; [cbn [visit_part]; now rewrite E|]. split; [change (Sep (Some (blank t')) d = Sep (Some (blank t)) d); now rewrite B|exact F].
      - intros pass_ l H es G. rewrite visit_seq_eq. cbn [ProgramSpec.held_part] in G.
        assert (K : exists l', visit_seq acc l = Ok l' /\ map blank l' = map blank l /\ Forall2 laid (flat_map held l') (map (pass fixes) es)).
        { revert es G. induction H as [|t l Ht Hr IH]; intros es G.
          - inversion G; subst. exists []. cbn. auto.
          - cbn [flat_map] in G. apply split2 in G. destruct G as (l1 & l2 & -> & G1 & G2). destruct (Ht _ G1) as (t' & E1 & B1 & F1 & _). destruct (IH _ G2) as (l' & E2 & B2 & F2).
            exists (t' :: l'). cbn [visit_seq map flat_map]. rewrite E1, E2, B1, B2. cbn [bind nodes app]. split; auto. split; auto. rewrite map_app. now apply Forall2_app. }
        destruct K as (l' & -> & B & F). exists (Seq pass_ l'). split; [reflexivity|]. split; [change (Seq pass_ (map blank l') = Seq pass_ (map blank l)); now rewrite B|exact F].
      - intros blk l H es G. rewrite visit_body_eq. cbn [ProgramSpec.held_part] in G.
        assert (K : exists l', visit_body acc l = Ok l' /\ map blank l' = map blank l /\ Forall2 laid (flat_map held l') (map (pass fixes) es)).
        { revert es G. induction H as [|t l Ht Hr IH]; intros es G.
          - inversion G; subst. exists []. cbn. auto.
          - cbn [flat_map] in G. apply split2 in G. destruct G as (l1 & l2 & -> & G1 & G2). destruct (Ht _ G1) as (t' & E1 & B1 & F1 & R1). destruct (IH _ G2) as (l' & E2 & B2 & F2).
            exists (t' :: l'). cbn [visit_body map flat_map]. rewrite E1, E2, B1, B2. cbn [bind]. unfold kept. cbn [nodes filter].
            replace (removable t || negb (removable t')) with true by (destruct R1 as [-> | ->]; [now rewrite orb_true_r|now rewrite orb_negb_r]).
            cbn [app]. split; auto. split; auto. rewrite map_app. now apply Forall2_app. }
        destruct K as (l' & -> & B & F). exists (Body blk l'). split; [reflexivity|]. split; [change (Body blk (map blank l') = Body blk (map blank l)); now rewrite B|exact F].
    Qed.

    Lemma visit_program : forall t e, laid t e -> agrees t e -> exists t', visit acc t = Ok (RNode t') /\ laid t' (pass fixes e).
    Proof.
      intros t e L A. destruct (laid_inv _ _ L) as (Nd & _). destruct (proj1 visit_laid t [e]) as (t' & E & B & F & _).
      - rewrite held_node by exact Nd. constructor; [split; auto|constructor].
      - exists t'. split; auto. cbn [map] in F. destruct t' as [id' line' ps'] eqn:Et. destruct (node id') eqn:N'.
        + rewrite held_node in F by exact N'. inversion F; subst; auto.
        + exfalso. destruct t as [id line ps]. cbn [node_id] in *. rewrite blank_other, blank_node in B by auto. discriminate B.
    Qed.
  End Acc.

  (** ** Nodes are told apart by their identity *)

  Lemma occ_app : forall (l l' : list N) n, count_occ N.eq_dec (l ++ l') n = count_occ N.eq_dec l n + count_occ N.eq_dec l' n.
  Proof. intros. apply count_occ_app. Qed.

  Lemma held_ids : (forall t n, count_occ N.eq_dec (flat_map ids (held t)) n <= count_occ N.eq_dec (ids t) n) /\
    (forall p n, count_occ N.eq_dec (flat_map ids (held_part p)) n <= count_occ N.eq_dec (ids_part p) n).
  Proof.
    apply trees_ind.
    - intros id line ps H n. destruct (node id) eqn:Nd.
      + rewrite held_node by exact Nd. cbn [flat_map]. rewrite app_nil_r. auto.
      + rewrite held_other by exact Nd. cbn [ids count_occ].
        enough (count_occ N.eq_dec (flat_map ids (flat_map held_part ps)) n <= count_occ N.eq_dec (flat_map ids_part ps) n) by (destruct (N.eq_dec id n); lia).
        induction H as [|p ps Hp Hr IH]; [auto|]. cbn [flat_map]. rewrite flat_map_app, !occ_app. specialize (Hp n). lia.
    - auto.
    - auto.
    - intros t H n. apply H.
    - auto.
    - intros t H n. apply H.
    - auto.
    - intros t d H n. apply H.
    - intros ps l H n. change (count_occ N.eq_dec (flat_map ids (flat_map held l)) n <= count_occ N.eq_dec (flat_map ids l) n). induction H as [|t l Ht Hr IH]; [auto|]. cbn [flat_map]. rewrite flat_map_app, !occ_app. specialize (Ht n). lia.
    - intros ps l H n. change (count_occ N.eq_dec (flat_map ids (flat_map held l)) n <= count_occ N.eq_dec (flat_map ids l) n). induction H as [|t l Ht Hr IH]; [auto|]. cbn [flat_map]. rewrite flat_map_app, !occ_app. specialize (Ht n). lia.
  Qed.

  Lemma below_ids : forall t, NoDup (ids t) -> NoDup (flat_map ids (below t)) /\ ~ In (node_id t) (flat_map ids (below t)).
  Proof.
    intros [id line ps] H. cbn [ids below node_id] in *. inversion H as [|? ? Ni Nd]; subst.
    assert (K : forall n, count_occ N.eq_dec (flat_map ids (flat_map held_part ps)) n <= count_occ N.eq_dec (flat_map ids_part ps) n).
    { clear. intro n. induction ps as [|p ps IH]; [auto|]. cbn [flat_map]. rewrite flat_map_app, !occ_app. pose proof (proj2 held_ids p n). lia. }
    split.
    - apply (NoDup_count_occ N.eq_dec). intro n. rewrite (NoDup_count_occ N.eq_dec) in Nd. specialize (Nd n). specialize (K n). lia.
    - rewrite (count_occ_not_In N.eq_dec) in *. specialize (K id). lia.
  Qed.

  Lemma ids_self : forall t, In (node_id t) (ids t).
  Proof. intros [id line ps]. cbn. auto. Qed.
  Lemma below_in : forall t c n, In c (below t) -> In n (ids c) -> In n (ids t).
  Proof.
    intros [id line ps] c n I J. cbn [below ids] in *. right. rewrite (count_occ_In N.eq_dec).
    assert (K : count_occ N.eq_dec (flat_map ids (flat_map held_part ps)) n <= count_occ N.eq_dec (flat_map ids_part ps) n).
    { clear. induction ps as [|p ps IH]; [auto|]. cbn [flat_map]. rewrite flat_map_app, !occ_app. pose proof (proj2 held_ids p n). lia. }
    assert (In n (flat_map ids (flat_map held_part ps))) as X by (apply in_flat_map; eauto). rewrite (count_occ_In N.eq_dec) in X. lia.
  Qed.

  Lemma reached_ids : forall stop t e i x, reached stop t e i x -> In i (ids t).
  Proof. intros stop t e i x H. induction H as [t e|t e t' e' i x _ I _ IH]; [apply ids_self|]. apply in_combine_l in I. eapply below_in; eauto. Qed.

  Lemma reached_sub : forall stop t e i x, reached stop t e i x -> In x (subnodes e).
  Proof. intros stop t e i x H. induction H as [t e|t e t' e' i x _ I _ IH]; [apply subnode_self|]. apply in_combine_r in I. eapply subnode_child; eauto. Qed.

  Lemma reached_more : forall stop stop' t e i x, (forall y, stop y = false -> stop' y = false) -> reached stop t e i x -> reached stop' t e i x.
  Proof. intros stop stop' t e i x S H. induction H as [t e|t e t' e' i x A I _ IH]; [constructor|eapply rd_below; eauto]. Qed.

  Lemma reached_node : forall stop t e i x, laid t e -> reached stop t e i x -> node i = true.
  Proof.
    intros stop t e i x L H. induction H as [t e|t e t' e' i x A I _ IH]; [apply (laid_inv _ _ L)|]. apply IH.
    destruct (laid_inv _ _ L) as (_ & _ & _ & F). clear - F I. induction F as [|a b l l' F1 F2 IH]; [contradiction|]. cbn [combine] in I. destruct I as [I|I]; [now injection I as <- <-|auto].
  Qed.

  Lemma in_two : forall (l : list tree) (l' : list expr) t1 e1 t2 e2 i, NoDup (flat_map ids l) -> In (t1, e1) (combine l l') -> In (t2, e2) (combine l l') ->
    In i (ids t1) -> In i (ids t2) -> t1 = t2 /\ e1 = e2.
  Proof.
    induction l as [|t l IH]; intros l' t1 e1 t2 e2 i Nd I1 I2 J1 J2; [contradiction|]. destruct l' as [|e l']; [contradiction|]. cbn [combine flat_map] in *.
    assert (X : forall t' e', In (t', e') (combine l l') -> In i (ids t') -> In i (ids t) -> False).
    { intros t' e' I J K. apply in_combine_l in I. rewrite (NoDup_count_occ N.eq_dec) in Nd. specialize (Nd i). rewrite occ_app in Nd.
      assert (In i (flat_map ids l)) as Z by (apply in_flat_map; eauto). rewrite (count_occ_In N.eq_dec) in Z, K. lia. }
    assert (Nd' : NoDup (flat_map ids l)) by (clear - Nd; induction (ids t) as [|a b IH]; [exact Nd|inversion Nd; auto]).
    destruct I1 as [I1|I1], I2 as [I2|I2].
    - split; congruence.
    - exfalso. injection I1 as -> ->. eauto.
    - exfalso. injection I2 as -> ->. eauto.
    - eapply IH; eauto.
  Qed.

  Lemma reached_same : forall stop stop' t e i x x', NoDup (ids t) -> reached stop t e i x -> reached stop' t e i x' -> x = x'.
  Proof.
    intros stop stop' t e i x x' Nd H. revert x' Nd. induction H as [t e|t e t' e' i x A I H IH]; intros x' Nd H'; destruct (below_ids t Nd) as [Nd1 Nd2].
    - inversion H' as [|? ? t1 e1 ? ? A1 I1 H1]; subst; auto. exfalso. apply Nd2. apply in_flat_map. exists t1. split; [eapply in_combine_l; eauto|]. eapply reached_ids; eauto.
    - inversion H' as [|? ? t1 e1 ? ? A1 I1 H1]; subst.
      + exfalso. apply Nd2. apply in_flat_map. exists t'. split; [eapply in_combine_l; eauto|]. eapply reached_ids; eauto.
      + assert (t' = t1 /\ e' = e1) as (-> & ->) by (eapply in_two; eauto; eapply reached_ids; eauto).
        apply IH; auto. clear - Nd1 I1. apply in_combine_l in I1. induction (below t) as [|a l IH]; [contradiction|]. cbn [flat_map] in Nd1. destruct I1 as [->|I1].
        * clear - Nd1. rewrite (NoDup_count_occ N.eq_dec) in *. intro n. specialize (Nd1 n). rewrite occ_app in Nd1. lia.
        * apply IH; auto. clear - Nd1. induction (ids a) as [|x l' IH]; [exact Nd1|inversion Nd1; auto].
  Qed.

  (** ** What rules say, and what is accepted *)

  Definition matches (v : viol) (s : say) : Prop := v_node v = s_node s /\ v_replacement v = s_replacement s.

  Lemma set_other : forall (l : list viol) d i, (forall v, In v l -> v_node v = i -> v_replacement v = None) -> fold_left set_repl l d i = d i.
  Proof.
    induction l as [|v l IH]; intros d i H; [reflexivity|]. cbn [fold_left]. rewrite IH by (intros w I; apply H; simpl; auto). unfold set_repl.
    destruct (autofixable v) eqn:A; auto. destruct (N.eqb_spec i (v_node v)) as [->|]; auto. unfold autofixable in A. rewrite (H v) in A by (simpl; auto). discriminate.
  Qed.

  Lemma set_some : forall (l : list viol) d i e', (forall v, In v l -> v_node v = i -> exists t', v_replacement v = Some (RNode t') /\ laid t' e') ->
    (exists t', d i = Some (RNode t') /\ laid t' e') \/ (exists v, In v l /\ v_node v = i) -> exists t', fold_left set_repl l d i = Some (RNode t') /\ laid t' e'.
  Proof.
    induction l as [|v l IH]; intros d i e' H X.
    - destruct X as [X|(v & [] & _)]. exact X.
    - cbn [fold_left]. apply IH; [intros w I; apply H; simpl; auto|]. unfold set_repl. destruct (N.eqb_spec i (v_node v)) as [->|Ne].
      + left. destruct (H v) as (t' & E & L); [simpl; auto|auto|]. unfold autofixable. rewrite E. cbn [truthy_repl]. rewrite N.eqb_refl. eauto.
      + destruct X as [X|(w & [->|I] & E)]; [|congruence|eauto]. left. destruct (autofixable v); auto. destruct (N.eqb_spec i (v_node v)); [contradiction|auto].
  Qed.

  Lemma one_rule : forall r t e xs (l : list viol) d i x, NoDup (ids t) -> speaks node form r t e xs -> Forall2 matches l xs -> reached (has_fix r) t e i x ->
    match replacement_of (r x) with
    | Some e' => exists t', fold_left set_repl l d i = Some (RNode t') /\ laid t' e'
    | None => fold_left set_repl l d i = d i
    end.
  Proof.
    intros r t e xs l d i x Nd (S1 & S2) Fm R.
    assert (In_l : forall v, In v l -> exists s, In s xs /\ matches v s).
    { clear - Fm. induction Fm as [|v s l xs M F IH]; [intros v []|]. intros w [->|I]; [exists s; simpl; auto|]. destruct (IH w I) as (s' & I' & M'). exists s'. simpl. auto. }
    assert (In_x : forall s, In s xs -> exists v, In v l /\ matches v s).
    { clear - Fm. induction Fm as [|v s l xs M F IH]; [intros v []|]. intros w [->|I]; [exists v; simpl; auto|]. destruct (IH w I) as (s' & I' & M'). exists s'. simpl. auto. }
    assert (Here : forall v, In v l -> v_node v = i -> exists o, r x = Ok (Some o) /\ match o, v_replacement v with None, None => True | Some e', Some (RNode t') => laid t' e' | _, _ => False end).
    { intros v I E. destruct (In_l v I) as (s & Is & (M1 & M2)). destruct (S1 s Is) as (x' & o & A & Rx & Q). rewrite <- M1, E in A.
      assert (x' = x) as -> by (eapply reached_same; [exact Nd|exact A|exact R]). exists o. rewrite M2. auto. }
    destruct (replacement_of (r x)) as [e'|] eqn:Rp.
    - assert (Rx : r x = Ok (Some (Some e'))) by (unfold replacement_of in Rp; destruct (r x) as [[o|]|]; try discriminate; now rewrite Rp).
      apply set_some.
      + intros v I E. destruct (Here v I E) as (o & Ro & Q). rewrite Rx in Ro. injection Ro as <-. destruct (v_replacement v) as [[t'| |]|]; try contradiction. eauto.
      + right. destruct (S2 i x _ R Rx) as (s & Is & Es). destruct (In_x s Is) as (v & I & (M1 & _)). exists v. split; auto. congruence.
    - apply set_other. intros v I E. destruct (Here v I E) as (o & Ro & Q). rewrite Ro in Rp. cbn in Rp. subst o. destruct (v_replacement v); [contradiction|auto].
  Qed.

  Lemma all_rules : forall rules parts d found t e i x, NoDup (ids t) ->
    Forall2 (fun r l => exists xs, speaks node form r t e xs /\ Forall2 matches l xs) rules parts ->
    (forall r, In r rules -> reached (has_fix r) t e i x) ->
    match found with Some e' => exists t', d i = Some (RNode t') /\ laid t' e' | None => d i = None end ->
    match fold_left (fun found rule => match replacement_of (rule x) with Some e' => Some e' | None => found end) rules found with
    | Some e' => exists t', fold_left set_repl (concat parts) d i = Some (RNode t') /\ laid t' e'
    | None => fold_left set_repl (concat parts) d i = None
    end.
  Proof.
    intros rules parts d found t e i x Nd F. revert d found. induction F as [|r l rules parts (xs & S & M) F IH]; intros d found R D; [exact D|].
    cbn [fold_left concat]. rewrite fold_left_app. apply IH; [intros r' I; apply R; simpl; auto|].
    pose proof (one_rule r t e xs l d i x Nd S M (R r (or_introl eq_refl))) as O. destruct (replacement_of (r x)) as [e'|]; [exact O|]. rewrite O. exact D.
  Qed.

  Lemma says_nodes : forall rules parts t e v, laid t e -> Forall2 (fun r l => exists xs, speaks node form r t e xs /\ Forall2 matches l xs) rules parts ->
    In v (concat parts) -> node (v_node v) = true.
  Proof.
    intros rules parts t e v L F. induction F as [|r l rules parts (xs & (S1 & _) & M) F IH]; intro I; [contradiction|]. cbn [concat] in I. apply in_app_iff in I. destruct I as [I|I]; auto.
    assert (exists s, In s xs /\ matches v s) as (s & Is & (M1 & _)).
    { clear - M I. induction M as [|w s l xs M F IH]; [contradiction|]. destruct I as [->|I]; [exists s; simpl; auto|]. destruct (IH I) as (s' & I' & M'). exists s'. simpl. auto. }
    rewrite M1. destruct (S1 s Is) as (x & o & A & _). eapply reached_node; eauto.
  Qed.

  (** Applying all that the rules propose is one pass over the program. *)
  Lemma apply_program : forall md e rules parts, laid (m_tree md) e -> NoDup (ids (m_tree md)) ->
    Forall2 (fun r l => exists xs, speaks node form r (m_tree md) e xs /\ Forall2 matches l xs) rules parts ->
    exists md', apply_replacements md (concat parts) = Ok (Some md') /\ laid (m_tree md') (pass (Whole.replacements rules) e).
  Proof.
    intros md e rules parts L Nd F. unfold apply_replacements, visit_module. set (acc := replacements (concat parts)).
    assert (Wr : forall i, node i = false -> acc i = None).
    { intros i Ni. pose proof (replacements_spec (concat parts) i) as R. fold acc in R. destruct (acc i) as [r|]; auto. exfalso.
      destruct R as (vs1 & v & vs2 & E & En & _). assert (node (v_node v) = true) by (eapply says_nodes; eauto; rewrite E; apply in_or_app; simpl; auto). congruence. }
    destruct (visit_program acc (Whole.replacements rules) Wr (m_tree md) e L) as (t' & -> & L').
    - intros i x R. unfold right_at, acc, replacements, Whole.replacements. apply (all_rules rules parts (fun _ => None) None (m_tree md) e i x Nd F); [|reflexivity].
      intros r Ir. eapply reached_more; [|exact R]. intros y Hy. unfold fixed_here in Hy. destruct (Whole.replacements rules y) eqn:E; [discriminate|].
      unfold has_fix. destruct (r y) as [[[e'|]|]|] eqn:Ry; auto. exfalso. eapply replacements_none; eauto.
    - cbn [bind]. eexists. split; [reflexivity|]. exact L'.
  Qed.
End Visit.
