(** * C88: the rule classes about expressions on whole files *)
From Coq Require Import String List NArith Bool Arith Lia Permutation.
From Verif Require Import Base PyStr Py Rules RulesSpec Whole WholeSpec WholeFacts WholeProps Ftypes Paths Config Collect CollectSpec Suppress SuppressSpec Cst EditFacts
  Engine Batch BatchProps Api ApiSpec System SystemSpec SystemProps Session SessionSpec Cli CliSpec Commands CommandsSpec DiskSpec ProgramSpec ProgramFacts ProgramProps
  Visitors VisitorsSpec VisitorsFacts.
Import ListNotations.

Section Classes.
  Context (node : N -> bool) (form : expr -> tree -> Prop) (other : expr -> str) (read : tree -> expr) (write : tree -> expr -> tree).
  Notation exprs := (exprs node).
  Notation laid := (laid node form).
  Notation below := (below node).
  Notation look := (look read write).
  Notation says_each := (says_each read write).

  Lemma acting_look : forall text r ts xs, acting (fun t (_ : unit) => look text r t) ts tt = (xs, Ok tt) -> xs = says_each text r ts /\ forall t err, In t ts -> r (read t) <> Err err.
  Proof.
    intros text r ts. induction ts as [|t ts IH]; intros xs H; cbn [acting] in H; [injection H as <-; split; [reflexivity|intros t err []]|].
    unfold Visitors.look in H at 1. cbn [VisitorsSpec.says_each flat_map]. fold (says_each text r ts). destruct (r (read t)) as [[o|]|err] eqn:E; [| |discriminate H].
    - destruct (acting _ ts tt) as [ys o'] eqn:A. injection H as <- ->. destruct (IH _ eq_refl) as (-> & Ne). split; [reflexivity|]. intros t' err' [<-|I]; [congruence|auto].
    - destruct (acting _ ts tt) as [ys o'] eqn:A. injection H as <- ->. destruct (IH _ eq_refl) as (-> & Ne). split; [reflexivity|]. intros t' err' [<-|I]; [congruence|auto].
  Qed.

  Lemma each_filter : forall text r types ts, (forall x, existsb (str_eqb (type_of other x)) types = false -> r x = Ok None) ->
    says_each text r (filter (fun t => existsb (str_eqb (type_of other (read t))) types) ts) = says_each text r ts /\
    ((forall t err, In t (filter (fun t => existsb (str_eqb (type_of other (read t))) types) ts) -> r (read t) <> Err err) -> forall t err, In t ts -> r (read t) <> Err err).
  Proof.
    intros text r types ts Q. split.
    - induction ts as [|t ts IH]; [reflexivity|]. cbn [filter VisitorsSpec.says_each flat_map]. fold (says_each text r ts). rewrite <- IH. destruct (existsb _ _) eqn:E; [reflexivity|]. now rewrite (Q _ E).
    - intros H t err I. destruct (existsb (str_eqb (type_of other (read t))) types) eqn:E; [apply H; apply filter_In; auto|]. rewrite (Q _ E). discriminate.
  Qed.

  Lemma visitor_goes : forall name msg types text r md M xs, Forall no_underscore types -> (forall x, existsb (str_eqb (type_of other x)) types = false -> r x = Ok None) ->
    NoDup (ids (m_tree md)) -> walks node other read md M ->
    goes (visitor node read write name msg types text r) md (calls (d_tree M)) tt = (xs, Ok tt) ->
    xs = says_each text r (exprs (m_tree md)) /\ forall t err, In t (exprs (m_tree md)) -> r (read t) <> Err err.
  Proof.
    intros name msg types text r md M xs Nu Q Nd W H. pose (C := visitor node read write name msg types text r).
    rewrite (goes_acting node other read C md M types (fun t (_ : unit) => look text r t)) in H; auto.
    apply acting_look in H. destruct H as (-> & Ne). destruct (each_filter text r types (exprs (m_tree md)) Q) as (-> & Ne'). auto.
  Qed.

  (** use_fstring.py: the module is visited first *)
  Lemma fstring_goes : forall name msg text r md i attrs,
    let F := fstring_visitor node read write name msg text r in
    let V := visitor node read write name msg [u "Call"; u "BinaryOperation"] text r in
    let c := Cst i (u "Module") attrs in
    fst (goes F md (calls c) false) = fst (goes V md (calls c) tt) /\ forall b, snd (goes F md (calls c) false) = Ok b -> snd (goes V md (calls c) tt) = Ok tt.
  Proof.
    intros name msg text r md i attrs F V c.
    assert (K : forall cs, fst (goes F md cs true) = fst (goes V md cs tt) /\ forall b, snd (goes F md cs true) = Ok b -> snd (goes V md cs tt) = Ok tt).
    { induction cs as [|[m t] cs (IH1 & IH2)]; [split; [reflexivity|reflexivity]|]. cbn [goes F V fstring_visitor visitor k_method is_visit existsb].
      change (u "visit_" ++ u "Call") with (u "visit_Call"). change (u "visit_" ++ u "BinaryOperation") with (u "visit_BinaryOperation"). rewrite orb_false_r.
      destruct (str_eqb m (u "visit_Module")) eqn:Em.
      { apply str_eqb_eq in Em. subst m. change (str_eqb (u "visit_Module") (u "visit_Call") || str_eqb (u "visit_Module") (u "visit_BinaryOperation")) with false.
        fold F. fold V. destruct (goes F md cs true) as [ys o]. split; [exact IH1|exact IH2]. }
      destruct (str_eqb m (u "visit_Call") || _) eqn:E; [|split; [exact IH1|exact IH2]]. cbn [negb]. rewrite andb_false_r. destruct (view node md (cst_id t)) as [n|].
      - unfold Visitors.look. destruct (r (read n)) as [[o|]|err]; cbn [bind]; fold F; fold V; [| |split; [reflexivity|discriminate]].
        + destruct (goes F md cs true) as [ys1 o1], (goes V md cs tt) as [ys2 o2]. cbn [fst snd] in *. subst ys2. split; [reflexivity|exact IH2].
        + destruct (goes F md cs true) as [ys1 o1], (goes V md cs tt) as [ys2 o2]. cbn [fst snd] in *. subst ys2. split; [reflexivity|exact IH2].
      - fold F. fold V. destruct (goes F md cs true) as [ys1 o1], (goes V md cs tt) as [ys2 o2]. cbn [fst snd] in *. subst ys2. split; [reflexivity|exact IH2]. }
    set (rest := tl (calls c)). assert (E : calls c = (u "visit_Module", c) :: rest) by reflexivity. rewrite E.
    change (goes F md ((u "visit_Module", c) :: rest) false) with (let (ys, o) := goes F md rest true in ([] ++ ys, o)).
    change (goes V md ((u "visit_Module", c) :: rest) tt) with (goes V md rest tt). destruct (K rest) as (K1 & K2). destruct (goes F md rest true) as [ys o]. split; [exact K1|exact K2].
  Qed.

  Context (Read : forall t e, laid t e -> read t = e).

  Lemma each_speaks : forall text r root e, laid root e -> NoDup (ids root) ->
    (forall t x e', In x (subnodes e) -> laid t x -> r x = Ok (Some (Some e')) -> laid (write t e') e') ->
    speaks node form r root e (says_each text r (exprs root)).
  Proof.
    intros text r root e L Nd Wr. split.
    - intros s Is. apply in_flat_map in Is. destruct Is as (t & It & Is). destruct (in_exprs node form root e L t It) as (x & Lx & Ax). rewrite (Read _ _ Lx) in Is.
      destruct (r x) as [[o|]|] eqn:E; [|destruct Is|destruct Is]. destruct Is as [<-|[]]. exists x, o. split; [exact Ax|]. split; [exact E|]. cbn [s_replacement]. destruct o as [e'|]; cbn [option_map]; [|exact Logic.I].
      eapply Wr; eauto. eapply reached_sub; exact Ax.
    - intros i x o R E. assert (A : at_node node root e i x) by (eapply reached_more; [|exact R]; reflexivity).
      destruct (exprs_in node form root e i x L A) as (t & It & <- & Lx). exists (Say (node_id t) (text x) PosDefault (option_map (fun e0 => RNode (write t e0)) o)). split; [|reflexivity]. apply in_flat_map. exists t. split; [exact It|]. rewrite (Read _ _ Lx), E. left. reflexivity.
  Qed.

  (** ** chained_instance_check.py *)
  Definition is_or (e : expr) : bool := match e with BoolOp _ Or _ => true | _ => false end.

  (** The left operand of an "or" comes directly after it. *)
  Lemma exprs_split : forall t x, In x (exprs t) -> exists a b, exprs t = a ++ exprs x ++ b.
  Proof.
    enough (H : (forall t x, In x (exprs t) -> exists a b, exprs t = a ++ exprs x ++ b) /\ (forall p x, In x (exprs_part node p) -> exists a b, exprs_part node p = a ++ exprs x ++ b)) by apply H.
    assert (L : forall (A : Type) (f : A -> list tree) (l : list A), Forall (fun y => forall x, In x (f y) -> exists a b, f y = a ++ exprs x ++ b) l ->
      forall x, In x (flat_map f l) -> exists a b, flat_map f l = a ++ exprs x ++ b).
    { intros A f l F x I. induction F as [|y l Hy F IH]; [destruct I|]. cbn [flat_map] in *. apply in_app_iff in I. destruct I as [I|I].
      - destruct (Hy _ I) as (a & b & ->). exists a, (b ++ flat_map f l). now rewrite <- !app_assoc.
      - destruct (IH I) as (a & b & ->). exists (f y ++ a), b. now rewrite <- !app_assoc. }
    apply trees_ind.
    - intros id line ps H x I. pose proof (L _ _ _ H) as Lp. clear L H. rewrite exprs_eq in I. apply in_app_iff in I. destruct I as [I|I].
      + destruct (node id) eqn:E; [|destruct I]. destruct I as [<-|[]]. exists [], []. now rewrite app_nil_r.
      + destruct (Lp _ I) as (a & b & Eq). rewrite (exprs_eq node id line ps), Eq. exists ((if node id then [Node id line ps] else []) ++ a), b. now rewrite <- !app_assoc.
    - intros s x [].
    - intros x [].
    - intros t H. exact H.
    - intros x [].
    - intros t H. exact H.
    - intros d x [].
    - intros t d H. exact H.
    - intros pass l H. exact (L _ _ _ H).
    - intros blk l H. exact (L _ _ _ H).
  Qed.

  Lemma laid_below : forall t e c, laid t e -> In c (below t) -> exists x, laid c x /\ In (c, x) (combine (below t) (children e)).
  Proof.
    intros t e c L I. destruct (laid_inv _ _ _ _ L) as (_ & _ & _ & Ch). induction Ch as [|a b l l' F1 F2 IH]; [destruct I|]. destruct I as [<-|I]; [exists b; split; [exact F1|now left]|].
    destruct (IH I) as (x & Lx & Ix). exists x. split; [exact Lx|now right].
  Qed.

  (** The first operand of an "or" *)
  Lemma or_below : forall t l r, laid t (BoolOp l Or r) -> exists tl rest, below t = tl :: rest /\ laid tl l.
  Proof. intros t l r L. destruct (laid_inv _ _ _ _ L) as (_ & _ & _ & Ch). cbn [children] in Ch. inversion Ch; subst. eauto. Qed.

  Lemma next_left : forall t l r tl rest, laid t (BoolOp l Or r) -> below t = tl :: rest -> exists more, exprs t = t :: tl :: more.
  Proof.
    intros t l r tl rest L B. destruct (laid_inv _ _ _ _ L) as (Nt & _). rewrite exprs_below by exact Nt. rewrite B. cbn [flat_map].
    destruct (or_below _ _ _ L) as (tl' & rest' & B' & Ll). assert (tl' = tl) as -> by congruence. destruct (laid_inv _ _ _ _ Ll) as (Nl & _). rewrite (exprs_below node tl) by exact Nl.
    cbn [app]. eauto.
  Qed.

  Section Chain.
    Context (root : tree) (e0 : expr) (L0 : laid root e0) (Nd : NoDup (ids root)).
    Notation inner := (left_of_or node read root).

    Lemma ids_exprs : NoDup (map node_id (exprs root)).
    Proof.
      apply (NoDup_count_occ N.eq_dec). intro n. rewrite (NoDup_count_occ N.eq_dec) in Nd. specialize (Nd n). pose proof (proj1 (exprs_ids node) root n). lia.
    Qed.
    Lemma exprs_one : forall t t', In t (exprs root) -> In t' (exprs root) -> node_id t = node_id t' -> t = t'.
    Proof.
      pose proof ids_exprs as N. induction (exprs root) as [|x l IH]; intros t t' I I' E; [destruct I|]. cbn [map] in N. inversion N as [|? ? Ni Nl]; subst.
      destruct I as [->|I], I' as [->|I']; auto.
      - exfalso. apply Ni. rewrite E. now apply in_map.
      - exfalso. apply Ni. rewrite <- E. now apply in_map.
    Qed.
    Lemma exprs_laid : forall t, In t (exprs root) -> laid t (read t).
    Proof. intros t I. destruct (in_exprs node form root e0 L0 t I) as (x & Lx & _). now rewrite (Read _ _ Lx). Qed.
    Lemma exprs_trans : forall t t', In t (exprs root) -> In t' (exprs t) -> In t' (exprs root).
    Proof. intros t t' I I'. destruct (exprs_split root t I) as (a & b & ->). apply in_or_app. right. apply in_or_app. now left. Qed.

    Lemma inner_of : forall t l r tl rest, In t (exprs root) -> read t = BoolOp l Or r -> below t = tl :: rest -> inner tl = true.
    Proof. intros t l r tl rest I R B. apply existsb_exists. exists t. split; [exact I|]. now rewrite R, B, N.eqb_refl. Qed.

    (** The nodes of a chain: the outermost, and left operands of others; with each its own left operand *)
    Lemma chain_spec : forall e t, laid t e -> In t (exprs root) -> (is_or e = true -> In (node_id t) (chain node e t)) /\
      forall i, In i (chain node e t) -> exists t1 l r tl rest, In t1 (exprs root) /\ node_id t1 = i /\ read t1 = BoolOp l Or r /\ (t1 = t \/ inner t1 = true) /\
        below t1 = tl :: rest /\ (is_or l = true -> In (node_id tl) (chain node e t)).
    Proof.
      induction e; intros t L I; try (split; [discriminate|intros i []]). destruct op; [split; [discriminate|intros i []]|].
      destruct (or_below _ _ _ L) as (tl & rest & B & Ll). destruct (next_left _ _ _ _ _ L B) as (more & X).
      assert (Il : In tl (exprs root)) by (apply (exprs_trans t); [exact I|rewrite X; right; now left]).
      destruct (IHe1 tl Ll Il) as (H1 & H2). cbn [chain]. rewrite B. split; [left; reflexivity|].
      intros i [<-|J].
      - exists t, e1, e2, tl, rest. split; auto. split; auto. split; [apply Read; exact L|]. split; auto. split; auto. intro O. right. auto.
      - destruct (H2 i J) as (t1 & l & r & tl1 & rest1 & K1 & K2 & K3 & K4 & K5 & K6). exists t1, l, r, tl1, rest1. repeat (split; auto).
        + right. destruct K4 as [->|K4]; [|exact K4]. eapply inner_of; [exact I|apply Read; exact L|exact B].
        + intro O. right. auto.
    Qed.

    Context (text : expr -> option str) (deq : expr -> expr -> bool) (is_isinstance : expr -> bool).
    Notation r := (sure (collapse deq is_isinstance)).
    Notation boolop := (fun t => existsb (str_eqb (type_of other (read t))) [u "BooleanOperation"]).
    Definition act : tree -> list N -> list say * res (list N) := fun t seen =>
      if existsb (N.eqb (node_id t)) seen then ([], Ok seen) else let (xs, o) := look text r t in (xs, let! _ := o in Ok (seen ++ chain node (read t) t)).

    Lemma no_or_quiet : forall e, is_or e = false -> collapse deq is_isinstance e = None.
    Proof. intros e H. destruct e; try reflexivity. destruct op; [reflexivity|discriminate H]. Qed.

    Lemma chain_acting : forall ts pre seen, exprs root = pre ++ ts ->
      (forall t, In t pre -> is_or (read t) = true -> In (node_id t) seen) ->
      (forall i, In i seen -> exists t1 l r tl rest, In t1 (exprs root) /\ node_id t1 = i /\ read t1 = BoolOp l Or r /\ (In t1 pre \/ inner t1 = true) /\
        below t1 = tl :: rest /\ (is_or l = true -> In (node_id tl) seen)) ->
      exists seen', acting act (filter boolop ts) seen = (says_each text r (filter (fun t => negb (inner t)) ts), Ok seen').
    Proof.
      induction ts as [|t ts IH]; intros pre seen E H1 H2; [exists seen; reflexivity|].
      assert (It : In t (exprs root)) by (rewrite E; apply in_or_app; right; now left). pose proof (exprs_laid t It) as Lt.
      assert (E' : exprs root = (pre ++ [t]) ++ ts) by (rewrite <- app_assoc; exact E).
      assert (H2' : forall i, In i seen -> exists t1 l r tl rest, In t1 (exprs root) /\ node_id t1 = i /\ read t1 = BoolOp l Or r /\ (In t1 (pre ++ [t]) \/ inner t1 = true) /\
        below t1 = tl :: rest /\ (is_or l = true -> In (node_id tl) seen)).
      { intros i Is. destruct (H2 i Is) as (t1 & l & r & tl & rest & K1 & K2 & K3 & K4 & K5 & K6). exists t1, l, r, tl, rest. repeat (split; auto). destruct K4; [left; apply in_or_app; auto|auto]. }
      assert (Np : ~ In t pre).
      { intro J. pose proof ids_exprs as Nx. rewrite E, map_app in Nx. cbn [map] in Nx. apply NoDup_remove_2 in Nx. apply Nx. apply in_or_app. left. now apply in_map. }
      (* not an "or": nothing is said or remembered *)
      destruct (is_or (read t)) eqn:O.
      2:{ assert (Q : says_each text r (filter (fun t => negb (inner t)) (t :: ts)) = says_each text r (filter (fun t => negb (inner t)) ts)).
          { cbn [filter]. destruct (negb (inner t)); [|reflexivity]. cbn [VisitorsSpec.says_each flat_map]. unfold sure. now rewrite no_or_quiet. }
          rewrite Q. destruct (IH (pre ++ [t]) seen E') as (seen' & A); auto.
          { intros t' J O'. apply in_app_iff in J. destruct J as [J|[<-|[]]]; [auto|congruence]. }
          cbn [filter]. destruct (existsb _ [_]) eqn:B; [|exists seen'; exact A]. cbn [acting]. unfold act at 1.
          destruct (existsb (N.eqb (node_id t)) seen); [rewrite A; exists seen'; reflexivity|]. unfold Visitors.look, sure. rewrite no_or_quiet by exact O. cbn [bind].
          assert (C : chain node (read t) t = []) by (destruct (read t); try reflexivity; destruct op; [reflexivity|discriminate O]). rewrite C, app_nil_r. fold r. rewrite A. exists seen'. reflexivity. }
      destruct (read t) as [| | | | | | | | |l op rr| | | | | | | | | | | |] eqn:R; try discriminate O. destruct op; [discriminate O|].
      cbn [filter]. rewrite R. change (existsb (str_eqb (type_of other (BoolOp l Or rr))) [u "BooleanOperation"]) with true. cbn iota. cbn [acting]. unfold act at 1.
      destruct (existsb (N.eqb (node_id t)) seen) eqn:Se.
      - apply existsb_exists in Se. destruct Se as (i & Is & Ei). apply N.eqb_eq in Ei. subst i.
        destruct (H2 _ Is) as (t1 & l1 & r1 & tl1 & rest1 & K1 & K2 & _ & K4 & _). assert (t1 = t) as -> by now apply exprs_one.
        destruct K4 as [K4|K4]; [contradiction|]. rewrite K4. cbn [negb]. destruct (IH (pre ++ [t]) seen E') as (seen' & A); auto.
        { intros t' J O'. apply in_app_iff in J. destruct J as [J|[<-|[]]]; auto. }
        rewrite A. exists seen'. reflexivity.
      - assert (Ni : inner t = false).
        { destruct (inner t) eqn:X; [|reflexivity]. exfalso. apply existsb_exists in X. destruct X as (t' & I' & X). pose proof (exprs_laid t' I') as L'.
          destruct (read t') as [| | | | | | | | |l' op' r'| | | | | | | | | | | |] eqn:R'; try discriminate X. destruct op'; [discriminate X|].
          destruct (below t') as [|tl' rest'] eqn:B'; [discriminate X|]. apply N.eqb_eq in X. destruct (next_left _ _ _ _ _ L' B') as (more & Y).
          destruct (exprs_split root t' I') as (a & b & Z). rewrite Y in Z.
          assert (Tl : In tl' (exprs root)) by (rewrite Z; apply in_or_app; right; right; left; reflexivity). assert (tl' = t) as -> by now apply exprs_one.
          assert (Ip : In t' pre).
          { assert (Eq : pre = a ++ [t']).
            { clear - Z E Nd. pose proof ids_exprs as Nx. assert (S : pre ++ t :: ts = (a ++ [t']) ++ t :: more ++ b) by (rewrite <- E, Z, <- app_assoc; reflexivity).
              assert (N : NoDup (map node_id (pre ++ t :: ts))) by (rewrite <- E; exact Nx). clear - S N. revert S N. generalize (a ++ [t']) as c. intro c. revert c. induction pre as [|x pre IH]; intros [|y c] S N; auto.
              - cbn [app] in S. injection S as <- S. exfalso. cbn [app map] in N. inversion N as [|? ? Ni _]; subst. apply Ni. rewrite map_app. apply in_or_app. right. left. reflexivity.
              - cbn [app] in S. injection S as -> S. exfalso. cbn [app map] in N. inversion N as [|? ? Ni _]; subst. apply Ni. rewrite map_app. apply in_or_app. right. left. reflexivity.
              - cbn [app] in S. injection S as -> S. f_equal. apply IH; auto. cbn [app map] in N. now inversion N. }
            rewrite Eq. apply in_or_app. right. left. reflexivity. }
          assert (Is : In (node_id t') seen) by (apply H1; [exact Ip|now rewrite R']).
          destruct (H2 _ Is) as (t1 & l1 & r1 & tl1 & rest1 & K1 & K2 & K3 & _ & K5 & K6). assert (t1 = t') as -> by now apply exprs_one.
          assert (tl1 = t) as -> by congruence. destruct (or_below t' l1 r1) as (tl2 & rest2 & B2 & L2); [rewrite K3 in R'; injection R' as -> ->; exact L'|].
          assert (tl2 = t) as -> by congruence. assert (read t = l1) by (apply Read; exact L2). assert (Il : In (node_id t) seen) by (apply K6; rewrite <- H, R; reflexivity).
          assert (existsb (N.eqb (node_id t)) seen = true) by (apply existsb_exists; exists (node_id t); split; [exact Il|apply N.eqb_refl]). congruence. }
        rewrite Ni. cbn [negb]. destruct (chain_spec (read t) t) as (C1 & C2); [rewrite R; exact Lt|exact It|]. rewrite R in C1, C2.
        destruct (IH (pre ++ [t]) (seen ++ chain node (BoolOp l Or rr) t) E') as (seen' & A).
        { intros t' J O'. apply in_or_app. apply in_app_iff in J. destruct J as [J|[<-|[]]]; [auto|]. right. apply C1. reflexivity. }
        { intros i J. apply in_app_iff in J. destruct J as [J|J].
          - destruct (H2' i J) as (t1 & l1 & r1 & tl & rest & K1 & K2 & K3 & K4 & K5 & K6). exists t1, l1, r1, tl, rest. repeat (split; auto). intro X. apply in_or_app. auto.
          - destruct (C2 i J) as (t1 & l1 & r1 & tl & rest & K1 & K2 & K3 & K4 & K5 & K6). exists t1, l1, r1, tl, rest. repeat (split; auto).
            + destruct K4 as [->|K4]; [left; apply in_or_app; right; now left|auto].
            + intro X. apply in_or_app. auto. }
        unfold Visitors.look, sure. cbn [VisitorsSpec.says_each flat_map]. rewrite !R. destruct (collapse deq is_isinstance (BoolOp l Or rr)) as [o|]; cbn [bind]; fold r; rewrite A; exists seen'; reflexivity.
    Qed.

    Lemma chain_goes : forall name msg md M, m_tree md = root -> walks node other read md M ->
      exists seen, goes (chain_visitor node read write name msg text r) md (calls (d_tree M)) [] = (says_each text r (filter (fun t => negb (inner t)) (exprs root)), Ok seen).
    Proof.
      intros name msg md M Em W. pose (C := chain_visitor node read write name msg text r).
      rewrite (goes_acting node other read C md M [u "BooleanOperation"] act).
      - rewrite Em. apply (chain_acting _ []); [reflexivity|intros t []|intros i []].
      - intro m. cbn [C chain_visitor k_method is_visit existsb]. change (u "visit_" ++ u "BooleanOperation") with (u "visit_BooleanOperation"). now rewrite orb_false_r.
      - repeat constructor. intro J. vm_compute in J. repeat (destruct J as [J|J]; [discriminate J|]). exact J.
      - rewrite Em. exact Nd.
      - exact W.
    Qed.
  End Chain.

  Lemma NoDup_two : forall (l l' : list N), NoDup (l ++ l') -> NoDup l /\ NoDup l'.
  Proof.
    intros l l' H. rewrite !(NoDup_count_occ N.eq_dec) in *. split; intro n; specialize (H n); rewrite count_occ_app in H; lia.
  Qed.
  Lemma ids_incl : forall t e, laid t e -> forall t' n, In t' (exprs t) -> In n (ids t') -> In n (ids t).
  Proof.
    apply (laid_ind2 node form (fun t e => forall t' n, In t' (exprs t) -> In n (ids t') -> In n (ids t))).
    intros t e Nt Rt Fm Ch IH t' n I J. rewrite exprs_below in I by exact Nt. destruct I as [<-|I]; [exact J|]. apply in_flat_map in I. destruct I as (c & Ic & I).
    apply (below_in node t c n Ic). clear - IH Ic I J. induction IH as [|a b l l' H1 H2 IH]; [destruct Ic|]. destruct Ic as [<-|Ic]; [eapply H1; eauto|auto].
  Qed.

  (** A node is reached through those around it. *)
  Lemma reached_parent : forall stop root e, laid root e -> forall t' x' t x, NoDup (ids root) -> In t' (exprs root) -> laid t' x' -> In t (below t') ->
    reached node stop root e (node_id t) x -> stop x' = false.
  Proof.
    intros stop. apply (laid_ind2 node form (fun root e => forall t' x' t x, NoDup (ids root) -> In t' (exprs root) -> laid t' x' -> In t (below t') ->
      reached node stop root e (node_id t) x -> stop x' = false)).
    intros root e Nt Rt Fm Ch IH t' x' t x Nd I L' B R. destruct (below_ids node root Nd) as (Nb & Nr). rewrite exprs_below in I by exact Nt. destruct I as [<-|I].
    - assert (x' = e) as -> by (rewrite <- (Read _ _ L'); apply Read; now constructor). inversion R as [t1 e1 E1|t1 e1 c ce i y Sf Ic Rc]; subst; [|exact Sf]. exfalso. apply Nr.
      apply in_flat_map. exists t. split; [exact B|]. match goal with H : node_id root = _ |- _ => rewrite H end. apply ids_self.
    - apply in_flat_map in I. destruct I as (c & Ic & I).
      assert (K : exists ce, In (c, ce) (combine (below root) (children e)) /\ laid c ce /\ (forall t' x' t x, NoDup (ids c) -> In t' (exprs c) -> laid t' x' -> In t (below t') -> reached node stop c ce (node_id t) x -> stop x' = false)).
      { clear - Ch IH Ic. revert Ch. induction IH as [|a b l l' H1 H2 IH]; intro Ch; [destruct Ic|]. inversion Ch; subst. destruct Ic as [<-|Ic]; [exists b; split; [now left|auto]|].
        destruct (IH Ic) as (ce & J & K); auto. exists ce. split; [now right|exact K]. }
      destruct K as (ce & J & Lc & K). assert (In (node_id t) (ids c)) as Tc.
      { eapply ids_incl; [exact Lc|exact I|]. eapply below_in; [exact B|]. apply ids_self. }
      inversion R as [t1 e1 E1|t1 e1 c2 ce2 i y Sf Ic2 Rc]; subst.
      + exfalso. apply Nr. apply in_flat_map. exists c. split; [exact Ic|]. congruence.
      + destruct (in_two (below root) (children e) c ce c2 ce2 (node_id t) Nb J Ic2 Tc (reached_ids node stop c2 ce2 _ x Rc)) as (<- & <-).
        apply (K t' x' t x); auto. clear - Nb Ic. induction (below root) as [|a l IHl]; [destruct Ic|]. cbn [flat_map] in Nb. destruct Ic as [->|Ic]; [exact (proj1 (NoDup_two _ _ Nb))|apply IHl; [exact Ic|exact (proj2 (NoDup_two _ _ Nb))]].
  Qed.

  Lemma chain_speaks : forall text deq is_isinstance root e, let r := sure (collapse deq is_isinstance) in laid root e -> NoDup (ids root) ->
    (forall t x e', In x (subnodes e) -> laid t x -> r x = Ok (Some (Some e')) -> laid (write t e') e') ->
    speaks node form r root e (says_each text r (filter (fun t => negb (left_of_or node read root t)) (exprs root))).
  Proof.
    intros text deq is_isinstance root e r L Nd Wr. destruct (each_speaks text r root e L Nd Wr) as (S1 & S2). split.
    - intros s Is. apply S1. apply in_flat_map in Is. destruct Is as (t & It & Is). apply filter_In in It. apply in_flat_map. exists t. split; [apply It|exact Is].
    - intros i x o R E. assert (A : at_node node root e i x) by (eapply reached_more; [|exact R]; reflexivity).
      destruct (exprs_in node form root e i x L A) as (t & It & <- & Lx). exists (Say (node_id t) (text x) PosDefault (option_map (fun e0 => RNode (write t e0)) o)). split; [|reflexivity].
      apply in_flat_map. exists t. split; [|rewrite (Read _ _ Lx), E; left; reflexivity]. apply filter_In. split; [exact It|]. apply negb_true_iff.
      destruct (left_of_or node read root t) eqn:X; [|reflexivity]. exfalso. apply existsb_exists in X. destruct X as (t' & I' & X).
      destruct (in_exprs node form root e L t' I') as (x' & L' & _). rewrite (Read _ _ L') in X. destruct x' as [| | | | | | | | |l op rr| | | | | | | | | | | |]; try discriminate X.
      destruct op; [discriminate X|]. destruct (below t') as [|tl rest] eqn:B; [discriminate X|]. apply N.eqb_eq in X.
      destruct (or_below _ _ _ L') as (tl' & rest' & B' & Ll). assert (tl' = tl) as -> by congruence.
      assert (tl = t) as ->. { apply (exprs_one root Nd); auto. destruct (exprs_split root t' I') as (a & b & ->). destruct (next_left _ _ _ _ _ L' B) as (more & ->). apply in_or_app. right. right. left. reflexivity. }
      assert (x = l) as -> by (rewrite <- (Read _ _ Lx), <- (Read _ _ Ll); reflexivity).
      assert (Sf : has_fix r (BoolOp l Or rr) = false) by (eapply reached_parent; [exact L|exact Nd|exact I'|exact L'|rewrite B; left; reflexivity|exact R]).
      unfold has_fix, r, sure in Sf. unfold r, sure in E. destruct (collapse deq is_isinstance (BoolOp l Or rr)) as [[o'|]|] eqn:Cl; [discriminate Sf| |].
      + exfalso. clear - Cl. unfold collapse in Cl. destruct (_ =? _)%nat; [discriminate Cl|]. destruct (or_all _); discriminate Cl.
      + apply collapse_inner in Cl. rewrite Cl in E. discriminate E.
  Qed.
End Classes.

(** ** The classes of fixit.rules *)
Lemma quiet_types : forall other deq is_isinstance qual code_length reads_same x,
  (existsb (str_eqb (type_of other x)) [u "Comparison"] = false -> rule_by_equal x = Ok None /\ rule_by_is qual x = Ok None) /\
  (existsb (str_eqb (type_of other x)) [u "BooleanOperation"] = false -> sure (collapse deq is_isinstance) x = Ok None) /\
  (existsb (str_eqb (type_of other x)) [u "Call"] = false -> sure assert_in x = Ok None /\ sure assert_none x = Ok None /\ sure assert_true_comparison x = Ok None /\
    sure deprecated_assert x = Ok None /\ sure to_literal x = Ok None /\ to_comprehension x = Ok None /\ sure list_comprehension x = Ok None) /\
  (existsb (str_eqb (type_of other x)) [u "Lambda"] = false -> sure redundant_lambda x = Ok None) /\
  (existsb (str_eqb (type_of other x)) [u "FormattedString"] = false -> sure redundant_fstring x = Ok None) /\
  (existsb (str_eqb (type_of other x)) [u "Call"; u "BinaryOperation"] = false -> use_fstring code_length reads_same x = Ok None).
Proof.
  intros. split; [|split; [|split; [|split; [|split]]]]; intro H; destruct x; try (exfalso; vm_compute in H; discriminate H); repeat split.
Qed.

Section All.
  Context (node : N -> bool) (form : expr -> tree -> Prop) (other : expr -> str) (read : tree -> expr) (write : tree -> expr -> tree)
    (text : str -> expr -> option str) (msg : str -> option str) (deq : expr -> expr -> bool) (is_isinstance qual : expr -> bool)
    (code_length : expr -> nat) (reads_same : str -> str -> str -> str -> bool).
  Notation classes := (class_codes node read write text msg deq is_isinstance qual code_length reads_same).

  Lemma plain_says : forall name ms types tx r md M own, str_eqb name (u "CollapseIsinstanceChecks") = false -> Forall no_underscore types ->
    (forall x, existsb (str_eqb (type_of other x)) types = false -> r x = Ok None) -> NoDup (ids (m_tree md)) -> walks node other read md M ->
    let C := visitor node read write name ms types tx r in snd (goes C md (calls (d_tree M)) (k_first C)) = Ok own ->
    fst (goes C md (calls (d_tree M)) (k_first C)) = about node read write tx name r (m_tree md) /\ forall t err, In t (exprs node (m_tree md)) -> r (read t) <> Err err.
  Proof.
    intros name ms types tx r md M own Nn Nu Q Nd W C H. destruct (goes C md _ _) as [xs o] eqn:G. cbn [fst snd] in *. subst o. destruct own.
    destruct (visitor_goes node other read write name ms types tx r md M xs Nu Q Nd W G) as (-> & Ne). split; [|exact Ne]. unfold about. rewrite Nn. cbn [andb negb].
    f_equal. clear. induction (exprs node (m_tree md)) as [|t l IH]; [reflexivity|]. cbn [filter]. now rewrite <- IH.
  Qed.

  Lemma class_says : forall C r md M e own, In (C, r) classes -> reads_nodes node form read -> laid node form (m_tree md) e -> seen node other read md M ->
    snd (goes C md (calls (d_tree M)) (k_first C)) = Ok own ->
    fst (goes C md (calls (d_tree M)) (k_first C)) = about node read write (text (k_name C)) (k_name C) r (m_tree md) /\ forall t err, In t (exprs node (m_tree md)) -> r (read t) <> Err err.
  Proof.
    intros C r md M e own I Rn L (Nd & W & i & attrs & Em) H. pose proof (quiet_types other deq is_isinstance qual code_length reads_same) as Q.
    assert (Nu : forall s, In s (map u ["Comparison"; "Call"; "Lambda"; "FormattedString"; "BinaryOperation"]%string) -> no_underscore s).
    { intros s Is J. cbn [map] in Is. repeat (destruct Is as [<-|Is]; [vm_compute in J; repeat (destruct J as [J|J]; [discriminate J|]); exact J|]). exact Is. }
    unfold class_codes in I. cbn [List.In map] in I.
    repeat (destruct I as [I|I]; [injection I as <- <-; first [
       (apply plain_says with (own := own); [reflexivity|constructor; [apply Nu; cbn [map List.In]; auto 10|constructor]|intros x Hx; now apply Q|exact Nd|exact W|exact H])
      |idtac]|]).
    - destruct (chain_goes node form other read write Rn (m_tree md) e L Nd (text (u "CollapseIsinstanceChecks")) deq is_isinstance (u "CollapseIsinstanceChecks") (msg (u "CollapseIsinstanceChecks")) md M eq_refl W)
        as (seen' & G).
      match type of H with snd (goes ?c _ _ _) = _ => change (k_first c) with (@nil N) in * end. rewrite G. split; [reflexivity|discriminate].
    - rewrite Em in H |- *. pose proof (fstring_goes node read write (u "UseFstring") (msg (u "UseFstring")) (text (u "UseFstring")) (use_fstring code_length reads_same) md i attrs) as (F1 & F2).
      match type of H with snd (goes ?c _ _ _) = _ => change (k_first c) with false in * end. rewrite F1. apply F2 in H. rewrite <- Em in *. apply (plain_says (u "UseFstring") (msg (u "UseFstring")) [u "Call"; u "BinaryOperation"]) in H.
      + exact H.
      + reflexivity.
      + constructor; [apply Nu; cbn [map List.In]; auto 10|constructor; [apply Nu; cbn [map List.In]; auto 10|constructor]].
      + intros x Hx. now apply Q.
      + exact Nd.
      + exact W.
    - destruct I.
  Qed.
End All.

(** ** C88 *)

(** What each class says about a file it gets through is what its rule reports for the expressions of the file, and the rule raises for none. *)
Theorem C88_says : forall node form other read write text msg deq is_isinstance qual code_length reads_same Y F p md M e k C r,
  reads_nodes node form read -> laid node form (m_tree md) e -> seen node other read md M ->
  In (C, r) (class_codes node read write text msg deq is_isinstance qual code_length reads_same) -> y_code Y F k = C -> completes Y F p md M k ->
  says C md (calls (d_tree M)) (k_first C) = about node read write (text (k_name C)) (k_name C) r (m_tree md) /\
  forall x err, In x (subnodes e) -> r x <> Err err.
Proof.
  intros node form other read write text msg deq isin qual cl rs Y F p md M e k C r Rn L Sn I E Cp. destruct (completes_goes _ _ _ _ _ _ Cp) as (own & H).
  subst C. destruct (class_says node form other read write text msg deq isin qual cl rs _ r md M e own I Rn L Sn H) as (H1 & H2). rewrite says_goes. split; [exact H1|].
  intros x err Ix Er. assert (exists i, at_node node (m_tree md) e i x) as (i & A).
  { clear - L Ix. revert Ix. revert L. generalize (m_tree md). revert e. apply (expr_children (fun e => forall t, laid node form t e -> In x (subnodes e) -> exists i, at_node node t e i x)).
    intros e IH t L Ix. rewrite subnodes_eq in Ix. destruct Ix as [<-|Ix]; [exists (node_id t); apply rd_here|]. apply in_flat_map in Ix. destruct Ix as (c & Ic & Ix).
    destruct (laid_inv _ _ _ _ L) as (_ & _ & _ & Ch). assert (K : exists tc, In (tc, c) (combine (below node t) (children e)) /\ laid node form tc c).
    { clear - Ch Ic. induction Ch as [|a b l l' F1 F2 IHc]; [destruct Ic|]. destruct Ic as [<-|Ic]; [exists a; split; [now left|exact F1]|]. destruct (IHc Ic) as (tc & J & K). exists tc. split; [now right|exact K]. }
    destruct K as (tc & J & Lc). rewrite Forall_forall in IH. destruct (IH c Ic tc Lc Ix) as (i & A). exists i. eapply rd_below; eauto. }
  destruct (exprs_in node form (m_tree md) e i x L A) as (t & It & _ & Lx). apply (H2 t err It). now rewrite (Rn _ _ Lx).
Qed.

(** So it does what the rule does. *)
Theorem C88_obeys : forall node form other read write text msg deq is_isinstance qual code_length reads_same Y F p e k r,
  reads_nodes node form read -> In (y_code Y F k, r) (class_codes node read write text msg deq is_isinstance qual code_length reads_same) ->
  (forall c md M, y_parse Y c = Ok md -> holds node form Y md M e -> seen node other read md M) -> writes_fixes node form write r e ->
  obeys node form Y F p k r e.
Proof.
  intros node form other read write text msg deq isin qual cl rs Y F p e k r Rn I Sn Wf c md M Ep Hd Cp. pose proof (Sn c md M Ep Hd) as S1. destruct Hd as (Ew & L & Nd & _).
  destruct (C88_says _ _ _ _ _ _ _ _ _ _ _ _ _ _ _ _ _ _ _ _ _ Rn L S1 I eq_refl Cp) as (H1 & H2). split; [exact H2|]. cbv zeta. rewrite H1. unfold about.
  destruct (str_eqb (k_name (y_code Y F k)) (u "CollapseIsinstanceChecks")) eqn:En; cbn [andb].
  - assert (r = sure (collapse deq isin)) as ->.
    { revert En I. generalize (y_code Y F k) as C. intros C En I. unfold class_codes in I. cbn [List.In map] in I. repeat (destruct I as [I|I]; [injection I as <- <-; first [exfalso; vm_compute in En; discriminate En|reflexivity]|]). destruct I. }
    apply chain_speaks; auto.
  - assert (Ef : filter (fun _ : tree => negb false) (exprs node (m_tree md)) = exprs node (m_tree md)) by (clear; induction (exprs node (m_tree md)) as [|t l IH]; [reflexivity|cbn [filter negb]; now f_equal]).
    rewrite Ef. apply each_speaks; auto.
Qed.

Theorem C88_runs : forall node form other read write text msg deq is_isinstance qual code_length reads_same Y F p opts e crs,
  reads_nodes node form read -> incl crs (class_codes node read write text msg deq is_isinstance qual code_length reads_same) ->
  (forall c md M, y_parse Y c = Ok md -> holds node form Y md M e -> seen node other read md M) -> (forall r, In r (map snd crs) -> writes_fixes node form write r e) ->
  selects Y F p opts (map fst crs) -> runs_with node form Y F p opts (map snd crs) e.
Proof.
  intros node form other read write text msg deq isin qual cl rs Y F p opts e crs Rn Ic Sn Wf Se cfg Eg. destruct (Se cfg Eg) as (ks & Nk & Sel & Ek). exists ks. split; auto. split; auto.
  clear Sel Nk Se Eg. revert ks Ek. induction crs as [|[C r] crs IH]; intros [|k ks] Ek; try discriminate Ek; [constructor|]. cbn [map] in *. injection Ek as Ek1 Ek2. constructor.
  - eapply C88_obeys; eauto; [|apply Wf; now left]. rewrite Ek1. apply Ic. now left.
  - apply IH; auto; [intros x Ix; apply Ic; now right|intros r' Ir; apply Wf; now right].
Qed.

(** Linting a file, with no errors: its violations are what the rules report for its expressions and no comment silences. *)
Theorem C88_lint : forall node form other read write text msg deq is_isinstance qual code_length reads_same Y p autofix opts hook es,
  (forall F, fair_sets (y_world Y F)) -> reads_nodes node form read ->
  (forall c md M, y_parse Y c = Ok md -> y_wrap Y md = Ok M -> seen node other read md M /\ exists e, laid node form (m_tree md) e) ->
  run (fixit_file (tool_of Y) p autofix opts hook) es (Returned tt) -> no_errors es ->
  exists F content F1 cfg F2 es' ks parts,
    es = ELook F :: ELook F1 :: ELook F2 :: es' /\ f_file F p = Some content /\ generate_config (y_env Y) F1 p None opts = Ok cfg /\
    NoDup ks /\ (forall k, In k ks <-> selected Y F2 cfg k) /\ violations (results es) = concat parts /\
    Forall2 (fun k vs => forall r, In (y_code Y F2 k, r) (class_codes node read write text msg deq is_isinstance qual code_length reads_same) ->
      exists md M, y_parse Y content = Ok md /\ y_wrap Y md = Ok M /\
        let C := y_code Y F2 k in heard (y_unicode Y) M C (about node read write (text (k_name C)) (k_name C) r (m_tree md)) vs) ks parts.
Proof.
  intros node form other read write text msg deq isin qual cl rs Y p autofix opts hook es Fa Rn Sn R Ne.
  destruct (C78_exactly Y p autofix opts hook es Fa R Ne) as (F & content & F1 & cfg & F2 & es' & ks & Ees & Ef & Eg & Nk & Sel & H).
  destruct (file_works _ _ _ _ _ _ Fa R Ne) as (F' & content' & F1' & cfg' & F2' & es'' & Ees' & Ef' & Eg' & Wk).
  assert (F' = F /\ F1' = F1 /\ F2' = F2) as (-> & -> & ->) by (rewrite Ees in Ees'; injection Ees' as -> -> -> _; auto).
  assert (content' = content) as -> by congruence. assert (cfg' = cfg) as -> by congruence. exists F, content, F1, cfg, F2, es', ks.
  destruct H as [(-> & V)|(md & M & parts & Ep & Ew & H & V & _)]; [exists []; rewrite V; repeat (split; auto)|]. exists parts. repeat (split; auto).
  destruct (Sn content md M Ep Ew) as (Sm & e & L). destruct Wk as (_ & Wk).
  assert (Cp : forall k, In k ks -> completes Y F2 p md M k).
  { intros k I. destruct Wk as [Wk|(md1 & M1 & Ep1 & Ew1 & Wk)]; [exfalso; apply (Wk k), Sel; auto|].
    assert (md1 = md) as -> by congruence. assert (M1 = M) as -> by congruence. apply Wk, Sel, I. }
  clear V Sel Nk. induction H as [|k vs ks parts Hk H IH]; [constructor|]. constructor; [|apply IH; intros; apply Cp; now right].
  intros r I. exists md, M. split; auto. split; auto. cbv zeta. destruct (C88_says _ _ _ _ _ _ _ _ _ _ _ _ _ _ _ _ _ _ _ _ _ Rn L Sm I eq_refl (Cp k (or_introl eq_refl))) as (E & _).
  rewrite <- E. exact Hk.
Qed.

(** "fixit fix --automatic" with these classes, again and again: after at most 13 * n times nothing is left to fix in a program of n expressions. *)
Theorem C88_stops : forall node form other read write text msg deq is_isinstance qual code_length reads_same Y opts p crs n F F' old e, form_law form ->
  (forall G, fair_sets (y_world Y G)) -> reads_nodes node form read -> (forall c md M, y_parse Y c = Ok md -> y_wrap Y md = Ok M -> seen node other read md M) ->
  incl crs (class_codes node read write text msg deq is_isinstance qual code_length reads_same) ->
  let rules := map snd crs in
  let names := map (fun c => k_name (fst c)) crs in
  (In (u "ComparePrimitivesByEqual") names -> In (u "CompareSingletonPrimitivesByIs") names -> forall e', becomes rules e e' -> ~ mixed_comparison qual e') ->
  f_file F p = Some old -> reads node form Y old e ->
  (forall e', becomes rules e e' -> readable node form Y p (Some opts) e' /\ forall r, In r rules -> writes_fixes node form write r e') ->
  commands Y opts p (map fst crs) n F F' -> 13 * List.length (subnodes e) <= n ->
  exists new e', f_file F' p = Some new /\ reads node form Y new e' /\ becomes rules e e' /\ finished rules e'.
Proof.
  intros node form other read write text msg deq isin qual cl rs Y opts p crs n F F' old e Law Fa Rn Sn Ic rules names Mx Eo Re Ok_ H Le.
  assert (H' : fixes_again node form Y opts p rules e n F F').
  { clear Le Eo. induction H as [F|n F F1 F2 H1 H2 IH]; [constructor|].
    destruct H1 as (K & d & m & diff & paths & z & vs & code & ps & l & zp & es & A1 & A2 & A3 & A4 & A5 & A6 & A7 & A8 & A9 & Se).
    apply fa_one with (es := es) (F1 := F1); [|exact IH]. exists K, d, m, diff, paths, z, vs, code, ps, l, zp. repeat (split; [assumption|]).
    intros G e' Hf Hd B. eapply C88_runs with (crs := crs); eauto.
    - intros c md M Ep (Ew & _). exact (Sn c md M Ep Ew).
    - intros r Ir. apply (Ok_ e' B), Ir. }
  pose (has n := existsb (str_eqb n) names).
  eapply (C87_stops node form Y opts p deq isin qual cl rs (has (u "ComparePrimitivesByEqual")) (has (u "CompareSingletonPrimitivesByIs")) rules n F F' old e); eauto.
  - intros r Ir. apply in_map_iff in Ir. destruct Ir as ([C r'] & <- & I). cbn [snd]. pose proof (Ic _ I) as I'.
    assert (Hn : has (k_name C) = true).
    { apply existsb_exists. exists (k_name C). split; [|apply str_eqb_eq; reflexivity]. unfold names. apply in_map_iff. exists (C, r'). auto. }
    clear I. unfold class_codes in I'. cbn [List.In map] in I'.
    destruct I' as [I'|[I'|I']]; [injection I' as <- <-; cbn [visitor k_name] in Hn; rewrite Hn; left; reflexivity|
      injection I' as <- <-; cbn [visitor k_name] in Hn; rewrite Hn; apply in_or_app; right; left; reflexivity|].
    apply in_or_app. right. apply in_or_app. right. unfold other_rules. repeat (destruct I' as [I'|I']; [injection I' as <- <-; cbn [List.In]; auto 15|]). destruct I'.
  - intros H1 H2 e' B. assert (X : forall n, has n = true -> In n names) by (intros a Ha; apply existsb_exists in Ha; destruct Ha as (b & Ib & Eb); apply str_eqb_eq in Eb; now subst). apply Mx; auto.
  - intros e' B. now apply Ok_.
Qed.
