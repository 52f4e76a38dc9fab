(** * Facts about edits and replaced nodes *)
From Coq Require Import String List NArith Bool Arith Lia.
From Verif Require Import Base Cst EngineSpec.
Import ListNotations.
Set Implicit Arguments.

(** ** Lists of edits *)

Lemma in_order_le : forall es pos last, in_order pos es last -> pos <= last.
Proof.
  induction es as [|[o n s] es IH]; intros pos last H; cbn [in_order] in H; auto.
  destruct H as [H1 H2]. apply IH in H2. lia.
Qed.

Lemma in_order_app : forall es1 es2 pos mid last,
  in_order pos es1 mid -> in_order mid es2 last -> in_order pos (es1 ++ es2) last.
Proof.
  induction es1 as [|[o n s] es1 IH]; intros es2 pos mid last H1 H2; cbn [in_order app] in *.
  - destruct es2 as [|[o n s] es2]; cbn [in_order] in *; [lia|]. destruct H2. split; auto. lia.
  - destruct H1 as [A B]. split; auto. eapply IH; eauto.
Qed.

Lemma apply_edits_skip : forall es pos s1 s2, in_order (pos + List.length s1) es (pos + List.length s1 + List.length s2) ->
  apply_edits pos es (s1 ++ s2) = s1 ++ apply_edits (pos + List.length s1) es s2.
Proof.
  intros [|[o n new] es] pos s1 s2 H; cbn [apply_edits in_order] in *; auto. destruct H as [H _].
  rewrite firstn_app, skipn_app.
  rewrite (firstn_all2 s1) by lia. rewrite (skipn_all2 s1) by lia.
  replace (o - pos - List.length s1) with (o - (pos + List.length s1)) by lia.
  replace (o - pos + n - List.length s1) with (o - (pos + List.length s1) + n) by lia.
  rewrite <- app_assoc. reflexivity.
Qed.

Lemma apply_edits_app : forall es1 es2 pos s1 s2,
  in_order pos es1 (pos + List.length s1) ->
  in_order (pos + List.length s1) es2 (pos + List.length s1 + List.length s2) ->
  apply_edits pos (es1 ++ es2) (s1 ++ s2) = apply_edits pos es1 s1 ++ apply_edits (pos + List.length s1) es2 s2.
Proof.
  induction es1 as [|[o n new] es1 IH]; intros es2 pos s1 s2 H1 H2.
  - apply apply_edits_skip. exact H2.
  - cbn [in_order] in H1. destruct H1 as [A B]. pose proof (in_order_le _ _ _ B) as C.
    cbn [app apply_edits]. rewrite firstn_app, skipn_app.
    replace (o - pos - List.length s1) with 0 by lia. rewrite firstn_O, app_nil_r.
    replace (o - pos + n - List.length s1) with 0 by lia. rewrite skipn_O.
    assert (L : List.length (skipn (o - pos + n) s1) = pos + List.length s1 - (o + n)) by (rewrite skipn_length; lia).
    rewrite IH.
    + rewrite L. replace (o + n + (pos + List.length s1 - (o + n))) with (pos + List.length s1) by lia.
      rewrite !app_assoc. reflexivity.
    + rewrite L. replace (o + n + (pos + List.length s1 - (o + n))) with (pos + List.length s1) by lia. exact B.
    + rewrite L. replace (o + n + (pos + List.length s1 - (o + n))) with (pos + List.length s1) by lia. exact H2.
Qed.

Lemma apply_edits_one : forall pos s new, apply_edits pos [Edit pos (List.length s) new] s = new.
Proof.
  intros. cbn [apply_edits]. rewrite Nat.sub_diag, firstn_O, skipn_all2 by lia. cbn [app]. apply app_nil_r.
Qed.

Lemma in_order_one : forall pos n new, in_order pos [Edit pos n new] (pos + n).
Proof. intros. cbn [in_order]. lia. Qed.

(** ** Induction over trees *)

Section TreeInd.
  Variable P : tree -> Prop.
  Variable Q : part -> Prop.
  Hypothesis HN : forall id line ps, Forall Q ps -> P (Node id line ps).
  Hypothesis HT : forall s, Q (Txt s).
  Hypothesis HI : Q Ind.
  Hypothesis HR : forall t, P t -> Q (Req t).
  Hypothesis HO0 : Q (Opt None).
  Hypothesis HO : forall t, P t -> Q (Opt (Some t)).
  Hypothesis HS0 : forall d, Q (Sep None d).
  Hypothesis HS : forall t d, P t -> Q (Sep (Some t) d).
  Hypothesis HQ : forall pass l, Forall P l -> Q (Seq pass l).
  Hypothesis HB : forall blk l, Forall P l -> Q (Body blk l).
  Fixpoint tree_ind2 (t : tree) : P t :=
    match t with
    | Node id line ps => HN id line ((fix go ps : Forall Q ps :=
        match ps with [] => Forall_nil Q | p :: ps' => Forall_cons p (part_ind2 p) (go ps') end) ps)
    end
  with part_ind2 (p : part) : Q p :=
    match p with
    | Txt s => HT s
    | Ind => HI
    | Req t => HR (tree_ind2 t)
    | Opt None => HO0
    | Opt (Some t) => HO (tree_ind2 t)
    | Sep None d => HS0 d
    | Sep (Some t) d => HS d (tree_ind2 t)
    | Seq pass l => HQ pass ((fix go l : Forall P l :=
        match l with [] => Forall_nil P | x :: l' => Forall_cons x (tree_ind2 x) (go l') end) l)
    | Body blk l => HB blk ((fix go l : Forall P l :=
        match l with [] => Forall_nil P | x :: l' => Forall_cons x (tree_ind2 x) (go l') end) l)
    end.
  Lemma trees_ind : (forall t, P t) /\ (forall p, Q p).
  Proof. split; [exact tree_ind2 | exact part_ind2]. Qed.
End TreeInd.

(** ** Code generation, one equation per constructor *)

Definition nonempty {A} (l : list A) : bool := match l with [] => false | _ => true end.

Lemma render_seq_eq : forall ind more pass l,
  render_part ind more (Seq pass l) = match l with [] => if pass then u "pass" else [] | _ => seq_text ind false l end.
Proof.
  intros ind more pass l.
  assert (K : forall l, (fix go (l : list tree) : str :=
                match l with
                | [] => []
                | x :: l' => render ind (match l' with [] => false | _ => true end) x ++ go l'
                end) l = seq_text ind false l).
  { induction l0 as [|y l0 IH]; [reflexivity|]. cbn [seq_text]. rewrite <- IH. destruct l0; reflexivity. }
  destruct l as [|x l]; [reflexivity|]. rewrite <- K. reflexivity.
Qed.

Lemma render_body_eq : forall ind more blk l,
  render_part ind more (Body blk l) =
  match blk with
  | None => flat_map (render ind false) l
  | Some (i, e) => match l with [] => (ind ++ i) ++ e | _ => flat_map (render (ind ++ i) false) l end
  end.
Proof. intros ind more [[i e]|] l; reflexivity. Qed.

Lemma seq_text_app : forall ind more l1 l2, l2 <> [] ->
  seq_text ind more (l1 ++ l2) = seq_text ind true l1 ++ seq_text ind more l2.
Proof.
  intros ind more l1 l2 H. induction l1 as [|x l1 IH]; [reflexivity|]. cbn [app seq_text].
  rewrite IH, <- app_assoc. f_equal. destruct l1, l2; try congruence; reflexivity.
Qed.

Lemma seq_text_more : forall ind m l1 l2, seq_text ind m (l1 ++ l2) =
  seq_text ind (match l2 with [] => m | _ => true end) l1 ++ seq_text ind m l2.
Proof.
  intros ind m l1 l2. destruct l2 as [|y l2]; [now rewrite !app_nil_r|]. apply seq_text_app. discriminate.
Qed.

(** Parts with explicit separators do not depend on what follows. *)
Lemma explicit_render : forall t ind a b, explicit_seps t = true -> render ind a t = render ind b t.
Proof.
  intros [id line ps] ind a b H. cbn [explicit_seps render] in *.
  induction ps as [|p ps IH]; [reflexivity|]. cbn [forallb flat_map] in *. apply andb_true_iff in H. destruct H as [H1 H2].
  rewrite IH by auto. f_equal. destruct p as [| | |[|]|[|]| |[[]|]]; try reflexivity. discriminate.
Qed.

(** ** Visiting, one equation per constructor *)

Section Acc.
  Variable acc : N -> option repl.

  Fixpoint visit_parts (ps : list part) : res (list part) :=
    match ps with
    | [] => Ok []
    | p :: ps' => let! q := visit_part acc p in let! qs := visit_parts ps' in Ok (q :: qs)
    end.

  Fixpoint visit_seq (l : list tree) : res (list tree) :=
    match l with
    | [] => Ok []
    | x :: l' => let! r := visit acc x in let! rest := visit_seq l' in Ok (nodes r ++ rest)
    end.

  Fixpoint visit_body (l : list tree) : res (list tree) :=
    match l with
    | [] => Ok []
    | x :: l' => let! r := visit acc x in let! rest := visit_body l' in Ok (kept x r ++ rest)
    end.

  Lemma visit_eq : forall id line ps, visit acc (Node id line ps) =
    match acc id with
    | Some r => Ok r
    | None => let! ps' := visit_parts ps in Ok (RNode (Node id line ps'))
    end.
  Proof. reflexivity. Qed.

  Lemma visit_seq_eq : forall pass l, visit_part acc (Seq pass l) = let! l' := visit_seq l in Ok (Seq pass l').
  Proof. reflexivity. Qed.

  Lemma visit_body_eq : forall blk l, visit_part acc (Body blk l) = let! l' := visit_body l in Ok (Body blk l').
  Proof. reflexivity. Qed.

  Lemma visit_acc : forall t r, acc (node_id t) = Some r -> visit acc t = Ok r.
  Proof. intros [id line ps] r H. rewrite visit_eq. cbn [node_id] in H. now rewrite H. Qed.

  Lemma visit_none : forall t r, acc (node_id t) = None -> visit acc t = Ok r ->
    exists id line ps ps', t = Node id line ps /\ visit_parts ps = Ok ps' /\ r = RNode (Node id line ps').
  Proof.
    intros [id line ps] r H V. rewrite visit_eq in V. cbn [node_id] in H. rewrite H in V.
    apply bind_ok in V. destruct V as (ps' & A & B). injection B as <-. eauto 10.
  Qed.

  (** *** What disappears *)

  Lemma visit_vanishes : forall x r, visit acc x = Ok r -> vanishes acc x = match nodes r with [] => true | _ => false end.
  Proof.
    intros x r V. unfold vanishes. destruct (acc (node_id x)) as [r'|] eqn:E.
    - rewrite (visit_acc x E) in V. injection V as <-. reflexivity.
    - destruct (visit_none x E V) as (id & line & ps & ps' & _ & _ & ->). reflexivity.
  Qed.

  Lemma visit_seq_nil : forall l l', visit_seq l = Ok l' -> (match l' with [] => true | _ => false end) = forallb (vanishes acc) l.
  Proof.
    induction l as [|x l IH]; intros l' V; cbn [visit_seq forallb] in *.
    - injection V as <-. reflexivity.
    - apply bind_ok in V. destruct V as (r & V1 & V). apply bind_ok in V. destruct V as (l2 & V2 & V). injection V as <-.
      rewrite (visit_vanishes x V1), <- (IH l2 V2). destruct (nodes r); reflexivity.
  Qed.

  Lemma visit_removable : forall x t', acc (node_id x) = None -> visit acc x = Ok (RNode t') ->
    negb (removable x) && removable t' = loses_all acc x.
  Proof.
    intros x t' H V. destruct (visit_none x H V) as (id & line & ps & ps' & -> & V1 & E). injection E as ->.
    unfold loses_all. cbn [node_id] in H. rewrite H, andb_true_r. rewrite andb_comm.
    cbn [removable]. destruct line; cbn [andb]; auto.
    rewrite (andb_comm (forallb _ ps')). f_equal. clear H V.
    revert ps' V1. induction ps as [|p ps IH]; intros ps' V; cbn [visit_parts] in V.
    - injection V as <-. reflexivity.
    - apply bind_ok in V. destruct V as (q & V1 & V). apply bind_ok in V. destruct V as (qs & V2 & V). injection V as <-.
      cbn [forallb]. rewrite (IH qs V2). f_equal.
      destruct p as [| | |[|]|[|]|pass l|]; cbn [visit_part] in V1;
        try (injection V1 as <-; reflexivity);
        try (apply bind_ok in V1; destruct V1 as ([t1|l1|] & _ & V1); try discriminate; injection V1 as <-; reflexivity).
      + change (visit_part acc (Seq pass l) = Ok q) in V1. rewrite visit_seq_eq in V1.
        apply bind_ok in V1. destruct V1 as (l' & V1 & E). injection E as <-.
        pose proof (visit_seq_nil l V1) as N. destruct pass; [|reflexivity]. rewrite <- N. now destruct l'.
      + apply bind_ok in V1; destruct V1 as (l1 & _ & V1); injection V1 as <-; reflexivity.
  Qed.

  Lemma visit_kept : forall x r, visit acc x = Ok r ->
    kept x r = match acc (node_id x) with Some r' => kept x r' | None => if loses_all acc x then [] else nodes r end.
  Proof.
    intros x r V. destruct (acc (node_id x)) as [r'|] eqn:E.
    - rewrite (visit_acc x E) in V. now injection V as <-.
    - destruct (visit_none x E V) as (id & line & ps & ps' & Hx & Hp & ->).
      pose proof (visit_removable x E V) as L. unfold kept. cbn [nodes filter]. rewrite <- L.
      destruct (removable x), (removable (Node id line ps')); reflexivity.
  Qed.

  Lemma visit_stmt_vanishes : forall x r, visit acc x = Ok r ->
    stmt_vanishes acc x = match kept x r with [] => true | _ => false end.
  Proof.
    intros x r V. rewrite (visit_kept x V). unfold stmt_vanishes. destruct (acc (node_id x)) as [r'|] eqn:E; auto.
    destruct (visit_none x E V) as (id & line & ps & ps' & _ & _ & ->). destruct (loses_all acc x); reflexivity.
  Qed.

  Lemma visit_body_nil : forall l l', visit_body l = Ok l' -> (match l' with [] => true | _ => false end) = forallb (stmt_vanishes acc) l.
  Proof.
    induction l as [|x l IH]; intros l' V; cbn [visit_body forallb] in *.
    - injection V as <-. reflexivity.
    - apply bind_ok in V. destruct V as (r & V1 & V). apply bind_ok in V. destruct V as (l2 & V2 & V). injection V as <-.
      rewrite (visit_stmt_vanishes x V1), <- (IH l2 V2). destruct (kept x r); reflexivity.
  Qed.

  (** ** The list of edits *)

  Fixpoint ed (ind : str) (old new : bool) (at_ : nat) (t : tree) {struct t} : list edit :=
    match t with
    | Node id line ps =>
        match acc id with
        | Some _ => []
        | None => (fix go (at_ : nat) (ps : list part) : list edit :=
                     match ps with
                     | [] => []
                     | p :: ps' => ed_part ind old new at_ p ++ go (at_ + List.length (render_part ind old p)) ps'
                     end) at_ ps
        end
    end
  with ed_part (ind : str) (old new : bool) (at_ : nat) (p : part) {struct p} : list edit :=
    match p with
    | Txt _ | Ind | Opt None | Sep None _ => []
    | Req t =>
        match acc (node_id t) with
        | Some (RNode t') => [Edit at_ (List.length (render ind false t)) (render ind false t')]
        | Some _ => []
        | None => ed ind false false at_ t
        end
    | Opt (Some t) =>
        match acc (node_id t) with
        | Some r => [Edit at_ (List.length (render ind false t)) (seq_text ind false (nodes r))]
        | None => ed ind false false at_ t
        end
    | Sep (Some t) d =>
        match acc (node_id t) with
        | Some (RNode t') => [Edit at_ (List.length (render ind false t)) (render ind false t')]
        | Some RRemove => [Edit at_ (List.length (render ind false t)) (if new then d else [])]
        | Some (RFlat _) => []
        | None => ed ind false false at_ t
        end
    | Seq pass l =>
        if nonempty l && forallb (vanishes acc) l
        then [Edit at_ (List.length (whole_seq ind l)) (if pass then u "pass" else [])]
        else (fix go (at_ : nat) (l : list tree) : list edit :=
                match l with
                | [] => []
                | x :: l' =>
                    let o := match l' with [] => false | _ => true end in
                    let n := negb (forallb (vanishes acc) l') in
                    match acc (node_id x) with
                    | Some r => [Edit at_ (List.length (render ind o x)) (seq_text ind n (nodes r))]
                    | None => ed ind o n at_ x
                    end ++ go (at_ + List.length (render ind o x)) l'
                end) at_ l
    | Body blk l =>
        match blk with
        | Some (i, e) =>
            if nonempty l && forallb (stmt_vanishes acc) l
            then [Edit at_ (List.length (flat_map (render (ind ++ i) false) l)) ((ind ++ i) ++ e)]
            else (fix go (at_ : nat) (l : list tree) : list edit :=
                match l with
                | [] => []
                | x :: l' =>
                    match acc (node_id x) with
                    | Some r => [Edit at_ (List.length (render (ind ++ i) false x)) (flat_map (render (ind ++ i) false) (kept x r))]
                    | None => if loses_all acc x then [Edit at_ (List.length (render (ind ++ i) false x)) []]
                              else ed (ind ++ i) false false at_ x
                    end ++ go (at_ + List.length (render (ind ++ i) false x)) l'
                end) at_ l
        | None =>
             (fix go (at_ : nat) (l : list tree) : list edit :=
                match l with
                | [] => []
                | x :: l' =>
                    match acc (node_id x) with
                    | Some r => [Edit at_ (List.length (render ind false x)) (flat_map (render ind false) (kept x r))]
                    | None => if loses_all acc x then [Edit at_ (List.length (render ind false x)) []]
                              else ed ind false false at_ x
                    end ++ go (at_ + List.length (render ind false x)) l'
                end) at_ l
        end
    end.

  Fixpoint ed_parts (ind : str) (old new : bool) (at_ : nat) (ps : list part) : list edit :=
    match ps with
    | [] => []
    | p :: ps' => ed_part ind old new at_ p ++ ed_parts ind old new (at_ + List.length (render_part ind old p)) ps'
    end.

  Definition ed_elem (ind : str) (o n : bool) (at_ : nat) (x : tree) : list edit :=
    match acc (node_id x) with
    | Some r => [Edit at_ (List.length (render ind o x)) (seq_text ind n (nodes r))]
    | None => ed ind o n at_ x
    end.

  Fixpoint ed_seq (ind : str) (at_ : nat) (l : list tree) : list edit :=
    match l with
    | [] => []
    | x :: l' =>
        let o := match l' with [] => false | _ => true end in
        let n := negb (forallb (vanishes acc) l') in
        ed_elem ind o n at_ x ++ ed_seq ind (at_ + List.length (render ind o x)) l'
    end.

  Definition ed_stmt (ind : str) (at_ : nat) (x : tree) : list edit :=
    match acc (node_id x) with
    | Some r => [Edit at_ (List.length (render ind false x)) (flat_map (render ind false) (kept x r))]
    | None => if loses_all acc x then [Edit at_ (List.length (render ind false x)) []]
              else ed ind false false at_ x
    end.

  Fixpoint ed_body (ind : str) (at_ : nat) (l : list tree) : list edit :=
    match l with
    | [] => []
    | x :: l' => ed_stmt ind at_ x ++ ed_body ind (at_ + List.length (render ind false x)) l'
    end.

  Lemma ed_eq : forall ind old new at_ id line ps, ed ind old new at_ (Node id line ps) =
    match acc id with Some _ => [] | None => ed_parts ind old new at_ ps end.
  Proof.
    intros. cbn [ed]. destruct (acc id); auto. revert at_. induction ps as [|p ps IH]; intro at_; [reflexivity|].
    cbn [ed_parts]. rewrite <- IH. reflexivity.
  Qed.

  Lemma ed_seq_eq : forall ind old new at_ pass l, ed_part ind old new at_ (Seq pass l) =
    if nonempty l && forallb (vanishes acc) l
    then [Edit at_ (List.length (whole_seq ind l)) (if pass then u "pass" else [])]
    else ed_seq ind at_ l.
  Proof.
    intros. cbn [ed_part]. destruct (nonempty l && forallb (vanishes acc) l); auto.
    revert at_. induction l as [|x l IH]; intro at_; [reflexivity|]. cbn [ed_seq]. rewrite <- IH. reflexivity.
  Qed.

  Lemma ed_body_eq : forall ind old new at_ blk l, ed_part ind old new at_ (Body blk l) =
    match blk with
    | Some (i, e) =>
        if nonempty l && forallb (stmt_vanishes acc) l
        then [Edit at_ (List.length (flat_map (render (ind ++ i) false) l)) ((ind ++ i) ++ e)]
        else ed_body (ind ++ i) at_ l
    | None => ed_body ind at_ l
    end.
  Proof.
    intros ind old new at_ [[i e]|] l; cbn [ed_part].
    - destruct (nonempty l && forallb (stmt_vanishes acc) l); auto.
      revert at_. induction l as [|x l IH]; intro at_; [reflexivity|]. cbn [ed_body]. rewrite <- IH. reflexivity.
    - revert at_. induction l as [|x l IH]; intro at_; [reflexivity|]. cbn [ed_body]. rewrite <- IH. reflexivity.
  Qed.

  (** *** They are in source order *)

  Lemma ed_order :
    (forall t ind old new at_, in_order at_ (ed ind old new at_ t) (at_ + List.length (render ind old t))) /\
    (forall p ind old new at_, in_order at_ (ed_part ind old new at_ p) (at_ + List.length (render_part ind old p))).
  Proof.
    apply trees_ind.
    - intros id line ps H ind old new at_. rewrite ed_eq. cbn [render].
      destruct (acc id); [cbn [in_order]; lia|]. revert at_. induction H as [|p ps Hp Hps IH]; intro at_; cbn [ed_parts flat_map].
      + cbn [in_order List.length]. lia.
      + eapply in_order_app; [apply Hp|]. rewrite app_length, Nat.add_assoc. apply IH.
    - intros. cbn [ed_part in_order]. lia.
    - intros. cbn [ed_part in_order]. lia.
    - intros t Ht ind old new at_. cbn [ed_part render_part].
      destruct (acc (node_id t)) as [[t'|l|]|]; try apply in_order_one; try apply Ht; cbn [in_order]; lia.
    - intros. cbn [ed_part in_order]. lia.
    - intros t Ht ind old new at_. cbn [ed_part render_part].
      destruct (acc (node_id t)) as [[t'|l|]|]; try apply in_order_one; try apply Ht; cbn [in_order]; lia.
    - intros. cbn [ed_part in_order]. lia.
    - intros t d Ht ind old new at_. cbn [ed_part render_part].
      destruct (acc (node_id t)) as [[t'|l|]|]; try apply in_order_one; try apply Ht; cbn [in_order]; lia.
    - intros pass l H ind old new at_. rewrite ed_seq_eq, render_seq_eq.
      assert (K : forall at_, in_order at_ (ed_seq ind at_ l) (at_ + List.length (seq_text ind false l))).
      { clear at_. induction H as [|x l Hx Hl IH]; intro at_; cbn [ed_seq seq_text]; [cbn [in_order List.length]; lia|].
        eapply in_order_app; [|rewrite app_length, Nat.add_assoc; apply IH].
        unfold ed_elem. destruct (acc (node_id x)); [apply in_order_one | apply Hx]. }
      destruct l as [|x l]; [cbn [nonempty andb ed_seq in_order]; lia|]. cbn [nonempty andb].
      destruct (forallb (vanishes acc) (x :: l)); [apply in_order_one|apply K].
    - intros blk l H ind old new at_. rewrite ed_body_eq, render_body_eq.
      assert (K : forall ind at_, in_order at_ (ed_body ind at_ l) (at_ + List.length (flat_map (render ind false) l))).
      { clear at_ ind. intro ind. induction H as [|x l Hx Hl IH]; intro at_; cbn [ed_body flat_map]; [cbn [in_order List.length]; lia|].
        eapply in_order_app; [|rewrite app_length, Nat.add_assoc; apply IH].
        unfold ed_stmt. destruct (acc (node_id x)); [apply in_order_one|].
        destruct (loses_all acc x); [apply in_order_one | apply Hx]. }
      destruct blk as [[i e]|]; [|apply K].
      destruct l as [|x l]; [cbn [nonempty andb ed_body in_order]; lia|]. cbn [nonempty andb].
      destruct (forallb (stmt_vanishes acc) (x :: l)); [apply in_order_one|apply K].
  Qed.

  Lemma ed_elem_order : forall ind o n at_ x, in_order at_ (ed_elem ind o n at_ x) (at_ + List.length (render ind o x)).
  Proof. intros. unfold ed_elem. destruct (acc (node_id x)); [apply in_order_one | apply ed_order]. Qed.

  Lemma ed_stmt_order : forall ind at_ x, in_order at_ (ed_stmt ind at_ x) (at_ + List.length (render ind false x)).
  Proof.
    intros. unfold ed_stmt. destruct (acc (node_id x)); [apply in_order_one|].
    destruct (loses_all acc x); [apply in_order_one | apply ed_order].
  Qed.

  Lemma ed_seq_order : forall l ind at_, in_order at_ (ed_seq ind at_ l) (at_ + List.length (seq_text ind false l)).
  Proof.
    induction l as [|x l IH]; intros ind at_; cbn [ed_seq seq_text]; [cbn [in_order List.length]; lia|].
    eapply in_order_app; [apply ed_elem_order|]. rewrite app_length, Nat.add_assoc. apply IH.
  Qed.

  Lemma ed_body_order : forall l ind at_, in_order at_ (ed_body ind at_ l) (at_ + List.length (flat_map (render ind false) l)).
  Proof.
    induction l as [|x l IH]; intros ind at_; cbn [ed_body flat_map]; [cbn [in_order List.length]; lia|].
    eapply in_order_app; [apply ed_stmt_order|]. rewrite app_length, Nat.add_assoc. apply IH.
  Qed.

  Lemma ed_parts_order : forall ps ind old new at_,
    in_order at_ (ed_parts ind old new at_ ps) (at_ + List.length (flat_map (render_part ind old) ps)).
  Proof.
    induction ps as [|p ps IH]; intros ind old new at_; cbn [ed_parts flat_map]; [cbn [in_order List.length]; lia|].
    eapply in_order_app; [apply ed_order|]. rewrite app_length, Nat.add_assoc. apply IH.
  Qed.

  (** *** They give the new text *)

  (** Separators are explicit, or what follows does not change. *)
  Definition stable (old new : bool) (ps : list part) : Prop :=
    old = new \/ forallb (fun p => match p with Sep None _ => false | _ => true end) ps = true.

  Lemma seq_text_one : forall ind m t, seq_text ind m [t] = render ind m t.
  Proof. intros. cbn [seq_text]. apply app_nil_r. Qed.

  Lemma ed_text :
    (forall t, parsed t -> forall ind old new at_ t', acc (node_id t) = None ->
       (old = new \/ explicit_seps t = true) ->
       visit acc t = Ok (RNode t') ->
       apply_edits at_ (ed ind old new at_ t) (render ind old t) = render ind new t') /\
    (forall p, parsed_part p -> forall ind old new at_ p',
       (old = new \/ (forall d, p <> Sep None d)) ->
       visit_part acc p = Ok p' ->
       apply_edits at_ (ed_part ind old new at_ p) (render_part ind old p) = render_part ind new p').
  Proof.
    apply trees_ind.
    - intros id line ps H Hp ind old new at_ t' Ha Hf V. cbn [node_id] in Ha.
      rewrite visit_eq, Ha in V. apply bind_ok in V. destruct V as (ps' & V & E). injection E as <-.
      rewrite ed_eq, Ha. cbn [render]. inversion Hp as [i l p' Hps Ei]; subst.
      assert (Hs : stable old new ps) by exact Hf. clear Hf Hp Ha.
      revert at_ ps' V Hs Hps. induction H as [|p ps Hp Hr IH]; intros at_ ps' V Hs Hps; cbn [visit_parts] in V.
      + injection V as <-. reflexivity.
      + apply bind_ok in V. destruct V as (q & V1 & V). apply bind_ok in V. destruct V as (qs & V2 & V). injection V as <-.
        cbn [ed_parts flat_map]. rewrite apply_edits_app.
        * f_equal.
          -- apply Hp; [apply Hps; simpl; auto| |exact V1]. destruct Hs as [Hs|Hs]; auto. right.
             intros d E. subst p. cbn [forallb] in Hs. discriminate.
          -- apply IH; auto.
             ++ destruct Hs as [Hs|Hs]; [left; auto|]. right. cbn [forallb] in Hs. apply andb_true_iff in Hs. tauto.
             ++ intros x Hx. apply Hps. simpl. auto.
        * apply ed_order.
        * apply ed_parts_order.
    - intros s _ ind old new at_ p' _ V. injection V as <-. reflexivity.
    - intros _ ind old new at_ p' _ V. injection V as <-. reflexivity.
    - intros t Ht Hp ind old new at_ p' _ V. inversion Hp; subst. cbn [visit_part ed_part render_part] in *.
      apply bind_ok in V. destruct V as (r & V1 & V). destruct (acc (node_id t)) as [r'|] eqn:E.
      + rewrite (visit_acc t E) in V1. injection V1 as <-. destruct r' as [t'| |]; try discriminate.
        injection V as <-. cbn [render_part]. apply apply_edits_one.
      + destruct (visit_none t E V1) as (id & line & ps & ps' & Et & _ & ->). injection V as <-. cbn [render_part].
        apply Ht; auto.
    - intros _ ind old new at_ p' _ V. injection V as <-. reflexivity.
    - intros t Ht Hp ind old new at_ p' _ V. inversion Hp as [| | |o Ho| | |]; subst. cbn [visit_part ed_part render_part] in *.
      apply bind_ok in V. destruct V as (r & V1 & V). destruct (acc (node_id t)) as [r'|] eqn:E.
      + rewrite (visit_acc t E) in V1. injection V1 as <-. destruct r' as [t'|l|]; try discriminate;
        injection V as <-; cbn [render_part nodes]; rewrite ?seq_text_one; apply apply_edits_one.
      + destruct (visit_none t E V1) as (id & line & ps & ps' & Et & _ & ->). injection V as <-. cbn [render_part].
        apply Ht; auto.
    - intros d _ ind old new at_ p' [->|Hd] V; [|exfalso; now apply (Hd d)]. injection V as <-. reflexivity.
    - intros t d Ht Hp ind old new at_ p' _ V. inversion Hp as [| | | |o d' Ho| |]; subst. cbn [visit_part ed_part render_part] in *.
      apply bind_ok in V. destruct V as (r & V1 & V). destruct (acc (node_id t)) as [r'|] eqn:E.
      + rewrite (visit_acc t E) in V1. injection V1 as <-. destruct r' as [t'|l|]; try discriminate;
        injection V as <-; cbn [render_part]; apply apply_edits_one.
      + destruct (visit_none t E V1) as (id & line & ps & ps' & Et & _ & ->). injection V as <-. cbn [render_part].
        apply Ht; auto.
    - intros pass l H Hp ind old new at_ p' _ V. rewrite visit_seq_eq in V. apply bind_ok in V. destruct V as (l' & V & E).
      injection E as <-. rewrite ed_seq_eq, !render_seq_eq. inversion Hp as [| | | | |pp l0 Hl He|]; subst.
      pose proof (visit_seq_nil l V) as N.
      assert (K : forall l l' at_, Forall (fun t => parsed t -> forall ind old new at_ t', acc (node_id t) = None ->
                     (old = new \/ explicit_seps t = true) -> visit acc t = Ok (RNode t') ->
                     apply_edits at_ (ed ind old new at_ t) (render ind old t) = render ind new t') l ->
                   (forall t, In t l -> parsed t) ->
                   (forall before x after, l = before ++ x :: after -> after <> [] -> explicit_seps x = true) ->
                   visit_seq l = Ok l' ->
                   apply_edits at_ (ed_seq ind at_ l) (seq_text ind false l) = seq_text ind false l').
      { clear. induction l as [|x l IH]; intros l' at_ H Hl He V; cbn [visit_seq] in V.
        - injection V as <-. reflexivity.
        - inversion H as [|x0 l0 Hx Hr]; subst.
          apply bind_ok in V. destruct V as (r & V1 & V). apply bind_ok in V. destruct V as (l2 & V2 & V). injection V as <-.
          cbn [ed_seq seq_text]. rewrite apply_edits_app; [|apply ed_elem_order|apply ed_seq_order].
          rewrite seq_text_more.
          assert (Nl : negb (forallb (vanishes acc) l) = match l2 with [] => false | _ => true end).
          { rewrite <- (visit_seq_nil l V2). destruct l2; reflexivity. }
          f_equal.
          + rewrite Nl. unfold ed_elem. destruct (acc (node_id x)) as [r'|] eqn:E.
            * rewrite (visit_acc x E) in V1. injection V1 as <-. apply apply_edits_one.
            * destruct (visit_none x E V1) as (id & line & ps & ps' & Et & _ & ->). cbn [nodes]. rewrite seq_text_one.
              apply Hx; [apply Hl; simpl; auto|first [exact E|reflexivity]| |exact V1].
              destruct l as [|y l]; [left; cbn [visit_seq] in V2; injection V2 as <-; reflexivity|].
              right. apply (He [] x (y :: l)); [reflexivity|discriminate].
          + apply IH; auto.
            * intros t Ht. apply Hl. simpl. auto.
            * intros before y after E Ha. apply (He (x :: before) y after); [cbn [app]; congruence|exact Ha]. }
      destruct l as [|x l].
      + cbn [visit_seq] in V. injection V as <-. reflexivity.
      + cbn [nonempty andb]. destruct (forallb (vanishes acc) (x :: l)).
        * destruct l'; [|discriminate]. unfold whole_seq. apply apply_edits_one.
        * destruct l' as [|y l']; [discriminate|]. apply K; auto.
    - intros blk l H Hp ind old new at_ p' _ V. rewrite visit_body_eq in V. apply bind_ok in V. destruct V as (l' & V & E).
      injection E as <-. rewrite ed_body_eq, !render_body_eq. inversion Hp as [| | | | | |b l0 Hl]; subst.
      pose proof (visit_body_nil l V) as N.
      assert (K : forall ind l l' at_, Forall (fun t => parsed t -> forall ind old new at_ t', acc (node_id t) = None ->
                     (old = new \/ explicit_seps t = true) -> visit acc t = Ok (RNode t') ->
                     apply_edits at_ (ed ind old new at_ t) (render ind old t) = render ind new t') l ->
                   (forall t, In t l -> parsed t) -> visit_body l = Ok l' ->
                   apply_edits at_ (ed_body ind at_ l) (flat_map (render ind false) l) = flat_map (render ind false) l').
      { clear. intro ind. induction l as [|x l IH]; intros l' at_ H Hl V; cbn [visit_body] in V.
        - injection V as <-. reflexivity.
        - inversion H as [|x0 l0 Hx Hr]; subst.
          apply bind_ok in V. destruct V as (r & V1 & V). apply bind_ok in V. destruct V as (l2 & V2 & V). injection V as <-.
          cbn [ed_body flat_map]. rewrite apply_edits_app; [|apply ed_stmt_order|apply ed_body_order].
          rewrite flat_map_app. f_equal.
          + rewrite (visit_kept x V1). unfold ed_stmt. destruct (acc (node_id x)) as [r'|] eqn:E; [apply apply_edits_one|].
            destruct (loses_all acc x); [apply apply_edits_one|].
            destruct (visit_none x E V1) as (id & line & ps & ps' & Et & _ & ->). cbn [nodes flat_map]. rewrite app_nil_r.
            apply Hx; auto. apply Hl. simpl. auto.
          + apply IH; auto. intros t Ht. apply Hl. simpl. auto. }
      destruct blk as [[i e]|]; [|apply K; auto].
      destruct l as [|x l].
      + cbn [visit_body] in V. injection V as <-. reflexivity.
      + cbn [nonempty andb]. destruct (forallb (stmt_vanishes acc) (x :: l)).
        * destruct l'; [|discriminate]. apply apply_edits_one.
        * destruct l' as [|y l']; [discriminate|]. apply K; auto.
  Qed.

  (** *** They are those of the specification *)

  Lemma in_ed_parts : forall ps ind old new at_ e, In e (ed_parts ind old new at_ ps) <->
    exists before p qs, ps = before ++ p :: qs /\
      In e (ed_part ind old new (at_ + List.length (flat_map (render_part ind old) before)) p).
  Proof.
    induction ps as [|p ps IH]; intros ind old new at_ e; cbn [ed_parts].
    - split; [contradiction|]. intros ([|] & q & qs & E & _); discriminate.
    - rewrite in_app_iff, IH. split.
      + intros [H|(before & q & qs & -> & H)].
        * exists [], p, ps. cbn [app flat_map List.length]. rewrite Nat.add_0_r. auto.
        * exists (p :: before), q, qs. split; auto. cbn [flat_map]. rewrite app_length, Nat.add_assoc. exact H.
      + intros (before & q & qs & E & H). destruct before as [|b before]; cbn [app] in E; injection E as -> ->.
        * left. cbn [flat_map List.length] in H. now rewrite Nat.add_0_r in H.
        * right. exists before, q, qs. split; auto. cbn [flat_map] in H. rewrite app_length, Nat.add_assoc in H. exact H.
  Qed.

  Lemma in_ed_seq : forall l ind at_ e, In e (ed_seq ind at_ l) <->
    exists before x after, l = before ++ x :: after /\
      In e (ed_elem ind (match after with [] => false | _ => true end) (negb (forallb (vanishes acc) after))
              (at_ + List.length (seq_text ind true before)) x).
  Proof.
    induction l as [|p ps IH]; intros ind at_ e; cbn [ed_seq].
    - split; [contradiction|]. intros ([|] & q & qs & E & _); discriminate.
    - rewrite in_app_iff, IH. split.
      + intros [H|(before & q & qs & -> & H)].
        * exists [], p, ps. cbn [app seq_text List.length]. rewrite Nat.add_0_r. auto.
        * exists (p :: before), q, qs. split; auto. cbn [seq_text]. rewrite app_length, Nat.add_assoc.
          replace (match before with [] => true | _ => true end) with true by (destruct before; reflexivity).
          destruct (before ++ q :: qs) eqn:E; [destruct before; discriminate|]. exact H.
      + intros (before & q & qs & E & H). destruct before as [|b before]; cbn [app] in E; injection E as -> ->.
        * left. cbn [seq_text List.length] in H. now rewrite Nat.add_0_r in H.
        * right. exists before, q, qs. split; auto. cbn [seq_text] in H. rewrite app_length, Nat.add_assoc in H.
          replace (match before with [] => true | _ => true end) with true in H by (destruct before; reflexivity).
          destruct (before ++ q :: qs) eqn:E; [destruct before; discriminate|]. exact H.
  Qed.

  Lemma in_ed_body : forall l ind at_ e, In e (ed_body ind at_ l) <->
    exists before x after, l = before ++ x :: after /\
      In e (ed_stmt ind (at_ + List.length (flat_map (render ind false) before)) x).
  Proof.
    induction l as [|p ps IH]; intros ind at_ e; cbn [ed_body].
    - split; [contradiction|]. intros ([|] & q & qs & E & _); discriminate.
    - rewrite in_app_iff, IH. split.
      + intros [H|(before & q & qs & -> & H)].
        * exists [], p, ps. cbn [app flat_map List.length]. rewrite Nat.add_0_r. auto.
        * exists (p :: before), q, qs. split; auto. cbn [flat_map]. rewrite app_length, Nat.add_assoc. exact H.
      + intros (before & q & qs & E & H). destruct before as [|b before]; cbn [app] in E; injection E as -> ->.
        * left. cbn [flat_map List.length] in H. now rewrite Nat.add_0_r in H.
        * right. exists before, q, qs. split; auto. cbn [flat_map] in H. rewrite app_length, Nat.add_assoc in H. exact H.
  Qed.

  Lemma edit_in_none : forall ind old new at_ t e, edit_in acc ind old new at_ t e -> acc (node_id t) = None.
  Proof. intros ind old new at_ t e H. inversion H; subst. cbn [node_id]. assumption. Qed.

  Lemma app_cons_ne : forall A (b : list A) x a, b ++ x :: a <> [].
  Proof. intros A [|y b] x a; discriminate. Qed.

  Lemma ed_spec :
    (forall t ind old new at_ e, In e (ed ind old new at_ t) <-> edit_in acc ind old new at_ t e) /\
    (forall p ind old new at_ e, In e (ed_part ind old new at_ p) <-> edit_part acc ind old new at_ p e).
  Proof.
    apply trees_ind.
    - intros id line ps H ind old new at_ e. rewrite ed_eq. rewrite Forall_forall in H. split.
      + destruct (acc id) eqn:E; [contradiction|]. intro Hi. apply in_ed_parts in Hi.
        destruct Hi as (before & p & qs & Ep & Hi). econstructor; eauto. apply H; [|exact Hi].
        subst ps. apply in_app_iff. simpl. auto.
      + intro Hi. inversion Hi as [id' line' ps' p qs e' before Ha Ep Hp]; subst. rewrite Ha. apply in_ed_parts.
        exists before, p, qs. split; auto. apply H; [|exact Hp]. apply in_app_iff. simpl. auto.
    - intros. cbn [ed_part]. split; [contradiction|]. intro H; inversion H.
    - intros. cbn [ed_part]. split; [contradiction|]. intro H; inversion H.
    - intros t Ht ind old new at_ e. cbn [ed_part]. split.
      + destruct (acc (node_id t)) as [[t'|l|]|] eqn:E; intro Hi; try contradiction.
        * destruct Hi as [<-|[]]. now apply ep_req_here.
        * apply ep_req_in. now apply Ht.
      + intro Hi. inversion Hi as [t0 t' E|t0 e0 E| | | | | | | | | | | |]; subst.
        * rewrite E. simpl. auto.
        * rewrite (edit_in_none E). now apply Ht.
    - intros. cbn [ed_part]. split; [contradiction|]. intro H; inversion H.
    - intros t Ht ind old new at_ e. cbn [ed_part]. split.
      + destruct (acc (node_id t)) as [r|] eqn:E; intro Hi.
        * destruct Hi as [<-|[]]. now apply ep_opt_here.
        * apply ep_opt_in. now apply Ht.
      + intro Hi. inversion Hi as [| |t0 t' E|t0 e0 E| | | | | | | | | |]; subst.
        * rewrite E. simpl. auto.
        * rewrite (edit_in_none E). now apply Ht.
    - intros. cbn [ed_part]. split; [contradiction|]. intro H; inversion H.
    - intros t d Ht ind old new at_ e. cbn [ed_part]. split.
      + destruct (acc (node_id t)) as [[t'|l|]|] eqn:E; intro Hi; try contradiction.
        * destruct Hi as [<-|[]]. now apply ep_sep_here.
        * destruct Hi as [<-|[]]. now apply ep_sep_gone.
        * apply ep_sep_in. now apply Ht.
      + intro Hi. inversion Hi as [| | | |t0 d0 t' E|t0 d0 E|t0 d0 e0 E| | | | | | |]; subst.
        * rewrite E. simpl. auto.
        * rewrite E. simpl. auto.
        * rewrite (edit_in_none E). now apply Ht.
    - intros pass l H ind old new at_ e. rewrite ed_seq_eq. rewrite Forall_forall in H.
      assert (K : forall before x after, l = before ++ x :: after -> nonempty l && forallb (vanishes acc) l = false ->
                  forallb (vanishes acc) l = false).
      { intros before x after -> Hn. destruct (before ++ x :: after) eqn:E; [now apply app_cons_ne in E|]. exact Hn. }
      destruct (nonempty l && forallb (vanishes acc) l) eqn:N.
      + apply andb_true_iff in N. destruct N as [N1 N2]. split.
        * intros [<-|[]]. apply ep_seq_all; auto. intros ->. discriminate.
        * intro Hi. inversion Hi; subst; try congruence. simpl. auto.
      + split.
        * intro Hi. apply in_ed_seq in Hi. destruct Hi as (before & x & after & E & Hi).
          pose proof (K _ _ _ E eq_refl) as V. unfold ed_elem in Hi. destruct (acc (node_id x)) as [r|] eqn:Ex.
          -- destruct Hi as [<-|[]]. subst l. now apply ep_seq_here.
          -- subst l. apply ep_seq_in; auto. apply H; [apply in_app_iff; simpl; auto|exact Hi].
        * intro Hi. apply in_ed_seq. inversion Hi; subst.
          -- destruct l as [|x l]; [congruence|]. cbn [nonempty andb] in N. congruence.
          -- do 3 eexists. split; [reflexivity|]. unfold ed_elem.
             match goal with E : acc _ = Some _ |- _ => rewrite E end. simpl. auto.
          -- do 3 eexists. split; [reflexivity|]. unfold ed_elem.
             match goal with E : edit_in _ _ _ _ _ _ _ |- _ => rewrite (edit_in_none E) end.
             apply H; [apply in_app_iff; simpl; auto|assumption].
    - intros blk l H ind old new at_ e. rewrite ed_body_eq. rewrite Forall_forall in H.
      assert (K : forall ind' at_, (forall before x after, l = before ++ x :: after -> (blk <> None -> forallb (stmt_vanishes acc) l = false)) ->
          ind' = match blk with Some (i, _) => ind ++ i | None => ind end ->
          (In e (ed_body ind' at_ l) <-> edit_part acc ind old new at_ (Body blk l) e)).
      { intros ind' at' Hb Hi'. rewrite in_ed_body. split.
        - intros (before & x & after & E & Hi). pose proof (Hb _ _ _ E) as Hv. subst l.
          unfold ed_stmt in Hi. destruct (acc (node_id x)) as [r|] eqn:Ex.
          + destruct Hi as [<-|[]]. subst ind'. now apply ep_body_here.
          + destruct (loses_all acc x) eqn:L.
            * destruct Hi as [<-|[]]. subst ind'. now apply ep_body_line.
            * subst ind'. apply ep_body_in; auto. apply H; [apply in_app_iff; simpl; auto|exact Hi].
        - intro Hi. inversion Hi; subst.
          + destruct l as [|x l]; [congruence|]. assert (X : forallb (stmt_vanishes acc) (x :: l) = false).
            { apply (Hb [] x l); [reflexivity|discriminate]. } congruence.
          + do 3 eexists. split; [reflexivity|]. unfold ed_stmt.
            match goal with E : acc _ = Some _ |- _ => rewrite E end. simpl. auto.
          + do 3 eexists. split; [reflexivity|]. unfold ed_stmt.
            match goal with E : loses_all _ ?x = true |- _ => rewrite E;
              assert (A : acc (node_id x) = None) by
                (destruct x as [id line ps]; unfold loses_all in E; cbn [node_id]; destruct (acc id); auto;
                 rewrite andb_false_r in E; discriminate) end.
            rewrite A. simpl. auto.
          + do 3 eexists. split; [reflexivity|]. unfold ed_stmt.
            match goal with E : edit_in _ _ _ _ _ _ _ |- _ => rewrite (edit_in_none E) end.
            match goal with E : loses_all _ _ = false |- _ => rewrite E end.
            apply H; [apply in_app_iff; simpl; auto|assumption]. }
      destruct blk as [[i p]|].
      + destruct (nonempty l && forallb (stmt_vanishes acc) l) eqn:N.
        * apply andb_true_iff in N. destruct N as [N1 N2]. split.
          -- intros [<-|[]]. apply ep_body_all; auto. intros ->. discriminate.
          -- intro Hi. inversion Hi; subst.
             ++ simpl. auto.
             ++ exfalso. match goal with X : Some _ <> None -> _ |- _ => rewrite X in N2 by discriminate end. discriminate.
             ++ exfalso. match goal with X : Some _ <> None -> _ |- _ => rewrite X in N2 by discriminate end. discriminate.
             ++ exfalso. match goal with X : Some _ <> None -> _ |- _ => rewrite X in N2 by discriminate end. discriminate.
        * apply K; auto. intros before x after -> _. destruct (before ++ x :: after) eqn:E; [now apply app_cons_ne in E|]. exact N.
      + apply K; auto. intros before x after _ Hc. congruence.
  Qed.
End Acc.
