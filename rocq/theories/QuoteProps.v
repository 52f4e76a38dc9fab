(** * C61: the quotes of strings that are put into an f-string *)
From Coq Require Import String List NArith ZArith Bool Arith Lia.
From Verif Require Import Base PyStr Regex Py Rules RulesSpec PyToy RulesProps RulesProps2 RulesProps3.
Import ListNotations.

(** ** Vocabulary *)

(** The string literals of an expression from left to right: prefix, quote, text. *)
Definition literal := (str * str * str)%type.
Fixpoint literals (e : expr) : list literal :=
  let clauses := flat_map (fun c : clause => literals (fst (fst c)) ++ literals (snd (fst c)) ++ flat_map literals (snd c)) in
  let elems := flat_map (fun x : bool * expr => literals (snd x)) in
  match e with
  | SimpleString prefix q raw => [(prefix, q, raw)]
  | Name _ | Number _ => []
  | Concatenated l r => literals l ++ literals r
  | FString p q parts => flat_map (fun x => match x with inl _ => [] | inr e => literals e end) parts
  | Attribute e a => literals e
  | Subscript e sl => literals e ++ flat_map literals sl
  | Call f args => literals f ++ flat_map (fun a : arg => literals (snd a)) args
  | Not e => literals e
  | BoolOp l op r => literals l ++ literals r
  | Modulo l r => literals l ++ literals r
  | Compare l rest => literals l ++ flat_map (fun x : cmpop * expr => literals (snd x)) rest
  | Tuple es => elems es
  | List es => elems es
  | Set_ es => elems es
  | Dict es => flat_map (fun kv : expr * expr => literals (fst kv) ++ literals (snd kv)) es
  | Lambda ps simple body => literals body
  | ListComp elt cs => literals elt ++ clauses cs
  | SetComp elt cs => literals elt ++ clauses cs
  | GeneratorExp elt cs => literals elt ++ clauses cs
  | DictComp k v cs => literals k ++ literals v ++ clauses cs
  | Other n es => flat_map literals es
  end.

(** A literal inside an f-string with the quote [q]: one with another quote stays; one with the same quote gets one of the
    four quotes that does not occur in its text. *)
Definition requoted (q : str) (old new : literal) : Prop :=
  let '(p, o, raw) := old in let '(p', n, raw') := new in
  p' = p /\ raw' = raw /\
  ((o <> q /\ n = o) \/
   (o = q /\ n <> q /\ List.In n [u "'"; [34%N]; u "'''"; [34; 34; 34]%N] /\ forall a b, raw <> a ++ n ++ b)).

(** ** Facts *)

Lemma contains_spec : forall t s, contains t s = false -> forall a b, s <> a ++ t ++ b.
Proof.
  intros t s H a b ->. revert H. induction a as [|x a IH]; cbn [app].
  - intro H. assert (X : startswith t (t ++ b) = true) by (apply startswith_spec; eauto).
    destruct (t ++ b); cbn [contains] in H; rewrite X in H; discriminate.
  - cbn [contains]. intro H. apply orb_false_iff in H. tauto.
Qed.

Lemma flat_rel : forall A (g : A -> list literal) (R : literal -> literal -> Prop) l l',
  Forall2 (fun a b => Forall2 R (g a) (g b)) l l' -> Forall2 R (flat_map g l) (flat_map g l').
Proof. intros A g R l l' F. induction F as [|a b l l' H _ IH]; cbn [flat_map]; [constructor|]. apply Forall2_app; auto. Qed.

Lemma forall2_with : forall A (Q : A -> Prop) (R S : A -> A -> Prop) l l', Forall Q l -> Forall2 R l l' -> (forall a b, Q a -> R a b -> S a b) -> Forall2 S l l'.
Proof. intros A Q R S l l' F F2 H. induction F2 as [|a b l l' HR F2 IH]; [constructor|]. inversion F; subst. constructor; auto. Qed.

Section Requote.
  Context (reads_same : str -> str -> str -> str -> bool).
  Notation rq := (requote reads_same).

  Lemma requote_string_rel : forall q p o raw e', requote_string reads_same q p o raw = Some e' ->
    exists n, e' = SimpleString p n raw /\ requoted q (p, o, raw) (p, n, raw).
  Proof.
    intros q p o raw e' H. unfold requote_string in H. destruct (str_eqb q o) eqn:E.
    - apply str_eqb_eq in E. subst o. destruct (find _ quotes) as [n|] eqn:Fd; [|discriminate]. destruct (reads_same p q n raw); [|discriminate]. injection H as <-.
      apply find_some in Fd. destruct Fd as [I Fd]. apply andb_true_iff in Fd. destruct Fd as [F1 F2]. apply negb_true_iff in F1, F2. apply str_eqb_neq in F1.
      exists n. split; [reflexivity|]. cbn. repeat split; auto. right. repeat split; auto. intros a b. apply contains_spec. exact F2.
    - injection H as <-. exists o. split; [reflexivity|]. cbn. repeat split; auto. left. split; auto. apply str_eqb_neq in E. congruence.
  Qed.

  Lemma requote_rel : forall q e e', rq q e = Some e' -> Forall2 (requoted q) (literals e) (literals e').
  Proof.
    intro q. set (Q := fun e => forall e', rq q e = Some e' -> Forall2 (requoted q) (literals e) (literals e')).
    assert (Elems : forall es es', Forall (fun x : bool * expr => Q (snd x)) es -> opt_map (fun x : bool * expr => match rq q (snd x) with Some e => Some (fst x, e) | None => None end) es = Some es' ->
      Forall2 (requoted q) (flat_map (fun x : bool * expr => literals (snd x)) es) (flat_map (fun x : bool * expr => literals (snd x)) es')).
    { intros es es' F H. apply flat_rel. apply opt_map_rel in H. eapply forall2_with; eauto. intros [st a] [st' b] Qa H1. cbn in *. destruct (rq q a) as [c|] eqn:E; [|discriminate]. injection H1 as <- <-. now apply Qa. }
    assert (Plain : forall es es', Forall Q es -> opt_map (rq q) es = Some es' -> Forall2 (requoted q) (flat_map literals es) (flat_map literals es')).
    { intros es es' F H. apply flat_rel. apply opt_map_rel in H. eapply forall2_with; eauto. }
    assert (Clauses : forall cs cs', Forall (on_clause Q) cs -> opt_map (fun c => match c with (t, it, ifs) => match rq q t, rq q it, opt_map (rq q) ifs with Some t, Some it, Some ifs => Some (t, it, ifs) | _, _, _ => None end end) cs = Some cs' ->
      Forall2 (requoted q) (flat_map (fun c : clause => literals (fst (fst c)) ++ literals (snd (fst c)) ++ flat_map literals (snd c)) cs)
                           (flat_map (fun c : clause => literals (fst (fst c)) ++ literals (snd (fst c)) ++ flat_map literals (snd c)) cs')).
    { intros cs cs' F H. apply flat_rel. apply opt_map_rel in H. eapply forall2_with; eauto. intros [[t it] ifs] [[t' it'] ifs'] (Q1 & Q2 & Q3) H1. cbn [fst snd] in *.
      destruct (rq q t) as [x|] eqn:E1; [|discriminate]. destruct (rq q it) as [y|] eqn:E2; [|discriminate]. destruct (opt_map (rq q) ifs) as [z|] eqn:E3; [|discriminate]. injection H1 as <- <- <-.
      apply Forall2_app; [now apply Q1|]. apply Forall2_app; [now apply Q2|]. now apply Plain. }
    apply (expr_all Q); intros; intros e' HE; cbn [requote] in HE; unfold omap, omap2, option_map in HE;
      try (match type of HE with match rq q ?l with _ => _ end = _ => destruct (rq q l) as [x|] eqn:E1; [|discriminate] end);
      try (match type of HE with match rq q ?l with _ => _ end = _ => destruct (rq q l) as [y|] eqn:E2; [|discriminate] end);
      try (match type of HE with match ?m with _ => _ end = _ => destruct m as [z|] eqn:E3; [|discriminate] end);
      try (injection HE as <-); cbn [literals]; repeat apply Forall2_app; auto; try constructor.
    - apply requote_string_rel in HE. destruct HE as (n & -> & R). cbn [literals]. constructor; auto.
    - apply flat_rel. apply opt_map_rel in E3. eapply forall2_with; eauto. intros [t|a] b Qa H1; [injection H1 as <-; constructor|]. cbn in *. destruct (rq q a) as [c|] eqn:Ea; [|discriminate]. injection H1 as <-. now apply Qa.
    - apply flat_rel. apply opt_map_rel in E3. eapply forall2_with; eauto. intros [[st kw] a] [[st' kw'] b] Qa H1. cbn in *. destruct (rq q a) as [c|] eqn:E; [|discriminate]. injection H1 as <- <- <-. now apply Qa.
    - apply flat_rel. apply opt_map_rel in E3. eapply forall2_with; eauto. intros [op a] [op' b] Qa H1. cbn in *. destruct (rq q a) as [c|] eqn:E; [|discriminate]. injection H1 as <- <-. now apply Qa.
    - apply flat_rel. apply opt_map_rel in E3. eapply forall2_with; eauto. intros [a1 b1] [a2 b2] [Q1 Q2] H1. cbn in *. destruct (rq q a1) as [c|] eqn:Ea; [|discriminate]. destruct (rq q b1) as [d|] eqn:Eb; [|discriminate].
      injection H1 as <- <-. apply Forall2_app; auto.
  Qed.

  Lemma fill_rel : forall q tokens es parts, fill reads_same q tokens es = Some parts ->
    exists used rest, es = used ++ rest /\
      Forall2 (requoted q) (flat_map literals used) (flat_map (fun x => match x with inl _ => [] | inr e => literals e end) parts).
  Proof.
    intros q. induction tokens as [|t ts IH]; intros es parts H; cbn [fill] in H.
    - injection H as <-. exists [], es. split; auto. constructor.
    - destruct es as [|e es]; [discriminate|]. destruct (rq q e) as [e'|] eqn:R; [|discriminate]. destruct (fill reads_same q ts es) as [ps|] eqn:Fl; [|discriminate]. injection H as <-.
      destruct (IH _ _ Fl) as (used & rest & -> & F2). exists (e :: used), rest. split; [reflexivity|]. cbn [flat_map]. apply Forall2_app; [now apply requote_rel|].
      rewrite flat_map_app. unfold text_part. destruct t; cbn [flat_map app]; exact F2.
  Qed.
End Requote.

(** ** The claim *)

(** The literals in the replacement are those of the formatted expressions, none of them with the quote of the f-string, and
    those whose quote had to change have one that their text does not contain. *)
Theorem C61_quotes : forall code_length reads_same prefix q raw r new,
  use_fstring code_length reads_same (Modulo (SimpleString prefix q raw) r) = Ok (Some (Some new)) ->
  exists p' parts used rest, new = FString p' q parts /\
    match r with Tuple xs => map snd xs | _ => [r] end = used ++ rest /\
    Forall2 (requoted q) (flat_map literals used) (literals new).
Proof.
  intros cl rs prefix q raw r new H. unfold use_fstring in H.
  destruct (simple_string (SimpleString prefix q raw) && simple_expression cl r); [|destruct (is_bytes prefix); discriminate].
  destruct (split2 37 115 _) as [|t tokens]; [discriminate|].
  destruct (fill rs q tokens _) as [parts|] eqn:Fl; [|discriminate]. destruct (valid_fprefix _); [|discriminate]. injection H as <-.
  destruct (fill_rel _ _ _ _ _ Fl) as (used & rest & E & F2). do 4 eexists. split; [reflexivity|]. split; [exact E|].
  cbn [literals]. rewrite flat_map_app. unfold text_part. destruct t; cbn [flat_map app]; exact F2.
Qed.

(** Not covered by the rule: a literal with another quote whose text contains the quote of the f-string, and an f-string
    with the same quote. Before Python 3.12 both are syntax errors. *)
Definition safe_in (q : str) (l : literal) : Prop := let '(_, _, raw) := l in forall a b, raw <> a ++ q ++ b.

Theorem C61_contained_refuted : ~ (forall e p q parts, use_fstring (sl 0) yes e = Ok (Some (Some (FString p q parts))) -> Forall (safe_in q) (literals (FString p q parts))).
Proof.
  intro H. specialize (H (Modulo (ss "a %s") (SimpleString [] [34%N] (u "it's"))) _ _ _ eq_refl). inversion H as [|x l S _]; subst.
  exact (S (u "it") (u "s") eq_refl).
Qed.

Theorem C61_nested_refuted : ~ (forall e p q parts p' parts', use_fstring (sl 0) yes e = Ok (Some (Some (FString p q parts))) -> ~ List.In (inr (FString p' q parts')) parts).
Proof.
  intro H. refine (H (Modulo (ss "a %s") (FString (u "f") [39%N] [inr (Name (u "x"))])) _ _ _ _ _ eq_refl _). right. left. reflexivity.
Qed.

(** Also, the new quote may contain the quote of the f-string. *)
Theorem C61_triple_refuted : ~ (forall e p q parts, use_fstring (sl 0) yes e = Ok (Some (Some (FString p q parts))) ->
  Forall (fun l : literal => let '(_, n, _) := l in forall a b, n <> a ++ q ++ b) (literals (FString p q parts))).
Proof.
  intro H. specialize (H (Modulo (ss "%s") (SimpleString [] [39%N] [34%N])) _ _ _ eq_refl). inversion H as [|x l S _]; subst.
  exact (S [] [39; 39]%N eq_refl).
Qed.

Example C61_quotes_example :
  use_fstring (sl 0) yes (Modulo (ss "%s %s") (Tuple [(false, ss "x"); (false, SimpleString [] [34%N] (u "y"))])) =
    Ok (Some (Some (FString (u "f") [39%N] [inr (SimpleString [] [34%N] (u "x")); inl (u " "); inr (SimpleString [] [34%N] (u "y"))]))) /\
  use_fstring (sl 0) yes (Modulo (ss "%s") (SimpleString [] [39%N] [34%N])) =
    Ok (Some (Some (FString (u "f") [39%N] [inr (SimpleString [] [39; 39; 39]%N [34%N])]))).
Proof. split; vm_compute; reflexivity. Qed.
