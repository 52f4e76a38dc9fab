(** * C65: rules that follow the functions and classes around a call *)
From Coq Require Import String List NArith Bool Arith Lia.
From Verif Require Import Base PyStr Py Classes ClassesSpec Trees TreesSpec TreesFacts.
Import ListNotations.
Set Implicit Arguments.

(** ** time.sleep in asynchronous functions *)
Definition no_function (t : node) : Prop := forall n, within n t -> ~ is_function n.

Lemma sleep_after : forall t s,
  (fst (traverse async_sleep t s) = s /\ no_function t) \/ (fst (traverse async_sleep t s) = false /\ ~ no_function t).
Proof.
  induction t as [i k cs IH] using node_induction. intro s. rewrite traverse_eq.
  assert (L : forall l s, Forall (fun t => forall s, (fst (traverse async_sleep t s) = s /\ no_function t) \/ (fst (traverse async_sleep t s) = false /\ ~ no_function t)) l ->
    (fst (traverse_all async_sleep l s) = s /\ forall c, In c l -> no_function c) \/
    (fst (traverse_all async_sleep l s) = false /\ ~ (forall c, In c l -> no_function c))).
  { induction l as [|c l IHl]; intros s0 F; [left; split; [reflexivity|intros ? []]|]. inversion F as [|? ? Fc Fl]; subst. cbn [traverse_all].
    specialize (Fc s0). destruct (traverse async_sleep c s0) as [s1 r1]. cbn [fst] in Fc. specialize (IHl s1 Fl).
    destruct (traverse_all async_sleep l s1) as [s2 r2]. cbn [fst] in *.
    destruct Fc as [[-> Hc]|[-> Hc]].
    - destruct IHl as [[-> H]|[-> H]]; [left|right]; split; auto.
      + intros c' [<-|I]; auto.
      + intro K. apply H. intros c' I. apply K. simpl. auto.
    - right. split; [destruct IHl as [[-> _]|[-> _]]; reflexivity|]. intro K. apply Hc. apply K. simpl. auto. }
  assert (V : (exists a ps, k = FunctionNode a ps) \/ ((forall a ps, k <> FunctionNode a ps) /\ fst (v_visit async_sleep (Node i k cs) s) = s /\ forall s', fst (v_leave async_sleep (Node i k cs) s') = s')).
  { destruct k; try (right; repeat split; try reflexivity; intros; discriminate). left. eauto. }
  destruct V as [(a & ps & ->)|(Nk & V1 & V2)].
  - right. split.
    + cbn [async_sleep v_visit node_kind]. destruct (traverse_all async_sleep cs a) as [s2 r2]. reflexivity.
    + intro H. apply (H (Node i (FunctionNode a ps) cs) (within_here _)). exists a, ps. reflexivity.
  - destruct (v_visit async_sleep (Node i k cs) s) as [s1 r1]. cbn [fst] in V1. subst s1. specialize (L cs s IH).
    destruct (traverse_all async_sleep cs s) as [s2 r2]. cbn [fst] in L. specialize (V2 s2).
    destruct (v_leave async_sleep (Node i k cs) s2) as [s3 r3]. cbn [fst] in *. subst s3.
    destruct L as [[-> H]|[-> H]]; [left|right]; split; auto.
    + intros n W. apply within_children in W. destruct W as [->|(c & I & W)]; [intros (a & ps & E); exact (Nk a ps E)|].
      cbn [children] in I. exact (H c I n W).
    + intro K. apply H. intros c I n W. apply K. eapply within_below; eauto.
Qed.

Lemma sleep_after_all : forall l s,
  (fst (traverse_all async_sleep l s) = s /\ forall c, In c l -> no_function c) \/
  (fst (traverse_all async_sleep l s) = false /\ ~ (forall c, In c l -> no_function c)).
Proof.
  induction l as [|c l IHl]; intros s0; [left; split; [reflexivity|intros ? []]|]. cbn [traverse_all].
  pose proof (sleep_after c s0) as Fc. destruct (traverse async_sleep c s0) as [s1 r1]. cbn [fst] in Fc. specialize (IHl s1).
  destruct (traverse_all async_sleep l s1) as [s2 r2]. cbn [fst] in *.
  destruct Fc as [[-> Hc]|[-> Hc]].
  - destruct IHl as [[-> H]|[-> H]]; [left|right]; split; auto.
    + intros c' [<-|I]; auto.
    + intro K. apply H. intros c' I. apply K. simpl. auto.
  - right. split; [destruct IHl as [[-> _]|[-> _]]; reflexivity|]. intro K. apply Hc. apply K. simpl. auto.
Qed.

Lemma sleep_state : forall p, state_at async_sleep false p = true <-> directly_in_async p.
Proof.
  induction p as [|[a bs] p IH].
  - cbn [state_at]. split; [discriminate|]. intros ([|] & f & b & outer & ps & E & _); discriminate.
  - cbn [state_at]. assert (D : (exists x ps, node_kind a = FunctionNode x ps) \/ ((forall x ps, node_kind a <> FunctionNode x ps) /\ forall s, fst (v_visit async_sleep a s) = s)).
    { destruct a as [i k cs]. destruct k; try (right; split; [intros; discriminate|intro; reflexivity]). left. cbn [node_kind]. eauto. }
    destruct D as [(x & ps & Ek)|(Nk & V)].
    + assert (V : forall s, fst (v_visit async_sleep a s) = x) by (intro s; unfold async_sleep; cbn [v_visit]; rewrite Ek; reflexivity). rewrite V.
      destruct (sleep_after_all bs x) as [[-> H]|[-> H]]; split.
      * intros ->. exists [], a, bs, p, ps. split; [reflexivity|]. split; [exact Ek|]. split; [intros ? ? []|]. intros a' bs' [E|[]] c n I W. injection E as <- <-. exact (H c I n W).
      * intros (inner & f & b & outer & ps' & E & Ef & Hi & Hb). destruct inner as [|[a' b'] inner].
        -- cbn in E. injection E as <- <- _. rewrite Ef in Ek. injection Ek as <- _. reflexivity.
        -- injection E as <- <- _. exfalso. apply (Hi a bs (or_introl eq_refl)). exists x, ps. exact Ek.
      * discriminate.
      * intros (inner & f & b & outer & ps' & E & Ef & Hi & Hb). exfalso. destruct inner as [|[a' b'] inner].
        -- cbn in E. injection E as <- <- _. apply H. intros c I n W. exact (Hb a bs (or_introl eq_refl) c n I W).
        -- injection E as <- <- _. apply (Hi a bs (or_introl eq_refl)). exists x, ps. exact Ek.
    + rewrite V. destruct (sleep_after_all bs (state_at async_sleep false p)) as [[-> H]|[-> H]]; [rewrite IH|]; split.
      * intros (inner & f & b & outer & ps' & -> & Ef & Hi & Hb). exists ((a, bs) :: inner), f, b, outer, ps'. repeat split; auto.
        -- intros a' bs' [E|I]; [|now apply (Hi a' bs')]. injection E as <- <-. intros (x & ps & E). exact (Nk x ps E).
        -- intros a' bs' I c n Ic W. destruct I as [E|[E|I]].
           ++ apply (Hb a' bs') with (c := c); simpl; auto.
           ++ injection E as <- <-. exact (H c Ic n W).
           ++ apply (Hb a' bs') with (c := c); simpl; auto.
      * intros (inner & f & b & outer & ps' & E & Ef & Hi & Hb). destruct inner as [|[a' b'] inner].
        -- cbn in E. injection E as <- <- _. exfalso. exact (Nk _ _ Ef).
        -- injection E as <- <- ->. exists inner, f, b, outer, ps'. repeat split; auto.
           ++ intros a' bs' I. apply (Hi a' bs'). simpl. auto.
           ++ intros a' bs' I c n Ic W. apply (Hb a' bs') with (c := c); auto. simpl in I |- *. tauto.
      * discriminate.
      * intros (inner & f & b & outer & ps' & E & Ef & Hi & Hb). exfalso. destruct inner as [|[a' b'] inner].
        -- cbn in E. injection E as <- <- _. exact (Nk _ _ Ef).
        -- injection E as <- <- ->. apply H. intros c I n W. apply (Hb a bs) with (c := c); simpl; auto.
Qed.

(** The first qualified name of a call *)
Definition calls (q : str) (n : node) : Prop := exists e names, node_kind n = CallNode e (q :: names).

(** Exactly the calls of time.sleep directly in an asynchronous function are reported, in the order of the text and
    without a replacement. *)
Theorem C65_async_sleep : forall t,
  exists sel, keeps (fun pn => calls (u "time.sleep") (snd pn) /\ directly_in_async (fst pn)) (preorder [] t) sel /\
    snd (traverse async_sleep t false) = map (fun pn => Note (node_id (snd pn)) [] None) sel.
Proof.
  intro t. pose proof (@visit_reports _ async_sleep) as R.
  specialize (R ltac:(intros x s; destruct x as [i k cs]; destruct k; reflexivity) false t []). cbn [state_at] in R. rewrite R.
  apply select. intros [p n] _. cbn [fst snd]. unfold calls.
  pose proof (sleep_state p) as St. destruct (state_at async_sleep false p).
  - pose proof (proj1 St eq_refl) as D. unfold async_sleep. cbn [v_visit].
    destruct (node_kind n) as [| | e [|q names] | | | | | |] eqn:K; cbn [snd];
      try (right; split; [intros ((e' & ns & E) & _); discriminate|reflexivity]).
    destruct (str_eqb q (u "time.sleep")) eqn:Q.
    + apply str_eqb_eq in Q. subst q. left. split; eauto.
    + right. split; [|reflexivity]. intros ((e' & ns & E) & _). injection E as _ -> _. rewrite str_eqb_refl in Q. discriminate.
  - right. split; [intros (_ & D); apply St in D; discriminate|]. unfold async_sleep. cbn [v_visit]. destruct (node_kind n); reflexivity.
Qed.

(** A call after a nested function is missed. *)
Definition sleep_call (i : N) : node := Node i (CallNode (Call (Attribute (Name (u "time")) (u "sleep")) []) [u "time.sleep"]) [].
Theorem C65_async_missed_refuted : ~ (forall t,
  exists sel, keeps (fun pn => calls (u "time.sleep") (snd pn) /\ in_async (fst pn)) (preorder [] t) sel /\
    snd (traverse async_sleep t false) = map (fun pn => Note (node_id (snd pn)) [] None) sel).
Proof.
  intro H. destruct (H (Node 1 (FunctionNode true []) [Node 2 (FunctionNode false []) []; sleep_call 3])) as (sel & K & E).
  cbn in E. destruct sel; [|discriminate]. cbn [preorder app] in K.
  inversion K as [|? ? ? P1 K1|? ? ? P1 K1]; subst. inversion K1 as [|? ? ? P2 K2|? ? ? P2 K2]; subst.
  inversion K2 as [|? ? ? P3 K3|? ? ? P3 K3]; subst. apply P3. cbn [fst snd]. split.
  - eexists _, _. reflexivity.
  - eexists [], _, _, [], []. repeat split. intros ? ? [].
Qed.

Example C65_async_example :
  snd (traverse async_sleep (Node 0 (OtherNode 0) [
    Node 1 (FunctionNode true []) [sleep_call 2; Node 3 (OtherNode 1) [sleep_call 4]; Node 5 (FunctionNode false []) [sleep_call 6]];
    sleep_call 7; Node 8 (FunctionNode true []) [sleep_call 9]]) false)
  = [Note 2 [] None; Note 4 [] None; Note 9 [] None].
Proof. reflexivity. Qed.

(** ** super(Class, self) *)
Lemma super_same : forall t s, fst (traverse redundant_super t s) = s.
Proof.
  induction t as [i k cs IH] using node_induction. intro s. rewrite traverse_eq.
  assert (L : forall l s, Forall (fun t => forall s, fst (traverse redundant_super t s) = s) l -> fst (traverse_all redundant_super l s) = s).
  { induction l as [|c l IHl]; intros s0 F; [reflexivity|]. inversion F as [|? ? Fc Fl]; subst. cbn [traverse_all].
    specialize (Fc s0). destruct (traverse redundant_super c s0) as [s1 r1]. cbn [fst] in Fc. subst s1. specialize (IHl s0 Fl).
    destruct (traverse_all redundant_super l s0). exact IHl. }
  destruct k as [| name | e | | | | | |]; cbn [redundant_super v_visit node_kind];
    try (specialize (L cs s IH); destruct (traverse_all redundant_super cs s) as [s2 r2]; cbn [fst] in L; subst; reflexivity).
  - specialize (L cs (s ++ [name]) IH). destruct (traverse_all redundant_super cs (s ++ [name])) as [s2 r2]. cbn [fst] in L. subst.
    cbn [v_leave redundant_super node_kind]. cbn [fst]. apply removelast_last.
  - specialize (L cs s IH). destruct (traverse_all redundant_super cs s) as [s2 r2]. cbn [fst] in L. subst.
    cbn [v_leave redundant_super node_kind]. destruct e; try reflexivity. destruct e; try reflexivity. destruct args as [|a1 [|a2 [|]]]; reflexivity.
Qed.
Lemma super_same_all : forall l s, fst (traverse_all redundant_super l s) = s.
Proof.
  induction l as [|c l IHl]; intros s0; [reflexivity|]. cbn [traverse_all]. pose proof (super_same c s0) as Fc.
  destruct (traverse redundant_super c s0) as [s1 r1]. cbn [fst] in Fc. subst s1. specialize (IHl s0).
  destruct (traverse_all redundant_super l s0). exact IHl.
Qed.
Lemma super_state : forall p, state_at redundant_super [] p = classes_around p.
Proof.
  induction p as [|[a bs] p IH]; [reflexivity|]. cbn [state_at classes_around]. rewrite super_same_all, IH.
  unfold redundant_super. cbn [v_visit]. destruct (node_kind a); cbn [fst]; rewrite ?app_nil_r; reflexivity.
Qed.

Lemma dotted_snoc : forall l x, l <> [] -> dotted (l ++ [x]) = option_map (fun e => Attribute e x) (dotted l).
Proof. intros [|y l] x N; [congruence|]. cbn [app dotted option_map]. now rewrite fold_left_app. Qed.

Lemma dotted_iff : forall l e, (exists d, dotted l = Some d /\ dotted_eqb d e = true) <-> dotted_name l e.
Proof.
  intros l e. split.
  - intros (d & E & Q). revert d e E Q. induction l as [|x l IH] using rev_ind; intros d e E Q; [discriminate|].
    destruct l as [|y l].
    + cbn in E. injection E as <-. destruct e; cbn in Q; try discriminate. apply str_eqb_eq in Q. subst. constructor.
    + rewrite dotted_snoc in E by discriminate. destruct (dotted (y :: l)) as [d'|] eqn:D; [|discriminate]. injection E as <-.
      destruct e; cbn [dotted_eqb] in Q; try discriminate. apply andb_true_iff in Q. destruct Q as [Q1 Q2]. apply str_eqb_eq in Q2. subst.
      apply dotted_more. eapply IH; eauto.
  - induction 1 as [x|l e x H (d & E & Q)].
    + exists (Name x). split; [reflexivity|]. cbn. apply str_eqb_refl.
    + destruct l as [|y l]; [discriminate|]. exists (Attribute d x). rewrite dotted_snoc by discriminate. rewrite E. split; [reflexivity|].
      cbn [dotted_eqb]. now rewrite Q, str_eqb_refl.
Qed.

(** A call of super with two arguments, the first of which is the dotted name of the class around the call. *)
Definition super_call (pn : place * node) : Prop :=
  exists names a1 a2, node_kind (snd pn) = CallNode (Call (Name (u "super")) [a1; a2]) names /\
    dotted_name (classes_around (fst pn)) (a_value a1).

(** Exactly these are reported, inner calls first; the replacement is super(). *)
Theorem C65_super : forall t,
  exists sel, keeps super_call (postorder [] t) sel /\
    snd (traverse redundant_super t []) = map (fun pn => Note (node_id (snd pn)) [] (Some (Call (Name (u "super")) []))) sel.
Proof.
  intro t. pose proof (@leave_reports _ redundant_super) as R.
  specialize (R ltac:(intros x s; destruct x as [i k cs]; destruct k; reflexivity) [] t []). cbn [state_at] in R. rewrite R. clear R.
  apply select. intros [p n] _. cbn [fst snd]. unfold state_after. rewrite super_same_all, super_state. unfold super_call. cbn [fst snd].
  unfold redundant_super. cbn [v_leave v_visit].
  destruct (node_kind n) as [| |e names| | | | | |] eqn:K; cbn [fst snd];
    try (right; split; [intros (ns & a1 & a2 & E & _); discriminate|reflexivity]).
  assert (D : (exists f a1 a2, e = Call (Name f) [a1; a2]) \/ ((forall f a1 a2, e <> Call (Name f) [a1; a2]) /\
    snd match e with Call (Name f) [a1; a2] =>
        (classes_around p, match dotted (classes_around p) with
              | Some d => if str_eqb f (u "super") && dotted_eqb d (a_value a1) then [Note (node_id n) [] (Some (Call (Name f) []))] else []
              | None => [] end) | _ => (classes_around p, []) end = [])).
  { destruct e as [ | | | | | | |f args| | | | | | | | | | | | | | ]; try (right; split; [intros; discriminate|reflexivity]).
    destruct f; try (right; split; [intros; discriminate|reflexivity]).
    destruct args as [|a1 [|a2 [|a3 args]]]; try (right; split; [intros; discriminate|reflexivity]). left. eauto. }
  destruct D as [(f & a1 & a2 & ->)|(D & E)].
  - cbn [snd]. destruct (str_eqb f (u "super")) eqn:Q.
    + apply str_eqb_eq in Q. subst f. pose proof (dotted_iff (classes_around p) (a_value a1)) as I. destruct (dotted (classes_around p)) as [d|].
      * destruct (dotted_eqb d (a_value a1)) eqn:Qd; cbn [andb].
        -- left. split; [|reflexivity]. exists names, a1, a2. split; [reflexivity|]. apply I. eauto.
        -- right. split; [|reflexivity]. intros (ns & b1 & b2 & E & Hd). assert (Eb : a1 = b1) by congruence. rewrite <- Eb in Hd. apply I in Hd. destruct Hd as (d' & Ed & Hd). injection Ed as <-. congruence.
      * right. split; [|reflexivity]. intros (ns & b1 & b2 & E & Hd). assert (Eb : a1 = b1) by congruence. rewrite <- Eb in Hd. apply I in Hd. destruct Hd as (d' & Ed & Hd). discriminate.
    + right. split; [|destruct (dotted _); reflexivity]. intros (ns & b1 & b2 & E & Hd). assert (Ef : f = u "super") by congruence. rewrite Ef, str_eqb_refl in Q. discriminate.
  - right. split; [|exact E]. intros (ns & b1 & b2 & E' & _). injection E' as -> _. eapply D. reflexivity.
Qed.

(** super() stands for super(C, first parameter) with the innermost class C. Whether the second argument is the first
    parameter of the function is not checked. *)
Definition first_parameter (p : place) (x : str) : Prop :=
  exists inner f before outer a ps, p = inner ++ (f, before) :: outer /\ node_kind f = FunctionNode a (x :: ps) /\
    (forall n bs, In (n, bs) inner -> ~ is_function n).
Theorem C65_super_meaning_refuted : ~ (forall t p n names a1 a2 r,
  In (p, n) (postorder [] t) -> node_kind n = CallNode (Call (Name (u "super")) [a1; a2]) names ->
  In (Note (node_id n) [] (Some r)) (snd (traverse redundant_super t [])) ->
  exists x, first_parameter p x /\ a_value a2 = Name x).
Proof.
  intro H.
  set (call := Node 3 (CallNode (Call (Name (u "super")) [plain_arg (Name (u "A")); plain_arg (Name (u "other"))]) []) []).
  set (f := Node 2 (FunctionNode false [u "self"; u "other"]) [call]). set (c := Node 1 (ClassNode (u "A")) [f]).
  destruct (H c [(f, []); (c, [])] call [] _ _ (Call (Name (u "super")) []) (or_introl eq_refl) eq_refl) as (x & (inner & g & b & o & a & ps & E & K & Hi) & E2).
  - vm_compute. auto.
  - cbn in E2. injection E2 as <-. destruct inner as [|q inner].
    + cbn in E. injection E as <- _ _. vm_compute in K. discriminate.
    + injection E as <- E. apply (Hi f [] (or_introl eq_refl)). eexists _, _. reflexivity.
Qed.

Example C65_super_example :
  let call i a := Node i (CallNode (Call (Name (u "super")) [plain_arg a; plain_arg (Name (u "self"))]) []) [] in
  let f i c := Node i (FunctionNode false [u "self"]) [c] in
  snd (traverse redundant_super (Node 0 (OtherNode 0) [
    Node 1 (ClassNode (u "A")) [f 2%N (call 3%N (Name (u "A")));
      Node 4 (ClassNode (u "B")) [f 5%N (call 6%N (Name (u "B"))); f 7%N (call 8%N (Attribute (Name (u "A")) (u "B")))]];
    f 9%N (call 10%N (Name (u "A")))]) [])
  = [Note 3 [] (Some (Call (Name (u "super")) [])); Note 8 [] (Some (Call (Name (u "super")) []))].
Proof. vm_compute. reflexivity. Qed.
