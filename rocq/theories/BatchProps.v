(** * C72, C73: rules that run together, and the times reported *)
From Coq Require Import String List NArith ZArith Bool Arith Lia.
From Verif Require Import Base PyStr Ftypes Suppress Cst Engine EngineProps Batch.
Import ListNotations.
Set Implicit Arguments.

(** ** Vocabulary *)

(** A rule that is called on its own: each of the calls, in order, changes its state or raises. *)
Fixpoint after (a : actor) (cs : list (str * cst)) : res actor :=
  match cs with
  | [] => Ok a
  | (method, t) :: cs' =>
      match a_method a method with
      | None => after a cs'
      | Some f => match f t (a_now a) with Ok s => after (with_state a s) cs' | Err e => Err e end
      end
  end.

(** The metric names of all calls, in order. *)
Definition labels (cs : list (str * cst)) (actors : list actor) : list str :=
  flat_map (fun c => flat_map (fun a => match a_method a (fst c) with
                                        | Some _ => [u "Duration." ++ a_class a ++ u "." ++ fst c]
                                        | None => [] end) actors) cs.

(** The times of the calls with the name [k], the first call of the list having number [n]. *)
Fixpoint times (took : nat -> nat) (k : str) (n : nat) (ls : list str) : list nat :=
  match ls with
  | [] => []
  | l :: ls' => (if str_eqb l k then [took n] else []) ++ times took k (S n) ls'
  end.
Definition sum (l : list nat) : nat := fold_right Nat.add 0 l.

(** ** One call *)

Lemma with_now : forall a, with_state a (a_now a) = a.
Proof. intros []. reflexivity. Qed.

Lemma after_app : forall cs cs' a, after a (cs ++ cs') = let! b := after a cs in after b cs'.
Proof.
  induction cs as [|[method t] cs IH]; intros cs' a; [reflexivity|]. cbn [app after].
  destruct (a_method a method) as [f|]; [|apply IH]. destruct (f t (a_now a)) as [s|e]; [apply IH|reflexivity].
Qed.

Lemma call_all_ok : forall took method t actors m n out m' n',
  call_all took method t actors m n = Ok (out, m', n') ->
  Forall2 (fun a b => after a [(method, t)] = Ok b) actors out.
Proof.
  intros took method t actors. induction actors as [|a actors IH]; intros m n out m' n' H; cbn [call_all] in H.
  - injection H as <- <- <-. constructor.
  - destruct (a_method a method) as [f|] eqn:F.
    + apply bind_ok in H. destruct H as (s & Hs & H). apply bind_ok in H. destruct H as ([[rest m1] n1] & Hr & H). injection H as <- <- <-.
      constructor; [cbn [after]; rewrite F, Hs; reflexivity|eauto].
    + apply bind_ok in H. destruct H as ([[rest m1] n1] & Hr & H). injection H as <- <- <-.
      constructor; [cbn [after]; rewrite F; reflexivity|eauto].
Qed.

Lemma call_all_total : forall took method t actors out, Forall2 (fun a b => after a [(method, t)] = Ok b) actors out ->
  forall m n, exists m' n', call_all took method t actors m n = Ok (out, m', n').
Proof.
  intros took method t actors out H. induction H as [|a b actors out Ha _ IH]; intros m n; cbn [call_all].
  - eauto.
  - cbn [after] in Ha. destruct (a_method a method) as [f|].
    + destruct (f t (a_now a)) as [s|e]; [|discriminate]. injection Ha as <-. cbn [bind].
      destruct (IH (add_time took (a_class a) method n m) (S n)) as (m' & n' & ->). cbn [bind]. eauto.
    + injection Ha as <-. destruct (IH m n) as (m' & n' & ->). cbn [bind]. eauto.
Qed.

Lemma call_all_err : forall took method t actors m n e, call_all took method t actors m n = Err e ->
  exists before a later, actors = before ++ a :: later /\ (forall b, In b before -> exists b', after b [(method, t)] = Ok b') /\ after a [(method, t)] = Err e.
Proof.
  intros took method t actors. induction actors as [|a actors IH]; intros m n e H; cbn [call_all] in H; [discriminate|].
  assert (G : forall m n, (exists a', after a [(method, t)] = Ok a') -> call_all took method t actors m n = Err e ->
    exists before a0 later, a :: actors = before ++ a0 :: later /\ (forall b, In b before -> exists b', after b [(method, t)] = Ok b') /\ after a0 [(method, t)] = Err e).
  { intros m1 n1 Ha C. destruct (IH _ _ _ C) as (before & a0 & later & -> & Hb & Hf). exists (a :: before), a0, later. repeat split; auto. intros b [<-|I]; auto. }
  destruct (a_method a method) as [f|] eqn:F.
  - destruct (f t (a_now a)) as [s|e'] eqn:Fs; cbn [bind] in H.
    + eapply G.
      * exists (with_state a s). cbn [after]. rewrite F, Fs. reflexivity.
      * destruct (call_all took method t actors _ _) as [[[]]|] eqn:C; [discriminate|]. injection H as ->. exact C.
    + injection H as ->. exists [], a, actors. repeat split; [contradiction|]. cbn [after]. rewrite F, Fs. reflexivity.
  - eapply G.
    + exists a. cbn [after]. rewrite F. reflexivity.
    + destruct (call_all took method t actors _ _) as [[[]]|] eqn:C; [discriminate|]. injection H as ->. exact C.
Qed.

(** ** All calls *)

Lemma after_cons : forall method t cs a, after a ((method, t) :: cs) = let! b := after a [(method, t)] in after b cs.
Proof. intros. apply (after_app [(method, t)]). Qed.

Lemma run_calls_ok : forall took cs actors m n out m' n',
  run_calls took cs actors m n = Ok (out, m', n') -> Forall2 (fun a b => after a cs = Ok b) actors out.
Proof.
  intros took cs. induction cs as [|[method t] cs IH]; intros actors m n out m' n' H; cbn [run_calls] in H.
  - injection H as <- <- <-. clear. induction actors; constructor; auto.
  - apply bind_ok in H. destruct H as ([[mid m1] n1] & Hc & H). apply call_all_ok in Hc. apply IH in H.
    clear - Hc H. revert out H. induction Hc as [|a b actors mid Ha _ IHc]; intros out H; inversion H; subst; constructor; auto.
    rewrite after_cons, Ha. assumption.
Qed.

Lemma run_calls_total : forall took cs actors out, Forall2 (fun a b => after a cs = Ok b) actors out ->
  forall m n, exists m' n', run_calls took cs actors m n = Ok (out, m', n').
Proof.
  intros took cs. induction cs as [|[method t] cs IH]; intros actors out H m n; cbn [run_calls].
  - assert (actors = out) as ->. { induction H as [|a b l l' Ha _ IHH]; [reflexivity|]. injection Ha as ->. now f_equal. } eauto.
  - assert (exists mid, Forall2 (fun a b => after a [(method, t)] = Ok b) actors mid /\ Forall2 (fun a b => after a cs = Ok b) mid out) as (mid & H1 & H2).
    { clear - H. induction H as [|a b l l' Ha _ (mid & I1 & I2)]; [exists []; split; constructor|].
      rewrite after_cons in Ha. apply bind_ok in Ha. destruct Ha as (c & Hc & Ha). exists (c :: mid). split; constructor; auto. }
    destruct (@call_all_total took _ _ _ _ H1 m n) as (m1 & n1 & ->). cbn [bind]. apply IH. exact H2.
Qed.

Lemma run_calls_err : forall took cs actors m n e, run_calls took cs actors m n = Err e ->
  exists cs1 call cs2 before a later,
    cs = cs1 ++ call :: cs2 /\ actors = before ++ a :: later /\
    (forall b, In b actors -> exists b', after b cs1 = Ok b') /\
    (forall b, In b before -> exists b', after b (cs1 ++ [call]) = Ok b') /\
    after a (cs1 ++ [call]) = Err e.
Proof.
  intros took cs. induction cs as [|[method t] cs IH]; intros actors m n e H; cbn [run_calls] in H; [discriminate|].
  destruct (call_all took method t actors m n) as [[[mid m1] n1]|e'] eqn:C; cbn [bind] in H.
  - apply IH in H. destruct H as (cs1 & call & cs2 & before & a & later & -> & -> & H1 & H2 & H3). apply call_all_ok in C.
    apply Forall2_app_inv_r in C. destruct C as (b1 & l1 & C1 & C2 & ->). inversion C2 as [|a0 ? l2 ? Ca C3]; subst.
    exists ((method, t) :: cs1), call, cs2, b1, a0, l2. split; [reflexivity|]. split; [reflexivity|]. cbn [app]. split; [|split].
    + intros b I. assert (exists b', In b' (before ++ a :: later) /\ after b [(method, t)] = Ok b') as (b' & I' & E).
      { assert (F : Forall2 (fun a b => after a [(method, t)] = Ok b) (b1 ++ a0 :: l2) (before ++ a :: later)) by (apply Forall2_app; auto).
        clear - F I. induction F as [|x y l l' Hx _ IHF]; [contradiction|]. destruct I as [<-|I]; [exists y; simpl; auto|]. destruct (IHF I) as (z & Iz & Ez). exists z. simpl. auto. }
      destruct (H1 _ I') as (z & Ez). exists z. rewrite after_cons, E. exact Ez.
    + intros b I. assert (exists b', In b' before /\ after b [(method, t)] = Ok b') as (b' & I' & E).
      { clear - C1 I. induction C1 as [|x y l l' Hx _ IHF]; [contradiction|]. destruct I as [<-|I]; [exists y; simpl; auto|]. destruct (IHF I) as (z & Iz & Ez). exists z. simpl. auto. }
      destruct (H2 _ I') as (z & Ez). exists z. rewrite after_cons, E. exact Ez.
    + rewrite after_cons, Ca. exact H3.
  - injection H as ->. apply call_all_err in C. destruct C as (before & a & later & -> & H1 & H2).
    exists [], (method, t), cs, before, a, later. cbn [app]. repeat split; auto. intros b _. exists b. reflexivity.
Qed.

(** ** What is yielded *)

Lemma yield_all_indep : forall udiff md name vs m c m' c',
  fst (yield_all udiff md name vs m c) = fst (yield_all udiff md name vs m' c') /\
  match snd (yield_all udiff md name vs m c), snd (yield_all udiff md name vs m' c') with
  | Ok (_, x), Ok (_, y) => x = c + List.length vs /\ y = c' + List.length vs
  | Err e, Err e' => e = e'
  | _, _ => False
  end.
Proof.
  intros udiff md name vs. induction vs as [|v vs IH]; intros m c m' c'; cbn [yield_all].
  - cbn [fst snd List.length]. rewrite !Nat.add_0_r. auto.
  - assert (G : forall w m m', let go v m := (let (evs, r) := yield_all udiff md name vs m (S c) in (Yield v :: evs, r)) in
                              let go' v m := (let (evs, r) := yield_all udiff md name vs m (S c') in (Yield v :: evs, r)) in
      fst (go w m) = fst (go' w m') /\
      match snd (go w m), snd (go' w m') with
      | Ok (_, x), Ok (_, y) => x = c + List.length (v :: vs) /\ y = c' + List.length (v :: vs)
      | Err e, Err e' => e = e'
      | _, _ => False
      end).
    { intros w m1 m2. cbv beta zeta. specialize (IH m1 (S c) m2 (S c')). destruct (yield_all _ _ _ _ m1 _) as [e1 r1], (yield_all _ _ _ _ m2 _) as [e2 r2].
      cbn [fst snd List.length] in *. destruct IH as [-> R]. split; auto. destruct r1 as [[]|], r2 as [[]|]; auto. destruct R as [-> ->]. split; cbn [List.length]; lia. }
    cbv beta zeta in G. destruct (v_replacement v) as [r|]; [|apply G]. destruct (truthy_repl (Some r)); [|apply G].
    destruct (diff_violation udiff md (v_node v) r); [apply G|]. cbn [fst snd]. auto.
Qed.

(** What one rule delivers. *)
Definition of_rule (udiff : str -> str -> str) (md : module) (r : rule) : list event * res nat :=
  match yield_all udiff md (r_name r) (r_violations r) [] 0 with
  | (evs, Err e) => (evs, Err e)
  | (evs, Ok (_, n)) => (evs, Ok n)
  end.

Lemma of_rule_count : forall udiff md r evs n, of_rule udiff md r = (evs, Ok n) -> n = List.length (yields evs) /\ evs = map Yield (yields evs).
Proof.
  intros udiff md r evs n H. unfold of_rule in H. destruct (yield_all udiff md (r_name r) (r_violations r) [] 0) as [e [[m c]|]] eqn:Y; [|discriminate].
  injection H as <- <-. destruct (yield_all_spec _ _ _ _ _ _ _ _ Y) as [A (B1 & B2 & _)]. apply Forall2_length in B1. split; [lia|].
  clear -A. induction e as [|x e IH]; [reflexivity|]. destruct (A x (or_introl eq_refl)) as (v & ->). cbn [yields map]. f_equal. apply IH. intros y Hy. apply A. simpl. auto.
Qed.

Lemma yield_rules_parts : forall udiff md rules m c evs r, yield_rules udiff md rules m c = (evs, r) ->
  match r with
  | Ok (_, x) => exists parts, Forall2 (fun r part => of_rule udiff md r = (map Yield part, Ok (List.length part))) rules parts /\
                               evs = map Yield (concat parts) /\ x = c + List.length (concat parts)
  | Err e => exists before r later parts part, rules = before ++ r :: later /\
               Forall2 (fun r part => of_rule udiff md r = (map Yield part, Ok (List.length part))) before parts /\
               of_rule udiff md r = (map Yield part, Err e) /\ evs = map Yield (concat parts ++ part)
  end.
Proof.
  intros udiff md rules. induction rules as [|r0 rules IH]; intros m c evs r H; cbn [yield_rules] in H.
  - injection H as <- <-. exists []. repeat split; [constructor|]. simpl. lia.
  - match type of H with context[yield_all udiff md _ _ ?mm c] => set (m1 := mm) in * end.
    assert (I := yield_all_indep udiff md (r_name r0) (r_violations r0) m1 c [] 0).
    destruct (yield_all udiff md (r_name r0) (r_violations r0) m1 c) as [e1 r1] eqn:Y1.
    destruct (yield_all udiff md (r_name r0) (r_violations r0) [] 0) as [e2 r2] eqn:Y2. cbn [fst snd] in I. destruct I as [<- I].
    assert (Ye : e1 = map Yield (yields e1)).
    { destruct (yield_all_spec _ _ _ _ _ _ _ _ Y1) as [A _]. clear -A. induction e1 as [|x e IH]; [reflexivity|]. destruct (A x (or_introl eq_refl)) as (v & ->). cbn [yields map]. f_equal. apply IH. intros y Hy. apply A. simpl. auto. }
    destruct r1 as [[m2 c2]|x1], r2 as [[m3 c3]|x2]; try contradiction.
    + destruct I as [-> ->]. cbn [Nat.add] in Y2.
      assert (Hl : List.length (r_violations r0) = List.length (yields e1)).
      { destruct (yield_all_spec _ _ _ _ _ _ _ _ Y2) as [_ (B & _ & _)]. now apply Forall2_length in B. }
      assert (O : of_rule udiff md r0 = (map Yield (yields e1), Ok (List.length (yields e1)))).
      { unfold of_rule. rewrite Y2, <- Ye, <- Hl. reflexivity. }
      destruct (yield_rules udiff md rules m2 (c + List.length (r_violations r0))) as [e3 r3] eqn:Y3. injection H as <- <-.
      specialize (IH _ _ _ _ Y3). destruct r3 as [[m4 c4]|e].
      * destruct IH as (parts & F & -> & ->). exists (yields e1 :: parts). split; [constructor; auto|]. cbn [concat]. rewrite map_app, <- Ye, app_length. split; auto. lia.
      * destruct IH as (before & r & later & parts & part & -> & F & O' & ->). exists (r0 :: before), r, later, (yields e1 :: parts), part.
        split; [reflexivity|]. split; [constructor; auto|]. split; auto. cbn [concat]. rewrite <- app_assoc, (map_app Yield (yields e1)), <- Ye. reflexivity.
    + injection H as <- <-. subst x2. exists [], r0, rules, [], (yields e1). repeat split; [constructor| |exact Ye].
      unfold of_rule. rewrite Y2, <- Ye. reflexivity.
Qed.

Lemma lint_alone : forall took udiff md t a hook b, after a (calls t) = Ok b ->
  yields (fst (lint_with took udiff md t [a] hook)) = yields (fst (of_rule udiff md (rule_of b))) /\
  snd (lint_with took udiff md t [a] hook) = snd (of_rule udiff md (rule_of b)).
Proof.
  intros took udiff md t a hook b A. unfold lint_with, visit_batched.
  destruct (@run_calls_total took (calls t) [a] [b] ltac:(auto) [] 0) as (m' & n' & ->).
  cbn [bind map collect_violations].
  match goal with |- context[yield_rules udiff md [rule_of b] m' 0] => destruct (yield_rules udiff md [rule_of b] m' 0) as [evs r] eqn:Y end.
  apply yield_rules_parts in Y. destruct r as [[m2 c]|e].
  - destruct Y as (parts & F & -> & ->). inversion F as [|? part ? parts' O F']; subst. inversion F'; subst. rewrite O. cbn [fst snd concat]. rewrite app_nil_r.
    rewrite yields_app. split; [|reflexivity]. destruct hook; cbn [yields]; apply app_nil_r.
  - destruct Y as (before & r & later & parts & part & E & F & O & ->). destruct before as [|x before]; [|destruct before; discriminate]. injection E as <- <-. inversion F; subst.
    rewrite O. cbn [fst snd concat app]. auto.
Qed.

Lemma yields_map : forall vs, yields (map Yield vs) = vs.
Proof. induction vs; cbn [map yields]; congruence. Qed.

(** ** C72 *)

(** A rule's state, violations included, ends up as if it had run alone. *)
Theorem C72_same_state : forall took cs actors m n out m' n',
  run_calls took cs actors m n = Ok (out, m', n') ->
  Forall2 (fun a b => forall took2 m2 n2, exists m3 n3, run_calls took2 cs [a] m2 n2 = Ok ([b], m3, n3)) actors out.
Proof.
  intros took cs actors m n out m' n' H. apply run_calls_ok in H. induction H as [|a b l l' Ha _ IH]; constructor; auto.
  intros took2 m2 n2. apply run_calls_total. constructor; auto.
Qed.

(** Linting with several rules delivers exactly what linting with each of them delivers, in the order of the rules. *)
Theorem C72_together : forall took udiff md t actors hook evs n,
  lint_with took udiff md t actors hook = (evs, Ok n) ->
  exists parts,
    Forall2 (fun a part => forall took' hook', yields (fst (lint_with took' udiff md t [a] hook')) = part /\
                                               snd (lint_with took' udiff md t [a] hook') = Ok (List.length part)) actors parts /\
    yields evs = concat parts /\ n = List.length (concat parts).
Proof.
  intros took udiff md t actors hook evs n H. unfold lint_with, visit_batched in H.
  destruct (run_calls took (calls t) actors [] 0) as [[[out m] n0]|e] eqn:R; [|discriminate]. cbn [bind collect_violations] in H.
  destruct (yield_rules udiff md (map rule_of out) m 0) as [ev [[m2 c]|e]] eqn:Y; [|discriminate]. injection H as <- <-.
  apply yield_rules_parts in Y. destruct Y as (parts & F & -> & ->). exists parts. apply run_calls_ok in R. split; [|split].
  - clear - R F. revert parts F. induction R as [|a b l l' Ha _ IH]; intros parts F; inversion F as [|? part ? parts' O F']; subst; constructor; auto.
    intros took' hook'. destruct (lint_alone took' udiff md t a hook' Ha) as [-> ->]. rewrite O. cbn [fst snd]. rewrite yields_map. auto.
  - rewrite yields_app, yields_map. destruct hook; cbn [yields]; apply app_nil_r.
  - reflexivity.
Qed.

(** Linting succeeds with several rules iff it does with each. *)
Theorem C72_succeeds : forall took udiff md t actors hook,
  (exists n, snd (lint_with took udiff md t actors hook) = Ok n) <->
  (forall a, In a actors -> exists n, snd (lint_with took udiff md t [a] hook) = Ok n).
Proof.
  intros took udiff md t actors hook. split.
  - intros (n & H) a I. destruct (lint_with took udiff md t actors hook) as [evs r] eqn:E. cbn [snd] in H. subst r.
    apply C72_together in E. destruct E as (parts & F & _). clear - F I. induction F as [|x p l l' Hx _ IH]; [contradiction|]. destruct I as [<-|I]; auto. destruct (Hx took hook) as [_ ->]. eauto.
  - intro H. unfold lint_with, visit_batched.
    assert (A : exists out, Forall2 (fun a b => after a (calls t) = Ok b) actors out).
    { induction actors as [|a actors IH]; [exists []; constructor|]. destruct IH as (out & F); [intros; apply H; simpl; auto|].
      destruct (H a (or_introl eq_refl)) as (n & Hn). unfold lint_with, visit_batched in Hn.
      destruct (run_calls took (calls t) [a] [] 0) as [[[o m] k]|] eqn:R; [|discriminate]. apply run_calls_ok in R. inversion R; subst. eauto. }
    destruct A as (out & F). destruct (@run_calls_total took _ _ _ F [] 0) as (m & n0 & ->). cbn [bind collect_violations].
    destruct (yield_rules udiff md (map rule_of out) m 0) as [ev [[m2 c]|e]] eqn:Y; [exists c; reflexivity|exfalso].
    apply yield_rules_parts in Y. destruct Y as (before & r & later & parts & part & E & _ & O & _).
    assert (exists a b, In a actors /\ after a (calls t) = Ok b /\ rule_of b = r) as (a & b & I & Ab & Rb).
    { assert (I : In r (map rule_of out)) by (rewrite E; apply in_or_app; simpl; auto). apply in_map_iff in I. destruct I as (b & Rb & I). clear - F I Rb.
      induction F as [|x y l l' Hx _ IH]; [contradiction|]. destruct I as [<-|I]; [exists x, y; simpl; auto|]. destruct (IH I) as (a & b' & ? & ?). exists a, b'. simpl. auto. }
    destruct (H a I) as (n & Hn). destruct (lint_alone took udiff md t a hook Ab) as [_ X]. rewrite Rb, O in X. cbn [snd] in X. congruence.
Qed.

(** When linting fails, one of the rules is to blame: it fails alone, with the same error. If that happens during the
    traversal no violation of any rule is delivered; otherwise those of the rules before it are, and a part of its own. *)
Theorem C72_fails : forall took udiff md t actors hook evs e,
  lint_with took udiff md t actors hook = (evs, Err e) ->
  exists before a later, actors = before ++ a :: later /\
    ((evs = [] /\ exists cs1 call cs2, calls t = cs1 ++ call :: cs2 /\
                   (forall b, In b actors -> exists b', after b cs1 = Ok b') /\
                   (forall b, In b before -> exists b', after b (cs1 ++ [call]) = Ok b') /\ after a (cs1 ++ [call]) = Err e /\
                   lint_with took udiff md t [a] hook = ([], Err e)) \/
     (exists parts part,
        Forall2 (fun a part => yields (fst (lint_with took udiff md t [a] hook)) = part /\
                               snd (lint_with took udiff md t [a] hook) = Ok (List.length part)) before parts /\
        lint_with took udiff md t [a] hook = (map Yield part, Err e) /\ evs = map Yield (concat parts ++ part))).
Proof.
  intros took udiff md t actors hook evs e H. unfold lint_with, visit_batched in H.
  destruct (run_calls took (calls t) actors [] 0) as [[[out m] n0]|e0] eqn:R; cbn [bind collect_violations] in H.
  - destruct (yield_rules udiff md (map rule_of out) m 0) as [ev [[m2 c]|e1]] eqn:Y; [discriminate|]. injection H as <- <-.
    apply yield_rules_parts in Y. destruct Y as (before & r & later & parts & part & E & F & O & ->). apply run_calls_ok in R.
    apply map_eq_app in E. destruct E as (o1 & o2 & -> & <- & E). apply map_eq_cons in E. destruct E as (b & o3 & -> & <- & <-).
    apply Forall2_app_inv_r in R. destruct R as (a1 & a2 & R1 & R2 & ->). inversion R2 as [|a ? a3 ? Ra R3]; subst.
    exists a1, a, a3. split; [reflexivity|]. right. exists parts, part. split; [|split].
    + clear - R1 F. revert parts F. induction R1 as [|x y l l' Hx _ IH]; intros parts F; inversion F as [|? p ? parts' O F']; subst; constructor; auto.
      destruct (lint_alone took udiff md t x hook Hx) as [-> ->]. rewrite O. cbn [fst snd]. rewrite yields_map. auto.
    + destruct (lint_with took udiff md t [a] hook) as [ev r] eqn:L. destruct (lint_alone took udiff md t a hook Ra) as [L1 L2]. rewrite L, O in L1, L2. cbn [fst snd] in L1, L2. subst r.
      f_equal. unfold lint_with in L. destruct (C25_raises _ _ _ _ _ _ L) as [-> _]. now rewrite L1, yields_map.
    + reflexivity.
  - injection H as <- <-. apply run_calls_err in R. destruct R as (cs1 & call & cs2 & before & a & later & E & -> & H1 & H2 & H3).
    exists before, a, later. split; [reflexivity|]. left. split; [reflexivity|]. exists cs1, call, cs2. repeat split; auto.
    unfold lint_with, visit_batched. destruct (run_calls took (calls t) [a] [] 0) as [[[o m] k]|x] eqn:R.
    + exfalso. apply run_calls_ok in R. inversion R as [|? b ? ? Rb ?]; subst. rewrite E in Rb. change (call :: cs2) with ([call] ++ cs2) in Rb.
      rewrite app_assoc, after_app, H3 in Rb. discriminate.
    + cbn [bind collect_violations]. apply run_calls_err in R. destruct R as (d1 & c & d2 & b1 & x0 & l1 & E' & Es & K1 & _ & K3).
      destruct b1 as [|? [|]]; try discriminate. injection Es as <- <-.
      assert (A : after a (calls t) = Err x). { rewrite E'. change (c :: d2) with ([c] ++ d2). rewrite app_assoc, after_app, K3. reflexivity. }
      assert (B : after a (calls t) = Err e0). { rewrite E. change (call :: cs2) with ([call] ++ cs2). rewrite app_assoc, after_app, H3. reflexivity. }
      congruence.
Qed.

(** ** C73 *)

Definition value (o : option nat) : nat := match o with Some x => x | None => 0 end.
Definition added (o : option nat) (l : list nat) : option nat := match l with [] => o | _ => Some (value o + sum l) end.

Lemma sum_app : forall a b, sum (a ++ b) = sum a + sum b.
Proof. unfold sum. induction a as [|x a IH]; intro b; cbn [app fold_right]; [reflexivity|]. rewrite IH. lia. Qed.

Lemma added_app : forall o a b, added (added o a) b = added o (a ++ b).
Proof.
  intros o [|x a] [|y b]; cbn [added app]; auto; [now rewrite app_nil_r|]. cbn [value]. f_equal.
  change (x :: a ++ y :: b) with ((x :: a) ++ (y :: b)). rewrite sum_app. lia.
Qed.

Lemma times_app : forall took k l1 l2 n, times took k n (l1 ++ l2) = times took k n l1 ++ times took k (n + List.length l1) l2.
Proof.
  intros took k. induction l1 as [|l l1 IH]; intros l2 n; cbn [app times List.length].
  - rewrite Nat.add_0_r. reflexivity.
  - rewrite IH, app_assoc. do 2 f_equal. lia.
Qed.

Definition labels1 (method : str) (actors : list actor) : list str :=
  flat_map (fun a => match a_method a method with
                     | Some _ => [u "Duration." ++ a_class a ++ u "." ++ method]
                     | None => [] end) actors.

Lemma call_all_metrics : forall took method t actors m n out m' n',
  call_all took method t actors m n = Ok (out, m', n') ->
  n' = n + List.length (labels1 method actors) /\ (forall method', labels1 method' out = labels1 method' actors) /\
  forall k, dget k m' = added (dget k m) (times took k n (labels1 method actors)).
Proof.
  intros took method t actors. induction actors as [|a actors IH]; intros m n out m' n' H; cbn [call_all] in H.
  - injection H as <- <- <-. cbn. rewrite Nat.add_0_r. auto.
  - unfold labels1. cbn [flat_map]. fold (labels1 method actors). destruct (a_method a method) as [f|] eqn:F.
    + apply bind_ok in H. destruct H as (s & Hs & H). apply bind_ok in H. destruct H as ([[rest m1] n1] & Hr & H). injection H as <- <- <-.
      destruct (IH _ _ _ _ _ Hr) as (-> & L & D). cbn [app List.length]. split; [lia|]. split.
      * intro method'. cbn [flat_map]. fold (labels1 method' rest). fold (labels1 method' actors). rewrite L. reflexivity.
      * intro k. rewrite D. cbn [times].
        match goal with |- context[str_eqb ?l k] => set (lab := l) end. unfold add_time, duration_key. fold lab. cbn zeta.
        destruct (str_eqb lab k) eqn:E.
        -- apply str_eqb_eq in E. rewrite <- E. rewrite dget_dset_eq. rewrite <- (added_app (dget lab m) [took n]). f_equal. cbn [added sum fold_right value]. rewrite Nat.add_0_r. reflexivity.
        -- apply str_eqb_neq in E. rewrite dget_dset_neq by congruence. reflexivity.
    + apply bind_ok in H. destruct H as ([[rest m1] n1] & Hr & H). injection H as <- <- <-.
      destruct (IH _ _ _ _ _ Hr) as (-> & L & D). cbn [app]. split; [reflexivity|]. split; auto.
      intro method'. cbn [flat_map]. fold (labels1 method' rest). fold (labels1 method' actors). rewrite L. reflexivity.
Qed.

Lemma run_calls_metrics : forall took cs actors m n out m' n',
  run_calls took cs actors m n = Ok (out, m', n') ->
  n' = n + List.length (labels cs actors) /\ forall k, dget k m' = added (dget k m) (times took k n (labels cs actors)).
Proof.
  intros took cs. induction cs as [|[method t] cs IH]; intros actors m n out m' n' H; cbn [run_calls] in H.
  - injection H as <- <- <-. cbn. rewrite Nat.add_0_r. auto.
  - apply bind_ok in H. destruct H as ([[mid m1] n1] & Hc & H). destruct (call_all_metrics _ _ _ _ _ _ Hc) as (-> & L & D).
    destruct (IH _ _ _ _ _ _ H) as (-> & D').
    assert (E : labels cs mid = labels cs actors). { unfold labels. apply flat_map_ext. intros [method' t']. apply L. }
    change (labels ((method, t) :: cs) actors) with (labels1 method actors ++ labels cs actors).
    rewrite E in *. rewrite app_length. split; [lia|]. intro k. rewrite D', D, times_app, added_app. reflexivity.
Qed.

Definition duration_name (k : str) : Prop := exists rest, k = u "Duration." ++ rest.

Lemma yield_all_keeps : forall udiff md name vs m c evs m' c' k, duration_name k ->
  yield_all udiff md name vs m c = (evs, Ok (m', c')) -> dget k m' = dget k m.
Proof.
  intros udiff md name vs m c evs m' c' k (rest & ->) H. destruct (yield_all_spec _ _ _ _ _ _ _ _ H) as [_ (_ & _ & D)]. rewrite D.
  destruct (str_eqb _ _) eqn:E; auto. apply str_eqb_eq in E. discriminate.
Qed.

Lemma yield_rules_keeps : forall udiff md k rules, duration_name k -> forall m c evs m' c',
  yield_rules udiff md rules m c = (evs, Ok (m', c')) -> dget k m' = dget k m.
Proof.
  intros udiff md k rules K. induction rules as [|r rules IH]; intros m c evs m' c' H; cbn [yield_rules] in H.
  - injection H as <- <- <-. reflexivity.
  - destruct (yield_all udiff md (r_name r) (r_violations r) _ c) as [e1 [[m1 c1]|]] eqn:Y; [|discriminate].
    destruct (yield_rules udiff md rules m1 c1) as [e2 [[m2 c2]|]] eqn:Y2; [|discriminate]. injection H as <- <- <-.
    rewrite (IH _ _ _ _ _ Y2), (@yield_all_keeps _ _ _ _ _ _ _ _ _ _ K Y). destruct K as (rest & ->).
    rewrite !dget_dset_neq; auto; discriminate.
Qed.

(** For each class and method the hook is told the time all calls of that method took together, nothing about methods
    that were not called, and there are no other durations. *)
Theorem C73_durations : forall took udiff md t actors evs n,
  lint_with took udiff md t actors true = (evs, Ok n) ->
  exists m, evs = map Yield (yields evs) ++ [Hook m] /\
    forall rest, let k := u "Duration." ++ rest in
      dget k m = match times took k 0 (labels (calls t) actors) with [] => None | l => Some (sum l) end.
Proof.
  intros took udiff md t actors evs n H. unfold lint_with, visit_batched in H.
  destruct (run_calls took (calls t) actors [] 0) as [[[out m] n0]|e] eqn:R; [|discriminate]. cbn [bind] in H.
  destruct (C25_complete _ _ _ _ _ _ _ H) as (_ & _ & m' & E & _). cbn [collect_violations] in H.
  destruct (yield_rules udiff md (map rule_of out) m 0) as [ev [[m2 c]|e]] eqn:Y; [|discriminate].
  exists m'. split; auto. intros rest k. assert (K : duration_name k) by (exists rest; reflexivity).
  assert (X : m' = dset (count_key (u "Total")) c m2).
  { injection H as H _. rewrite E in H. apply app_inj_tail in H. destruct H as [_ H]. injection H as ->. reflexivity. }
  rewrite X, dget_dset_neq by (destruct K as (? & ->); discriminate). rewrite (@yield_rules_keeps _ _ _ _ K _ _ _ _ _ Y).
  destruct (run_calls_metrics _ _ _ _ _ R) as [_ ->]. cbn [dget]. destruct (times took k 0 (labels (calls t) actors)); reflexivity.
Qed.

(** ** Examples *)

(** A counter: a rule with one method that reports nothing and counts its calls; one that raises at the n-th call. *)
Definition counter (class method : str) (limit : nat) : actor :=
  @Actor class nat (fun x => if str_eqb x method then Some (fun _ s => if Nat.eqb s limit then Err ValueError else Ok (S s)) else None)
    0 (fun s => RuleInst class None (repeat (Violation class (Range (Pos 1 0) (Pos 1 1)) (u "m") 1%N None []) s)).
Definition leaf (id : N) (type : str) : cst := Cst id type [].
Definition ex_tree : cst := Cst 1 (u "Module") [(u "body", [leaf 2 (u "Pass"); leaf 3 (u "Pass"); leaf 4 (u "Break")])].
Definition ex_md : module := Mod (Node 1 false []) true [10%N].
Definition ex_actors : list actor := [counter (u "A") (u "visit_Pass") 9; counter (u "B") (u "leave_Module") 9; counter (u "C") (u "visit_Yield") 9].

Example C72_example : exists evs, lint_with (fun n => 10 + n) (fun _ _ => []) ex_md ex_tree ex_actors true = (evs, Ok 3).
Proof. eexists. vm_compute. reflexivity. Qed.

Example C73_example : exists evs m, lint_with (fun n => 10 + n) (fun _ _ => []) ex_md ex_tree ex_actors true = (evs ++ [Hook m], Ok 3) /\
  dget (u "Duration.A.visit_Pass") m = Some 21 /\ dget (u "Duration.B.leave_Module") m = Some 12 /\ dget (u "Duration.C.visit_Yield") m = None.
Proof. exists (map Yield (yields (fst (lint_with (fun n => 10 + n) (fun _ _ => []) ex_md ex_tree ex_actors true)))). eexists. split; [vm_compute; reflexivity|]. vm_compute. auto. Qed.

Example C72_fails_example : snd (lint_with (fun _ => 1) (fun _ _ => []) ex_md ex_tree [counter (u "A") (u "visit_Pass") 9; counter (u "B") (u "leave_Module") 0] false) = Err ValueError.
Proof. vm_compute. reflexivity. Qed.

(** A rule that raises hides the violations of all others: that linting with more rules delivers at least as much is false. *)
Theorem C72_monotone_refuted : ~ (forall took udiff md t a b v,
  In v (yields (fst (lint_with took udiff md t [a] false))) -> In v (yields (fst (lint_with took udiff md t [a; b] false)))).
Proof.
  intro H. specialize (H (fun _ => 1) (fun _ _ => []) ex_md ex_tree (counter (u "A") (u "visit_Pass") 9) (counter (u "B") (u "leave_Module") 0)).
  assert (X := H _ (or_introl eq_refl)). vm_compute in X. exact X.
Qed.

(** Two classes of the same name cannot be told apart in the durations: they are added up. *)
Theorem C73_same_name_refuted : ~ (forall took udiff md t a b evs n m k d evs' n' m' d', a <> b ->
  lint_with took udiff md t [a] true = (evs' ++ [Hook m'], Ok n') -> dget (u "Duration." ++ k) m' = Some d' ->
  lint_with took udiff md t [a; b] true = (evs ++ [Hook m], Ok n) -> dget (u "Duration." ++ k) m = Some d -> d = d').
Proof.
  intro H. 
  specialize (H (fun _ => 1) (fun _ _ => []) ex_md (leaf 1 (u "Pass")) (counter (u "A") (u "visit_Pass") 9) (counter (u "A") (u "visit_Pass") 8)).
  assert (D : 2 = 1); [|discriminate].
  eapply H with (k := u "A.visit_Pass").
  - intro E.
    assert (Y : List.length (filter (fun a => match run_calls (fun _ => 0) (repeat (u "visit_Pass", leaf 1 (u "Pass")) 9) [a] [] 0 with Ok _ => true | Err _ => false end) [counter (u "A") (u "visit_Pass") 9]) =
                List.length (filter (fun a => match run_calls (fun _ => 0) (repeat (u "visit_Pass", leaf 1 (u "Pass")) 9) [a] [] 0 with Ok _ => true | Err _ => false end) [counter (u "A") (u "visit_Pass") 8])) by (rewrite E; reflexivity).
    vm_compute in Y. discriminate.
  - instantiate (3 := map Yield [_]). vm_compute. reflexivity.
  - vm_compute. reflexivity.
  - instantiate (3 := map Yield [_; _]). vm_compute. reflexivity.
  - vm_compute. reflexivity.
Qed.

(** ** What is called *)

(** The calls for one node: its own first and last; in between, for each attribute, the calls for the nodes in it. *)
Inductive traversal : cst -> list (str * cst) -> Prop :=
| trav : forall id type attrs parts, in_attributes (Cst id type attrs) type attrs parts ->
    traversal (Cst id type attrs) ((u "visit_" ++ type, Cst id type attrs) :: parts ++ [(u "leave_" ++ type, Cst id type attrs)])
with in_attributes : cst -> str -> list (str * list cst) -> list (str * cst) -> Prop :=
| ia_nil : forall t type, in_attributes t type [] []
| ia_cons : forall t type name nodes attrs cs parts, in_nodes nodes cs -> in_attributes t type attrs parts ->
    in_attributes t type ((name, nodes) :: attrs)
      ((u "visit_" ++ type ++ u "_" ++ name, t) :: cs ++ (u "leave_" ++ type ++ u "_" ++ name, t) :: parts)
with in_nodes : list cst -> list (str * cst) -> Prop :=
| in_nil : in_nodes [] []
| in_cons : forall t ts cs cs', traversal t cs -> in_nodes ts cs' -> in_nodes (t :: ts) (cs ++ cs').

Scheme traversal_mind := Minimality for traversal Sort Prop
with in_attributes_mind := Minimality for in_attributes Sort Prop
with in_nodes_mind := Minimality for in_nodes Sort Prop.
Combined Scheme traversals from traversal_mind, in_attributes_mind, in_nodes_mind.

Fixpoint size (t : cst) : nat :=
  match t with Cst _ _ attrs => S (fold_right (fun a n => fold_right (fun c k => size c + k) 0 (snd a) + n) 0 attrs) end.

(** Every node of the tree, and each of its attributes, gives its methods once, in the order of the source. *)
Theorem C72_traversal : forall t cs, traversal t cs <-> cs = calls t.
Proof.
  intros t cs. split.
  - intro H. set (Pa := fun t type attrs parts => parts = flat_map (fun a : str * list cst => match a with
                         | (name, cs) => (u "visit_" ++ type ++ u "_" ++ name, t) ::
                                         flat_map calls cs ++ [(u "leave_" ++ type ++ u "_" ++ name, t)]
                         end) attrs).
    refine (@traversal_mind (fun t cs => cs = calls t) Pa (fun ts cs => cs = flat_map calls ts) _ _ _ _ _ t cs H).
    + intros id type attrs parts _ E. unfold Pa in E. cbn [calls]. now rewrite E.
    + intros t0 type. reflexivity.
    + intros t0 type name nodes attrs cs0 parts _ E1 _ E2. unfold Pa in *. cbn [flat_map]. rewrite E1, E2. cbn [app]. f_equal. now rewrite <- app_assoc.
    + reflexivity.
    + intros t0 ts cs0 cs' _ E1 _ E2. cbn [flat_map]. now rewrite E1, E2.
  - intros ->. remember (size t) as n eqn:En. assert (Hn : size t <= n) by lia. clear En. revert t Hn.
    induction n as [|n IH]; intros [id type attrs] Hn; cbn [size] in Hn; [lia|]. cbn [calls]. constructor.
    set (t := Cst id type attrs). clearbody t. apply le_S_n in Hn. induction attrs as [|[name nodes] attrs IHa]; [constructor|].
    cbn [fold_right snd] in Hn. cbn [flat_map app]. rewrite <- app_assoc. cbn [app]. constructor; [|apply IHa; lia].
    assert (Hm : fold_right (fun c k => size c + k) 0 nodes <= n) by lia. clear - IH Hm.
    induction nodes as [|c nodes IHn]; [constructor|]. cbn [fold_right] in Hm. cbn [flat_map]. constructor; [apply IH; lia|apply IHn; lia].
Qed.

Example C72_traversal_example : map fst (calls ex_tree) =
  [u "visit_Module"; u "visit_Module_body"; u "visit_Pass"; u "leave_Pass"; u "visit_Pass"; u "leave_Pass"; u "visit_Break"; u "leave_Break"; u "leave_Module_body"; u "leave_Module"].
Proof. vm_compute. reflexivity. Qed.
