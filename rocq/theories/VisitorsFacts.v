(** * Facts about the rule classes of Visitors.v *)
From Coq Require Import String List NArith Bool Arith Lia Permutation.
From Verif Require Import Base PyStr Py Rules Whole WholeSpec WholeFacts Ftypes Suppress SuppressSpec Cst EditFacts Engine Batch BatchProps System SystemSpec SystemProps
  CommandsSpec ProgramSpec ProgramFacts Visitors VisitorsSpec.
Import ListNotations.

(** ** What a class does with a list of calls *)
Fixpoint goes (C : rule_code) (md : module) (cs : list (str * cst)) (own : k_own C) : list say * res (k_own C) :=
  match cs with
  | [] => ([], Ok own)
  | (method, t) :: cs' =>
      match k_method C md method with
      | None => goes C md cs' own
      | Some f => match f t own with
                  | (xs, Ok own') => let (ys, o) := goes C md cs' own' in (xs ++ ys, o)
                  | (xs, Err e) => (xs, Err e)
                  end
      end
  end.

Lemma says_goes : forall C md cs own, says C md cs own = fst (goes C md cs own).
Proof.
  intros C md cs. induction cs as [|[m t] cs IH]; intro own; [reflexivity|]. cbn [says goes]. destruct (k_method C md m) as [f|]; [|apply IH].
  destruct (f t own) as [xs [own'|e]]; [|reflexivity]. rewrite IH. destruct (goes C md cs own'). reflexivity.
Qed.

Lemma after_goes : forall U M md C cs own r b, after (instance U M md C own r) cs = Ok b -> exists own', snd (goes C md cs own) = Ok own'.
Proof.
  intros U M md C. induction cs as [|[m t] cs IH]; intros own r b H; cbn [after goes] in *; [eexists; reflexivity|].
  cbn [instance a_method a_now] in H. destruct (k_method C md m) as [f|]; [|eapply IH; exact H].
  cbn [fst snd] in H. destruct (f t own) as [xs o]. destruct (say_all U M xs r) as [r1|e] eqn:Sa; cbn [bind] in H; [|discriminate].
  destruct o as [own'|e]; cbn [bind] in H; [|discriminate]. change (with_state _ _) with (instance U M md C own' r1) in H.
  destruct (IH _ _ _ H) as (o' & E). destruct (goes C md cs own'). exists o'. exact E.
Qed.

Lemma completes_goes : forall Y F p md M k, completes Y F p md M k -> exists own, snd (goes (y_code Y F k) md (calls (d_tree M)) (k_first (y_code Y F k))) = Ok own.
Proof.
  intros Y F p md M k (n & H). unfold visit_batched in H. destruct (run_calls _ _ _ _ _) as [[[out m] n']|e] eqn:R; [|discriminate H].
  apply run_calls_ok in R. inversion R as [|? b ? ? A _]; subst. eapply after_goes. exact A.
Qed.

Lemma goes_filter : forall C md (p : str -> bool) cs own, (forall m, p m = false -> k_method C md m = None) -> goes C md (filter (fun c => p (fst c)) cs) own = goes C md cs own.
Proof.
  intros C md p cs own H. revert own. induction cs as [|[m t] cs IH]; intro own; [reflexivity|]. cbn [filter fst goes]. destruct (p m) eqn:E.
  - cbn [goes]. destruct (k_method C md m) as [f|]; [|apply IH]. destruct (f t own) as [xs [own'|e]]; [|reflexivity]. now rewrite IH.
  - rewrite (H m E). apply IH.
Qed.

(** ** The calls of visit methods *)
Section CstInd.
  Context (P : cst -> Prop) (H : forall i ty attrs, (forall n cs, In (n, cs) attrs -> forall c, In c cs -> P c) -> P (Cst i ty attrs)).
  Fixpoint cst_ind2 (c : cst) : P c.
  Proof.
    destruct c as [i ty attrs]. apply H. intros n cs I c' I'. revert n cs I c' I'. induction attrs as [|[n0 cs0] attrs IH]; intros n cs I c' I'; [destruct I|].
    destruct I as [I|I]; [|exact (IH _ _ I _ I')]. injection I as <- <-. clear IH. induction cs0 as [|c0 cs0 IHc]; [destruct I'|]. destruct I' as [<-|I']; [apply cst_ind2|exact (IHc I')].
  Defined.
End CstInd.

Definition visit_of (c : cst) : str * cst := (u "visit_" ++ cst_type c, c).

Lemma filter_flat : forall (A B : Type) (p : B -> bool) (f : A -> list B) l, filter p (flat_map f l) = flat_map (fun x => filter p (f x)) l.
Proof. intros A B p f l. induction l as [|x l IH]; [reflexivity|]. cbn [flat_map]. rewrite filter_app. now rewrite IH. Qed.

Lemma filter_calls : forall (p : str -> bool), (forall s, p (u "leave_" ++ s) = false) -> (forall ty n, p (u "visit_" ++ ty ++ u "_" ++ n) = false) ->
  forall c, filter (fun x => p (fst x)) (calls c) = filter (fun x => p (fst x)) (map visit_of (all_nodes c)).
Proof.
  intros p Pl Pa. apply cst_ind2. intros i ty attrs IH.
  assert (K : forall (q : str * cst -> bool) x a b, filter q a = filter q b -> filter q (x :: a) = filter q (x :: b)) by (intros q x a b E; cbn [filter]; now rewrite E).
  assert (E : filter (fun x : str * cst => p (fst x)) (flat_map (fun a : str * list cst => match a with (name, cs) => (u "visit_" ++ ty ++ u "_" ++ name, Cst i ty attrs) ::
                flat_map calls cs ++ [(u "leave_" ++ ty ++ u "_" ++ name, Cst i ty attrs)] end) attrs ++ [(u "leave_" ++ ty, Cst i ty attrs)]) =
              filter (fun x : str * cst => p (fst x)) (map visit_of (flat_map (fun a : str * list cst => match a with (_, cs) => flat_map all_nodes cs end) attrs))).
  { rewrite filter_app. cbn [filter fst]. rewrite Pl, app_nil_r.
    generalize (Cst i ty attrs) as c0. intro c0. induction attrs as [|[n cs] attrs IHa]; [reflexivity|]. cbn [flat_map]. rewrite map_app, !filter_app. rewrite IHa by (intros n' cs' I; apply (IH n' cs'); now right).
    f_equal. cbn [filter fst]. rewrite Pa, filter_app. cbn [filter fst]. rewrite Pl, app_nil_r.
    specialize (IH n cs (or_introl eq_refl)). clear IHa. induction cs as [|c cs IHc]; [reflexivity|]. cbn [flat_map]. rewrite map_app, !filter_app, IHc by (intros c' I; apply IH; now right).
    rewrite (IH c) by now left. reflexivity. }
  apply (K _ (u "visit_" ++ ty, Cst i ty attrs) _ _ E).
Qed.

Lemma app_same_head : forall (a : str) b c, a ++ b = a ++ c -> b = c.
Proof. intros a b c H. now apply app_inv_head in H. Qed.

(** Method names: "visit_" with a name without "_" *)
Definition no_underscore (s : str) : Prop := ~ In 95%N s.
Lemma is_visit_leave : forall types s, is_visit types (u "leave_" ++ s) = false.
Proof. intros types s. unfold is_visit. induction types as [|ty types IH]; [reflexivity|]. cbn [existsb]. rewrite IH, orb_false_r. apply str_eqb_neq. discriminate. Qed.
Lemma is_visit_attribute : forall types ty n, Forall no_underscore types -> is_visit types (u "visit_" ++ ty ++ u "_" ++ n) = false.
Proof.
  intros types ty n H. unfold is_visit. induction H as [|t types Ht _ IH]; [reflexivity|]. cbn [existsb]. rewrite IH, orb_false_r. apply str_eqb_neq. intro E.
  apply app_same_head in E. apply Ht. rewrite <- E. apply in_or_app. right. left. reflexivity.
Qed.
Lemma is_visit_type : forall types ty, is_visit types (u "visit_" ++ ty) = existsb (str_eqb ty) types.
Proof.
  intros types ty. unfold is_visit. induction types as [|t types IH]; [reflexivity|]. cbn [existsb]. rewrite IH. f_equal.
Qed.

Fixpoint acting {Own} (act : tree -> Own -> list say * res Own) (ts : list tree) (own : Own) : list say * res Own :=
  match ts with
  | [] => ([], Ok own)
  | t :: ts' => match act t own with
                | (xs, Ok own') => let (ys, o) := acting act ts' own' in (xs ++ ys, o)
                | (xs, Err e) => (xs, Err e)
                end
  end.

Section Facts.
  Context (node : N -> bool) (form : expr -> tree -> Prop) (other : expr -> str) (read : tree -> expr) (write : tree -> expr -> tree).
  Notation exprs := (exprs node).
  Notation exprs_part := (exprs_part node).
  Notation view := (view node).
  Notation laid := (laid node form).
  Notation below := (below node).
  Notation held := (held node).
  Notation held_part := (held_part node).

  (** ** The expressions of a tree *)
  Lemma exprs_eq : forall id line ps, exprs (Node id line ps) = (if node id then [Node id line ps] else []) ++ flat_map exprs_part ps.
  Proof. reflexivity. Qed.
  Lemma exprs_node : forall t x, In x (exprs t) -> node (node_id x) = true.
  Proof.
    enough (H : (forall t x, In x (exprs t) -> node (node_id x) = true) /\ (forall p x, In x (exprs_part p) -> node (node_id x) = true)) by apply H.
    assert (L : forall l : list tree, Forall (fun t => forall x, In x (exprs t) -> node (node_id x) = true) l -> forall x, In x (flat_map exprs l) -> node (node_id x) = true).
    { intros l F x I. apply in_flat_map in I. destruct I as (t & It & I). rewrite Forall_forall in F. eauto. }
    apply trees_ind; try (intros; contradiction); auto.
    - intros id line ps H x I. rewrite exprs_eq in I. apply in_app_iff in I. destruct I as [I|I].
      + destruct (node id) eqn:E; [|contradiction]. destruct I as [<-|[]]. exact E.
      + apply in_flat_map in I. destruct I as (p & Ip & I). rewrite Forall_forall in H. eapply H; eauto.
  Qed.

  Lemma exprs_held : (forall t, node (node_id t) = false -> exprs t = flat_map exprs (held t)) /\ (forall p, exprs_part p = flat_map exprs (held_part p)).
  Proof.
    assert (K : (forall t, exprs t = flat_map exprs (held t)) /\ (forall p, exprs_part p = flat_map exprs (held_part p))).
    { assert (L : forall l : list tree, Forall (fun t => exprs t = flat_map exprs (held t)) l -> flat_map exprs l = flat_map exprs (flat_map held l)).
      { intros l F. induction F as [|t l E F IH]; [reflexivity|]. cbn [flat_map]. rewrite flat_map_app, <- IH, <- E. reflexivity. }
      apply trees_ind; try reflexivity; auto.
      - intros id line ps H. destruct (node id) eqn:E.
        + rewrite held_node by exact E. cbn [flat_map]. now rewrite app_nil_r.
        + rewrite held_other by exact E. rewrite exprs_eq. rewrite E. cbn [app]. induction H as [|p ps Ep F IH]; [reflexivity|]. cbn [flat_map]. rewrite flat_map_app, <- IH, <- Ep. reflexivity.
  }
    split; [intros t _|]; apply K.
  Qed.

  Lemma exprs_below : forall t, node (node_id t) = true -> exprs t = t :: flat_map exprs (below t).
  Proof.
    intros [id line ps] H. cbn [node_id] in H. rewrite exprs_eq. cbn [ProgramSpec.below]. rewrite H. cbn [app]. f_equal.
    induction ps as [|p ps IH]; [reflexivity|]. cbn [flat_map]. rewrite flat_map_app, <- IH, <- (proj2 exprs_held). reflexivity.
  Qed.

  Lemma exprs_ids : (forall t n, count_occ N.eq_dec (map node_id (exprs t)) n <= count_occ N.eq_dec (ids t) n) /\
    (forall p n, count_occ N.eq_dec (map node_id (exprs_part p)) n <= count_occ N.eq_dec (ids_part p) n).
  Proof.
    assert (L : forall l : list tree, Forall (fun t => forall n, count_occ N.eq_dec (map node_id (exprs t)) n <= count_occ N.eq_dec (ids t) n) l ->
      forall n, count_occ N.eq_dec (map node_id (flat_map exprs l)) n <= count_occ N.eq_dec (flat_map ids l) n).
    { intros l F n. induction F as [|t l E F IH]; [auto|]. cbn [flat_map]. rewrite map_app, !count_occ_app. specialize (E n). lia. }
    apply trees_ind; auto.
    - intros id line ps H n. rewrite exprs_eq. cbn [ids]. rewrite map_app, count_occ_app.
      assert (K : count_occ N.eq_dec (map node_id (flat_map exprs_part ps)) n <= count_occ N.eq_dec (flat_map ids_part ps) n).
      { induction H as [|p ps Ep F IH]; [auto|]. cbn [flat_map]. rewrite map_app, !count_occ_app. specialize (Ep n). lia. }
      destruct (node id); cbn [map node_id count_occ]; destruct (N.eq_dec id n); lia.
  Qed.

  Lemma view_of : forall md t, NoDup (ids (m_tree md)) -> In t (exprs (m_tree md)) -> view md (node_id t) = Some t.
  Proof.
    intros md t Nd I. unfold Visitors.view.
    assert (Nx : NoDup (map node_id (exprs (m_tree md)))).
    { apply (NoDup_count_occ N.eq_dec). intro n. rewrite (NoDup_count_occ N.eq_dec) in Nd. specialize (Nd n). pose proof (proj1 exprs_ids (m_tree md) n). lia. }
    induction (exprs (m_tree md)) as [|x l IH]; [destruct I|]. cbn [find]. cbn [map] in Nx. inversion Nx as [|? ? Ni Nl]; subst. destruct I as [->|I]; [now rewrite N.eqb_refl|].
    destruct (N.eqb_spec (node_id x) (node_id t)) as [E|E]; [|auto]. exfalso. apply Ni. rewrite E. now apply in_map.
  Qed.
  Lemma view_none : forall md i, node i = false -> view md i = None.
  Proof.
    intros md i H. unfold Visitors.view. destruct (find _ _) as [t|] eqn:E; [|reflexivity]. apply find_some in E. destruct E as [I E]. apply N.eqb_eq in E. apply exprs_node in I. congruence.
  Qed.

  (** ** A class with visit methods that look at the node *)
  Lemma goes_acting : forall C md M types (act : tree -> k_own C -> list say * res (k_own C)) own,
    (forall m, k_method C md m = if is_visit types m then Some (fun c own => match view md (cst_id c) with None => ([], Ok own) | Some t => act t own end) else None) ->
    Forall no_underscore types -> NoDup (ids (m_tree md)) -> walks node other read md M ->
    goes C md (calls (d_tree M)) own = acting act (filter (fun t => existsb (str_eqb (type_of other (read t))) types) (exprs (m_tree md))) own.
  Proof.
    intros C md M types act own Hm Nu Nd W.
    assert (Pm : forall m, is_visit types m = false -> k_method C md m = None) by (intros m E; now rewrite Hm, E).
    rewrite <- (goes_filter C md (is_visit types)) by exact Pm.
    rewrite filter_calls; [|apply is_visit_leave|intros; now apply is_visit_attribute]. rewrite goes_filter by exact Pm.
    unfold walks in W. assert (V : forall t, In t (exprs (m_tree md)) -> view md (node_id t) = Some t) by (intros; now apply view_of).
    revert own W V. generalize (exprs (m_tree md)) as ts. induction (all_nodes (d_tree M)) as [|c l IH]; intros ts own W V.
    - cbn [map filter] in W. destruct ts; [reflexivity|discriminate W].
    - cbn [map filter fst] in W. cbn [map goes visit_of]. rewrite Hm, is_visit_type. destruct (node (cst_id c)) eqn:E.
      + destruct ts as [|t ts]; [discriminate W|]. cbn [map] in W. injection W as W1 W2 W3. cbn [filter]. rewrite W2.
        destruct (existsb _ types); cbn [acting].
        * rewrite W1, (V t) by now left. destruct (act t own) as [xs [own'|e]]; [|reflexivity]. rewrite (IH ts own' W3) by (intros; apply V; now right). reflexivity.
        * apply IH; [exact W3|intros; apply V; now right].
      + destruct (existsb _ types); [|now apply IH]. rewrite view_none by exact E. rewrite (IH ts own W V). destruct (acting _ _ own). reflexivity.
  Qed.

  (** ** Nodes and expressions *)
  Context (Read : forall t e, laid t e -> read t = e).

  Lemma in_exprs : forall t e, laid t e -> forall t', In t' (exprs t) -> exists x, laid t' x /\ at_node node t e (node_id t') x.
  Proof.
    apply (laid_ind2 node form (fun t e => forall t', In t' (exprs t) -> exists x, laid t' x /\ at_node node t e (node_id t') x)).
    intros t e Nt Rt Fm Ch IH t' I. rewrite exprs_below in I by exact Nt. destruct I as [<-|I]; [exists e; split; [now constructor|apply rd_here]|].
    assert (K : exists c ce, In (c, ce) (combine (below t) (children e)) /\ exists x, laid t' x /\ at_node node c ce (node_id t') x).
    { clear - IH I. induction IH as [|c ce l l' H1 H2 IH]; [destruct I|]. cbn [flat_map] in I. apply in_app_iff in I. destruct I as [I|I].
      - exists c, ce. split; [now left|apply H1, I].
      - destruct (IH I) as (c' & ce' & I' & X). exists c', ce'. split; [now right|exact X]. }
    destruct K as (c & ce & Ic & x & Lx & Ax). exists x. split; auto. eapply rd_below; eauto.
  Qed.

  Lemma exprs_in : forall t e i x, laid t e -> at_node node t e i x -> exists t', In t' (exprs t) /\ node_id t' = i /\ laid t' x.
  Proof.
    intros t e i x L H. revert L. induction H as [t e|t e t' e' i x _ I _ IH]; intro L; destruct (laid_inv _ _ _ _ L) as (Nt & _ & _ & Ch); rewrite exprs_below by exact Nt.
    - exists t. split; [now left|auto].
    - assert (L' : laid t' e'). { clear - Ch I. induction Ch as [|a b l l' F1 F2 IH]; [contradiction|]. cbn [combine] in I. destruct I as [I|I]; [now injection I as <- <-|auto]. }
      destruct (IH L') as (t1 & I1 & E1 & L1). exists t1. split; auto. right. apply in_flat_map. exists t'. split; [eapply in_combine_l; exact I|exact I1].
  Qed.
End Facts.
