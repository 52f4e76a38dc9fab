(** * Facts about the classes of Statements.v *)
From Coq Require Import String List NArith Bool Arith Lia Permutation.
From Verif Require Import Base PyStr Py Rules Classes ClassesSpec Trees TreesSpec Suppress Cst Engine Batch BatchProps System SystemSpec SystemProps
  CommandsSpec Visitors VisitorsSpec VisitorsFacts Statements StatementsSpec.
Import ListNotations.

(** ** Entering and leaving nodes *)
Fixpoint steps (c : cst) : list (bool * cst) :=
  match c with Cst _ _ attrs => (true, c) :: flat_map (fun a => match a with (_, cs) => flat_map steps cs end) attrs ++ [(false, c)] end.

Fixpoint walk {Own} (f : bool -> cst -> Own -> list say * res Own) (l : list (bool * cst)) (own : Own) : list say * res Own :=
  match l with
  | [] => ([], Ok own)
  | (b, c) :: l' => match f b c own with
                    | (xs, Ok own') => let (ys, o) := walk f l' own' in (xs ++ ys, o)
                    | (xs, Err e) => (xs, Err e)
                    end
  end.

Definition relevant (enter leave : list str) (x : bool * cst) : bool := existsb (str_eqb (cst_type (snd x))) (if fst x then enter else leave).
Definition call_of (x : bool * cst) : str * cst := ((if fst x then u "visit_" else u "leave_") ++ cst_type (snd x), snd x).

Lemma is_leave_visit : forall types s, is_leave types (u "visit_" ++ s) = false.
Proof. intros types s. unfold is_leave. induction types as [|ty types IH]; [reflexivity|]. cbn [existsb]. rewrite IH, orb_false_r. apply str_eqb_neq. discriminate. Qed.
Lemma is_leave_attribute : forall types ty n, Forall no_underscore types -> is_leave types (u "leave_" ++ ty ++ u "_" ++ n) = false.
Proof.
  intros types ty n H. unfold is_leave. induction H as [|t types Ht _ IH]; [reflexivity|]. cbn [existsb]. rewrite IH, orb_false_r. apply str_eqb_neq. intro E.
  apply app_same_head in E. apply Ht. rewrite <- E. apply in_or_app. right. left. reflexivity.
Qed.
Lemma is_leave_type : forall types ty, is_leave types (u "leave_" ++ ty) = existsb (str_eqb ty) types.
Proof. intros types ty. unfold is_leave. induction types as [|t types IH]; [reflexivity|]. cbn [existsb]. rewrite IH. f_equal. Qed.

Section Calls.
  Context (enter leave : list str) (Ne : Forall no_underscore enter) (Nl : Forall no_underscore leave).
  Definition has_method (m : str) : bool := is_visit enter m || is_leave leave m.

  Lemma has_step : forall x, has_method (fst (call_of x)) = relevant enter leave x.
  Proof.
    intros [[|] c]; unfold has_method, call_of, relevant; cbn [fst snd].
    - now rewrite is_leave_visit, orb_false_r, is_visit_type.
    - now rewrite is_visit_leave, orb_false_l, is_leave_type.
  Qed.

  Lemma filter_steps : forall c, filter (fun x => has_method (fst x)) (calls c) = map call_of (filter (relevant enter leave) (steps c)).
  Proof.
    apply cst_ind2. intros i ty attrs IH. set (c := Cst i ty attrs).
    assert (K : forall x a b, filter (fun x => has_method (fst x)) a = map call_of (filter (relevant enter leave) b) ->
      filter (fun x => has_method (fst x)) (call_of x :: a) = map call_of (filter (relevant enter leave) (x :: b))).
    { intros x a b E. cbn [filter]. rewrite has_step. destruct (relevant enter leave x); cbn [map]; now rewrite E. }
    change (calls c) with (call_of (true, c) :: (flat_map (fun a : str * list cst => match a with (name, cs) => (u "visit_" ++ ty ++ u "_" ++ name, c) ::
      flat_map calls cs ++ [(u "leave_" ++ ty ++ u "_" ++ name, c)] end) attrs ++ [call_of (false, c)])).
    change (steps c) with ((true, c) :: (flat_map (fun a : str * list cst => match a with (_, cs) => flat_map steps cs end) attrs ++ [(false, c)])).
    apply K. rewrite !filter_app, map_app. f_equal.
    - clear K. clearbody c. induction attrs as [|[n cs] attrs IHa]; [reflexivity|]. cbn [flat_map]. rewrite !filter_app, map_app. rewrite IHa by (intros n' cs' I; apply (IH n' cs'); now right).
      f_equal. assert (V : has_method (u "visit_" ++ ty ++ u "_" ++ n) = false) by (unfold has_method; now rewrite is_visit_attribute, is_leave_visit).
      assert (Lv : has_method (u "leave_" ++ ty ++ u "_" ++ n) = false) by (unfold has_method; now rewrite is_leave_attribute, is_visit_leave).
      cbn [filter fst]. rewrite V, filter_app. cbn [filter fst]. rewrite Lv, app_nil_r.
      specialize (IH n cs (or_introl eq_refl)). clear IHa. induction cs as [|x cs IHc]; [reflexivity|]. cbn [flat_map]. rewrite !filter_app, map_app, IHc by (intros c' I; apply IH; now right).
      rewrite (IH x) by now left. reflexivity.
    - apply (K (false, c) [] []). reflexivity.
  Qed.

  Lemma goes_acts : forall name msg Own (first : Own) f md c own,
    goes (acts name msg Own first enter leave f) md (calls c) own = walk (fun b => f b md) (filter (relevant enter leave) (steps c)) own.
  Proof.
    intros name msg Own first f md c own. set (C := acts name msg Own first enter leave f).
    transitivity (goes C md (filter (fun x => has_method (fst x)) (calls c)) own).
    { symmetry. apply goes_filter. intros m H. unfold C, acts. cbn [k_method]. unfold has_method in H. apply orb_false_iff in H. destruct H as (-> & ->). reflexivity. }
    rewrite filter_steps. assert (R : Forall (fun x => relevant enter leave x = true) (filter (relevant enter leave) (steps c))) by (apply Forall_forall; intros x I; now apply filter_In in I).
    revert own. induction R as [|[b x] l Hx R IH]; intro own; [reflexivity|]. cbn [map walk].
    transitivity (match k_method C md (fst (call_of (b, x))) with None => goes C md (map call_of l) own | Some g => match g x own with (xs, Ok own') => let (ys, o) := goes C md (map call_of l) own' in (xs ++ ys, o) | (xs, Err e) => (xs, Err e) end end); [reflexivity|].
    assert (E : k_method C md (fst (call_of (b, x))) = Some (f b md)).
    { unfold C, acts, call_of, relevant in *. cbn [k_method fst snd] in *. destruct b.
      - now rewrite is_visit_type, Hx.
      - now rewrite is_visit_leave, is_leave_type, Hx. }
    rewrite E. destruct (f b md x own) as [xs [own'|e]]; [|reflexivity]. now rewrite IH.
  Qed.
End Calls.

Lemma walk_filter : forall Own (f : bool -> cst -> Own -> list say * res Own) p l own, (forall b c s, In (b, c) l -> p (b, c) = false -> f b c s = ([], Ok s)) ->
  walk f (filter p l) own = walk f l own.
Proof.
  intros Own f p l. induction l as [|[b c] l IH]; intros own Q; [reflexivity|]. cbn [filter walk]. destruct (p (b, c)) eqn:E.
  - cbn [walk]. destruct (f b c own) as [xs [o|e]]; [|reflexivity]. rewrite IH by (intros; apply Q; [now right|assumption]). reflexivity.
  - rewrite (Q b c own (or_introl eq_refl) E), IH by (intros; apply Q; [now right|assumption]). now destruct (walk f l own).
Qed.

Lemma walk_app : forall Own (f : bool -> cst -> Own -> list say * res Own) l l' own,
  walk f (l ++ l') own = match walk f l own with (xs, Ok o) => let (ys, r) := walk f l' o in (xs ++ ys, r) | (xs, Err e) => (xs, Err e) end.
Proof.
  intros Own f l l'. induction l as [|[b c] l IH]; intro own; cbn [app walk]; [now destruct (walk f l' own)|].
  destruct (f b c own) as [xs [o|e]]; [|reflexivity]. rewrite IH. destruct (walk f l o) as [ys [r|e]]; [|reflexivity]. destruct (walk f l' r). now rewrite app_assoc.
Qed.

Lemma steps_enter : forall c, filter (fun x : bool * cst => fst x) (steps c) = map (pair true) (all_nodes c).
Proof.
  apply cst_ind2. intros i ty attrs IH.
  change (filter (fun x : bool * cst => fst x) (steps (Cst i ty attrs))) with
    ((true, Cst i ty attrs) :: filter (fun x : bool * cst => fst x) (flat_map (fun a : str * list cst => match a with (_, cs) => flat_map steps cs end) attrs ++ [(false, Cst i ty attrs)])).
  change (all_nodes (Cst i ty attrs)) with (Cst i ty attrs :: flat_map (fun a : str * list cst => match a with (_, cs) => flat_map all_nodes cs end) attrs). cbn [map]. f_equal.
  rewrite filter_app. cbn [filter fst]. rewrite app_nil_r. generalize (Cst i ty attrs). intros _. induction attrs as [|[n cs] attrs IHa]; [reflexivity|]. cbn [flat_map]. rewrite filter_app, map_app, IHa by (intros n' cs' I; apply (IH n' cs'); now right).
  f_equal. specialize (IH n cs (or_introl eq_refl)). clear IHa. induction cs as [|x cs IHc]; [reflexivity|]. cbn [flat_map]. rewrite filter_app, map_app, IHc by (intros c' I; apply IH; now right). now rewrite (IH x) by now left.
Qed.

Lemma steps_leave : forall c, filter (fun x : bool * cst => negb (fst x)) (steps c) = map (pair false) (ending c).
Proof.
  apply cst_ind2. intros i ty attrs IH.
  change (filter (fun x : bool * cst => negb (fst x)) (steps (Cst i ty attrs))) with
    (filter (fun x : bool * cst => negb (fst x)) (flat_map (fun a : str * list cst => match a with (_, cs) => flat_map steps cs end) attrs ++ [(false, Cst i ty attrs)])).
  change (ending (Cst i ty attrs)) with (flat_map (fun a : str * list cst => match a with (_, cs) => flat_map ending cs end) attrs ++ [Cst i ty attrs]).
  rewrite filter_app, map_app. cbn [filter fst negb map]. f_equal. generalize (Cst i ty attrs). intros _. induction attrs as [|[n cs] attrs IHa]; [reflexivity|]. cbn [flat_map]. rewrite filter_app, map_app, IHa by (intros n' cs' I; apply (IH n' cs'); now right).
  f_equal. specialize (IH n cs (or_introl eq_refl)). clear IHa. induction cs as [|x cs IHc]; [reflexivity|]. cbn [flat_map]. rewrite filter_app, map_app, IHc by (intros c' I; apply IH; now right). now rewrite (IH x) by now left.
Qed.

Lemma steps_nodes : forall c b x, In (b, x) (steps c) -> In x (all_nodes c).
Proof.
  apply (cst_ind2 (fun c => forall b x, In (b, x) (steps c) -> In x (all_nodes c))). intros i ty attrs IH b x I.
  change (In (b, x) ((true, Cst i ty attrs) :: (flat_map (fun a : str * list cst => match a with (_, cs) => flat_map steps cs end) attrs ++ [(false, Cst i ty attrs)]))) in I.
  change (all_nodes (Cst i ty attrs)) with (Cst i ty attrs :: flat_map (fun a : str * list cst => match a with (_, cs) => flat_map all_nodes cs end) attrs).
  destruct I as [I|I]; [injection I as _ <-; now left|]. apply in_app_iff in I. destruct I as [I|[I|[]]]; [|injection I as _ <-; now left].
  right. apply in_flat_map in I. destruct I as ([n cs] & Ia & I). apply in_flat_map in I. destruct I as (c & Ic & I). apply in_flat_map. exists (n, cs). split; auto. apply in_flat_map. exists c. split; eauto.
Qed.

Lemma ending_nodes : forall c x, In x (ending c) -> In x (all_nodes c).
Proof.
  intros c x I. apply (steps_nodes c false). assert (J : In (false, x) (map (pair false) (ending c))) by now apply in_map. rewrite <- steps_leave in J. now apply filter_In in J.
Qed.
