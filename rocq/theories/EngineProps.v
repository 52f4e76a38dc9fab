(** * C25-C28: running rules and applying fixes *)
From Coq Require Import String List NArith ZArith Bool Arith Lia Permutation.
From Verif Require Import Base Suppress Cst EngineSpec EditFacts Engine.
Import ListNotations.

(** ** C25: violations *)

Fixpoint yields (evs : list event) : list viol :=
  match evs with
  | [] => []
  | Yield v :: evs' => v :: yields evs'
  | Hook _ :: evs' => yields evs'
  end.

(** What is delivered for a violation that was reported: itself, with the diff of its fix. *)
Definition delivered (udiff : str -> str -> str) (md : module) (v v' : viol) : Prop :=
  if autofixable v then
    exists md', apply_replacements md [v] = Ok (Some md') /\ v' = with_diff v (udiff (code md) (code md'))
  else v' = v.

Definition reported (rules : list rule) : list viol := flat_map (@r_violations N repl) rules.

Lemma replacements_one : forall (v : viol) r, v_replacement v = Some r -> truthy_repl (Some r) = true ->
  replacements [v] = fun n => if N.eqb n (v_node v) then Some r else None.
Proof.
  intros v r H T. unfold replacements. cbn [fold_left]. unfold set_repl, autofixable. rewrite H, T. reflexivity.
Qed.

Lemma diff_delivered : forall udiff md (v : viol) r d, v_replacement v = Some r -> truthy_repl (Some r) = true ->
  diff_violation udiff md (v_node v) r = Ok d -> delivered udiff md v (with_diff v d).
Proof.
  intros udiff md v r d H T D. unfold delivered, autofixable. rewrite H, T. unfold diff_violation, deep_replace in D.
  apply bind_ok in D. destruct D as ([md'|] & D1 & D2); [|discriminate]. injection D2 as <-.
  exists md'. split; auto. unfold apply_replacements. rewrite (replacements_one v r H T). exact D1.
Qed.

Definition fixes (vs : list viol) : nat := List.length (filter autofixable vs).

Lemma bump_get : forall k k' m, dget k (bump k' m) =
  if str_eqb k k' then Some (S (match dget k m with Some n => n | None => 0 end)) else dget k m.
Proof.
  intros k k' m. unfold bump. destruct (str_eqb k k') eqn:E.
  - apply str_eqb_eq in E. subst. apply dget_dset_eq.
  - apply str_eqb_neq in E. now apply dget_dset_neq.
Qed.

Lemma keys_differ : forall a b, count_key a <> fix_key b.
Proof. intros a b H. vm_compute in H. discriminate. Qed.

Lemma yield_all_spec : forall udiff md name vs m c evs r,
  yield_all udiff md name vs m c = (evs, r) ->
  (forall x, In x evs -> exists v, x = Yield v) /\
  match r with
  | Ok (m', c') => Forall2 (delivered udiff md) vs (yields evs) /\ c' = c + List.length vs /\
      (forall k, dget k m' = if str_eqb k (fix_key name)
                             then match fixes vs with 0 => dget k m | n => Some (n + match dget k m with Some x => x | None => 0 end) end
                             else dget k m)
  | Err _ => exists vs1 vs2, vs = vs1 ++ vs2 /\ vs2 <> [] /\ Forall2 (delivered udiff md) vs1 (yields evs)
  end.
Proof.
  intros udiff md name. induction vs as [|v vs IH]; intros m c evs r H; cbn [yield_all] in H.
  - injection H as <- <-. split; [intros x []|]. split; [constructor|]. split; [simpl; lia|].
    intro k. unfold fixes. simpl. destruct (str_eqb k (fix_key name)); auto.
  - assert (G : forall v' m1, delivered udiff md v v' ->
       (let (e, r0) := yield_all udiff md name vs m1 (S c) in (Yield v' :: e, r0)) = (evs, r) ->
       (forall k, dget k m1 = if str_eqb k (fix_key name) && autofixable v
                              then Some (S (match dget k m with Some n => n | None => 0 end)) else dget k m) ->
       (forall x, In x evs -> exists v, x = Yield v) /\
       match r with
       | Ok (m', c') => Forall2 (delivered udiff md) (v :: vs) (yields evs) /\ c' = c + List.length (v :: vs) /\
          (forall k, dget k m' = if str_eqb k (fix_key name)
                             then match fixes (v :: vs) with 0 => dget k m | n => Some (n + match dget k m with Some x => x | None => 0 end) end
                             else dget k m)
       | Err _ => exists vs1 vs2, v :: vs = vs1 ++ vs2 /\ vs2 <> [] /\ Forall2 (delivered udiff md) vs1 (yields evs)
       end).
    { intros v' m1 D E M. destruct (yield_all udiff md name vs m1 (S c)) as [e r0] eqn:Y. injection E as <- <-.
      destruct (IH m1 (S c) e r0 Y) as [A B]. split.
      { intros x [<-|Hx]; eauto. }
      destruct r0 as [[m' c']|er].
      - destruct B as (B1 & B2 & B3). split; [constructor; auto|]. split; [simpl; lia|].
        intro k. rewrite B3, M. unfold fixes. cbn [filter]. destruct (str_eqb k (fix_key name)); cbn [andb]; auto.
        destruct (autofixable v); cbn [List.length]; auto.
        destruct (List.length (filter autofixable vs)); f_equal; lia.
      - destruct B as (vs1 & vs2 & B1 & B2 & B3). exists (v :: vs1), vs2. split; [simpl; congruence|]. split; auto. constructor; auto. }
    destruct (v_replacement v) as [rp|] eqn:R.
    + destruct (truthy_repl (Some rp)) eqn:T.
      * destruct (diff_violation udiff md (v_node v) rp) as [d|er] eqn:D.
        -- apply (G (with_diff v d) (bump (fix_key name) m)); auto.
           ++ now apply diff_delivered with rp.
           ++ intro k. rewrite bump_get. unfold autofixable. rewrite R, T, andb_true_r. reflexivity.
        -- injection H as <- <-. split; [intros x []|]. exists [], (v :: vs). split; [reflexivity|]. split; [discriminate|constructor].
      * apply (G v m); auto.
        -- unfold delivered, autofixable. rewrite R, T. reflexivity.
        -- intro k. unfold autofixable. rewrite R, T, andb_false_r. reflexivity.
    + apply (G v m); auto.
      * unfold delivered, autofixable. rewrite R. reflexivity.
      * intro k. unfold autofixable. rewrite R. cbn [truthy_repl]. rewrite andb_false_r. reflexivity.
Qed.

Lemma yields_app : forall a b, yields (a ++ b) = yields a ++ yields b.
Proof. induction a as [|[v|m] a IH]; intro b; cbn [app yields]; rewrite ?IH; auto. Qed.

(** The metrics after the rules: for each rule the last one of that name counts. *)
Fixpoint last_of (name : str) (rules : list rule) : option rule :=
  match rules with
  | [] => None
  | r :: rules' => match last_of name rules' with
                   | Some x => Some x
                   | None => if str_eqb name (r_name r) then Some r else None
                   end
  end.

Lemma key_eq : forall a b, str_eqb (count_key a) (count_key b) = str_eqb a b.
Proof. intros. reflexivity. Qed.
Lemma fix_key_eq : forall a b, str_eqb (fix_key a) (fix_key b) = str_eqb a b.
Proof. intros. reflexivity. Qed.

Lemma yield_rules_spec : forall udiff md rules m c evs r,
  yield_rules udiff md rules m c = (evs, r) ->
  (forall x, In x evs -> exists v, x = Yield v) /\
  match r with
  | Ok (m', c') => Forall2 (delivered udiff md) (reported rules) (yields evs) /\ c' = c + List.length (reported rules) /\
      (forall name, dget (count_key name) m' = match last_of name rules with
                       | Some x => Some (List.length (r_violations x)) | None => dget (count_key name) m end) /\
      (forall name, dget (fix_key name) m' = match last_of name rules with
                       | Some x => Some (fixes (r_violations x)) | None => dget (fix_key name) m end)
  | Err _ => exists vs1 vs2, reported rules = vs1 ++ vs2 /\ vs2 <> [] /\ Forall2 (delivered udiff md) vs1 (yields evs)
  end.
Proof.
  intros udiff md. induction rules as [|r rules IH]; intros m c evs res H; cbn [yield_rules] in H.
  - injection H as <- <-. split; [intros x []|]. repeat split; auto. constructor.
  - match type of H with (match yield_all _ _ _ _ ?m0 _ with _ => _ end = _) => set (m1 := m0) in H end.
    destruct (yield_all udiff md (r_name r) (r_violations r) m1 c) as [e1 r1] eqn:Y.
    destruct (yield_all_spec _ _ _ _ _ _ _ _ Y) as [A B].
    assert (M1c : forall name, dget (count_key name) m1 = if str_eqb name (r_name r) then Some (List.length (r_violations r)) else dget (count_key name) m).
    { intro name. unfold m1. rewrite dget_dset_neq by apply keys_differ. destruct (str_eqb name (r_name r)) eqn:E.
      - apply str_eqb_eq in E. subst. apply dget_dset_eq.
      - apply dget_dset_neq. intro X. apply str_eqb_neq in E. apply E. unfold count_key in X. now apply app_inv_head in X. }
    assert (M1f : forall name, dget (fix_key name) m1 = if str_eqb name (r_name r) then Some 0 else dget (fix_key name) m).
    { intro name. unfold m1. destruct (str_eqb name (r_name r)) eqn:E.
      - apply str_eqb_eq in E. subst. apply dget_dset_eq.
      - rewrite dget_dset_neq.
        + apply dget_dset_neq. intro X. symmetry in X. now apply keys_differ in X.
        + intro X. apply str_eqb_neq in E. apply E. unfold fix_key in X. now apply app_inv_head in X. }
    destruct r1 as [[m2 c2]|er].
    + destruct (yield_rules udiff md rules m2 c2) as [e2 r2] eqn:Y2. injection H as <- <-.
      destruct (IH _ _ _ _ Y2) as [A2 B2]. destruct B as (B1 & B3 & B4).
      split; [intros x Hx; apply in_app_iff in Hx; destruct Hx; auto|].
      destruct r2 as [[m' c']|er].
      * destruct B2 as (D1 & D2 & D3 & D4). unfold reported in *. cbn [flat_map]. rewrite yields_app, app_length.
        split; [apply Forall2_app; auto|]. split; [lia|]. split.
        -- intro name. rewrite D3. cbn [last_of]. destruct (last_of name rules); auto.
           rewrite B4. assert (E : str_eqb (count_key name) (fix_key (r_name r)) = false) by (apply str_eqb_neq, keys_differ).
           rewrite E, M1c. destruct (str_eqb name (r_name r)); reflexivity.
        -- intro name. rewrite D4. cbn [last_of]. destruct (last_of name rules); auto.
           rewrite B4, fix_key_eq, M1f. destruct (str_eqb name (r_name r)); auto.
           destruct (fixes (r_violations r)); f_equal; lia.
      * destruct B2 as (vs1 & vs2 & D1 & D2 & D3). unfold reported in *. cbn [flat_map]. rewrite yields_app.
        exists (r_violations r ++ vs1), vs2. split; [rewrite D1, app_assoc; reflexivity|]. split; auto. apply Forall2_app; auto.
    + injection H as <- <-. split; auto. destruct B as (vs1 & vs2 & D1 & D2 & D3). unfold reported. cbn [flat_map].
      exists vs1, (vs2 ++ flat_map (@r_violations N repl) rules). split; [rewrite D1, app_assoc; reflexivity|].
      split; auto. destruct vs2; [congruence|discriminate].
Qed.

Lemma Forall2_length : forall (A B : Type) (R : A -> B -> Prop) l l', Forall2 R l l' -> List.length l = List.length l'.
Proof. induction 1; simpl; congruence. Qed.

(** All violations, in order, with the diff of their own fix, then the hook, once. *)
Theorem C25_complete : forall udiff md rules m0 hook evs n,
  collect_violations udiff md (Ok (rules, m0)) hook = (evs, Ok n) ->
  Forall2 (delivered udiff md) (reported rules) (yields evs) /\
  n = List.length (yields evs) /\
  exists m, evs = map Yield (yields evs) ++ (if hook then [Hook m] else []) /\
    (NoDup (map (@r_name N repl) rules) -> ~ In (u "Total") (map (@r_name N repl) rules) ->
     forall r, In r rules ->
       dget (u "Count." ++ r_name r) m = Some (List.length (r_violations r)) /\
       dget (u "FixCount." ++ r_name r) m = Some (fixes (r_violations r))) /\
    dget (u "Count.Total") m = Some n.
Proof.
  intros udiff md rules m0 hook evs n H. unfold collect_violations in H.
  destruct (yield_rules udiff md rules m0 0) as [e r] eqn:Y. destruct (yield_rules_spec _ _ _ _ _ _ _ Y) as [A B].
  destruct r as [[m c]|er]; [|discriminate]. injection H as <- <-. destruct B as (B1 & B2 & B3 & B4).
  assert (Ye : yields (e ++ (if hook then [Hook (dset (count_key (u "Total")) c m)] else [])) = yields e).
  { rewrite yields_app. destruct hook; cbn [yields]; apply app_nil_r. }
  rewrite Ye. split; auto. split.
  { rewrite B2. simpl. now apply Forall2_length in B1. }
  exists (dset (count_key (u "Total")) c m). split; [|split].
  - f_equal. clear -A. induction e as [|x e IH]; [reflexivity|]. destruct (A x (or_introl eq_refl)) as (v & ->).
    cbn [yields map]. f_equal. apply IH. intros y Hy. apply A. simpl. auto.
  - intros N T r Hr. change (u "Count." ++ r_name r) with (count_key (r_name r)).
    change (u "FixCount." ++ r_name r) with (fix_key (r_name r)).
    assert (Hl : last_of (r_name r) rules = Some r).
    { clear -N Hr. induction rules as [|x l IH]; [contradiction|]. cbn [map] in N. inversion N as [|y l' N1 N2]; subst.
      cbn [last_of]. destruct Hr as [->|Hr].
      - assert (E : last_of (r_name r) l = None).
        { clear -N1. induction l as [|y l IH]; [reflexivity|]. cbn [last_of map In] in *. rewrite IH by tauto.
          destruct (str_eqb (r_name r) (r_name y)) eqn:E; auto. apply str_eqb_eq in E. exfalso. apply N1. auto. }
        rewrite E, str_eqb_refl. reflexivity.
      - rewrite IH by auto. reflexivity. }
    split.
    + rewrite dget_dset_neq.
      * rewrite B3, Hl. reflexivity.
      * intro X. unfold count_key in X. apply app_inv_head in X. apply T. rewrite <- X. apply in_map. exact Hr.
    + rewrite dget_dset_neq; [rewrite B4, Hl; reflexivity|]. intro X. symmetry in X. now apply keys_differ in X.
  - apply dget_dset_eq.
Qed.

(** When the engine raises, what was delivered until then is a proper prefix and the hook is not
    called; when a rule's visitor raises, nothing is delivered at all. *)
Theorem C25_raises : forall udiff md visited hook evs e,
  collect_violations udiff md visited hook = (evs, Err e) ->
  evs = map Yield (yields evs) /\
  match visited with
  | Err _ => evs = []
  | Ok (rules, _) => exists vs1 vs2, reported rules = vs1 ++ vs2 /\ vs2 <> [] /\
                                     Forall2 (delivered udiff md) vs1 (yields evs)
  end.
Proof.
  intros udiff md [[rules m0]|e0] hook evs e H; unfold collect_violations in H.
  - destruct (yield_rules udiff md rules m0 0) as [ev r] eqn:Y. destruct (yield_rules_spec _ _ _ _ _ _ _ Y) as [A B].
    destruct r as [[m c]|er]; [discriminate|]. injection H as <- <-. split; auto.
    clear -A. induction ev as [|x e IH]; [reflexivity|]. destruct (A x (or_introl eq_refl)) as (v & ->).
    cbn [yields map]. f_equal. apply IH. intros y Hy. apply A. simpl. auto.
  - injection H as <- <-. auto.
Qed.

(** ** C26: fixes change nothing but the accepted nodes *)

(** If nothing is accepted (or nothing accepted has a fix), the module is unchanged. *)
Lemma visit_nothing :
  (forall t, visit (fun _ => None) t = Ok (RNode t)) /\ (forall p, visit_part (fun _ => None) p = Ok p).
Proof.
  set (a := fun _ : N => @None repl).
  apply trees_ind.
  - intros id line ps H. rewrite visit_eq. unfold a at 1.
    assert (K : visit_parts a ps = Ok ps).
    { induction H as [|p ps Hp Hr IH]; [reflexivity|]. cbn [visit_parts]. rewrite Hp, IH. reflexivity. }
    rewrite K. reflexivity.
  - reflexivity.
  - reflexivity.
  - intros t H. cbn [visit_part]. rewrite H. reflexivity.
  - reflexivity.
  - intros t H. cbn [visit_part]. rewrite H. reflexivity.
  - reflexivity.
  - intros t d H. cbn [visit_part]. rewrite H. reflexivity.
  - intros pass l H. rewrite visit_seq_eq.
    assert (K : visit_seq a l = Ok l).
    { induction H as [|x l Hx Hr IH]; [reflexivity|]. cbn [visit_seq]. rewrite Hx, IH. reflexivity. }
    rewrite K. reflexivity.
  - intros blk l H. rewrite visit_body_eq.
    assert (K : visit_body a l = Ok l).
    { induction H as [|x l Hx Hr IH]; [reflexivity|]. cbn [visit_body]. rewrite Hx, IH. cbn [bind].
      unfold kept. cbn [nodes filter]. rewrite orb_negb_r. reflexivity. }
    rewrite K. reflexivity.
Qed.

Theorem C26_nothing_accepted : forall m vs, (forall v, In v vs -> autofixable v = false) ->
  apply_replacements m vs = Ok (Some m).
Proof.
  intros m vs H. unfold apply_replacements, visit_module.
  assert (K : replacements vs = fun _ => None).
  { unfold replacements. generalize (fun _ : N => @None repl). induction vs as [|v vs IH]; intro d; [reflexivity|].
    cbn [fold_left]. rewrite IH by (intros; apply H; simpl; auto). unfold set_repl. rewrite (H v); simpl; auto. }
  rewrite K, (proj1 visit_nothing). cbn [bind]. now destruct m.
Qed.

(** The new text is the old one with the edits of the specification carried out: one for each
    outermost accepted node (or for the sequence, line or block that this empties), and no other.
    [finish] is what LibCST does with the last newline. *)
Theorem C26_edits : forall m vs m',
  parsed (m_tree m) -> replacements vs (node_id (m_tree m)) = None ->
  apply_replacements m vs = Ok (Some m') ->
  exists es,
    (forall e, In e es <-> edit_in (replacements vs) [] false false 0 (m_tree m) e) /\
    in_order 0 es (List.length (render [] false (m_tree m))) /\
    code m' = finish (m_newline m) (m_default_newline m) (apply_edits 0 es (render [] false (m_tree m))) /\
    code m = finish (m_newline m) (m_default_newline m) (render [] false (m_tree m)).
Proof.
  intros m vs m' P R H. exists (ed (replacements vs) [] false false 0 (m_tree m)).
  split; [intro e; apply (proj1 (ed_spec (replacements vs)))|].
  split; [apply (proj1 (ed_order (replacements vs)))|].
  split; [|reflexivity].
  unfold apply_replacements, visit_module in H. apply bind_ok in H. destruct H as (r & V & H).
  destruct (visit_none (replacements vs) (m_tree m) R V) as (id & line & ps & ps' & E & _ & ->).
  injection H as <-. unfold code. cbn [m_newline m_default_newline m_tree]. f_equal. symmetry.
  apply (proj1 (ed_text (replacements vs))); auto.
Qed.

(** Accepting a fix for the module itself replaces everything. *)
Theorem C26_whole_module : forall m vs r,
  replacements vs (node_id (m_tree m)) = Some r ->
  apply_replacements m vs =
  Ok (match r with
      | RNode t => Some (Mod t (m_newline m) (m_default_newline m))
      | RRemove => Some (Mod (emptied_module (m_tree m)) (m_newline m) (m_default_newline m))
      | RFlat _ => None
      end).
Proof.
  intros m vs r H. unfold apply_replacements, visit_module. rewrite (visit_acc _ _ H). destruct r; reflexivity.
Qed.

(** Of a module that a fix removes nothing is left but the newline of a file that ended with one. *)
Theorem C26_module_removed : forall m vs, replacements vs (node_id (m_tree m)) = Some RRemove ->
  exists m', apply_replacements m vs = Ok (Some m') /\ code m' = if m_newline m then m_default_newline m else [].
Proof.
  intros m vs H. rewrite (C26_whole_module _ _ _ H). eexists. split; [reflexivity|]. destruct m as [[id line ps] [|] d]; reflexivity.
Qed.

(** ** C27: the diff shows the fix *)

Theorem C27_diff : forall udiff md (v : viol) r d,
  v_replacement v = Some r -> truthy_repl (Some r) = true ->
  diff_violation udiff md (v_node v) r = Ok d <->
  exists md', apply_replacements md [v] = Ok (Some md') /\ d = udiff (code md) (code md').
Proof.
  intros udiff md v r d H T. unfold diff_violation, deep_replace, apply_replacements.
  rewrite (replacements_one v r H T). split.
  - intro D. apply bind_ok in D. destruct D as ([md'|] & D1 & D2); [|discriminate]. injection D2 as <-. eauto.
  - intros (md' & -> & ->). reflexivity.
Qed.

(** No diff, no delivery: the error of applying the fix alone, or an AssertionError when the result is not a module. *)
Theorem C27_no_diff : forall udiff md (v : viol) r e,
  v_replacement v = Some r -> truthy_repl (Some r) = true ->
  diff_violation udiff md (v_node v) r = Err e <->
  apply_replacements md [v] = Err e \/ (apply_replacements md [v] = Ok None /\ e = AssertionError).
Proof.
  intros udiff md v r e H T. unfold diff_violation, deep_replace, apply_replacements.
  rewrite (replacements_one v r H T). destruct (visit_module _ md) as [[md'|]|e']; cbn [bind]; split; intro X.
  - discriminate.
  - destruct X as [X|[X _]]; discriminate.
  - injection X as <-. auto.
  - destruct X as [X|[_ ->]]; [discriminate|reflexivity].
  - injection X as <-. auto.
  - destruct X as [X|[X _]]; [injection X as <-; reflexivity|discriminate].
Qed.

(** ** C28: the order of fixes *)

Lemma replacements_snoc : forall vs (v : viol) n, replacements (vs ++ [v]) n =
  if autofixable v && N.eqb n (v_node v) then v_replacement v else replacements vs n.
Proof.
  intros vs v n. unfold replacements. rewrite fold_left_app. cbn [fold_left]. unfold set_repl at 1.
  destruct (autofixable v); cbn [andb]; auto.
Qed.

Lemma replacements_spec : forall vs n,
  match replacements vs n with
  | Some r => exists vs1 v vs2, vs = vs1 ++ v :: vs2 /\ v_node v = n /\ v_replacement v = Some r /\ autofixable v = true /\
                (forall w, In w vs2 -> autofixable w = true -> v_node w <> n)
  | None => forall v, In v vs -> v_node v = n -> autofixable v = false
  end.
Proof.
  intros vs n. induction vs as [|v vs IH] using rev_ind.
  - cbn. intros v [].
  - rewrite replacements_snoc. destruct (autofixable v && N.eqb n (v_node v)) eqn:E.
    + apply andb_true_iff in E. destruct E as [E1 E2]. apply N.eqb_eq in E2. subst n.
      destruct (v_replacement v) as [r|] eqn:R; [|unfold autofixable in E1; rewrite R in E1; discriminate].
      exists vs, v, []. repeat split; auto.
    + destruct (replacements vs n) as [r|].
      * destruct IH as (vs1 & w & vs2 & A & B & C & D & F). exists vs1, w, (vs2 ++ [v]).
        split; [rewrite A, <- app_assoc; reflexivity|]. repeat split; auto.
        intros x Hx Ha. apply in_app_iff in Hx. destruct Hx as [Hx|[<-|[]]]; auto.
        intro Hn. rewrite Ha, Hn, N.eqb_refl in E. discriminate.
      * intros w Hw Hn. apply in_app_iff in Hw. destruct Hw as [Hw|[<-|[]]]; auto.
        rewrite Hn, N.eqb_refl, andb_true_r in E. exact E.
Qed.

(** Visiting depends on the values of the map only. *)
Lemma visit_ext : forall a b, (forall n, a n = b n) ->
  (forall t, visit a t = visit b t) /\ (forall p, visit_part a p = visit_part b p).
Proof.
  intros a b H. apply trees_ind.
  - intros id line ps Hp. rewrite !visit_eq, H. destruct (b id); auto.
    assert (K : visit_parts a ps = visit_parts b ps).
    { induction Hp as [|p ps Hx Hr IH]; [reflexivity|]. cbn [visit_parts]. rewrite Hx, IH. reflexivity. }
    rewrite K. reflexivity.
  - reflexivity.
  - reflexivity.
  - intros t Ht. cbn [visit_part]. rewrite Ht. reflexivity.
  - reflexivity.
  - intros t Ht. cbn [visit_part]. rewrite Ht. reflexivity.
  - reflexivity.
  - intros t d Ht. cbn [visit_part]. rewrite Ht. reflexivity.
  - intros pass l Hl. rewrite !visit_seq_eq.
    assert (K : visit_seq a l = visit_seq b l).
    { induction Hl as [|x l Hx Hr IH]; [reflexivity|]. cbn [visit_seq]. rewrite Hx, IH. reflexivity. }
    rewrite K. reflexivity.
  - intros blk l Hl. rewrite !visit_body_eq.
    assert (K : visit_body a l = visit_body b l).
    { induction Hl as [|x l Hx Hr IH]; [reflexivity|]. cbn [visit_body]. rewrite Hx, IH. reflexivity. }
    rewrite K. reflexivity.
Qed.

Lemma apply_ext : forall m a b, (forall n, replacements a n = replacements b n) ->
  apply_replacements m a = apply_replacements m b.
Proof.
  intros m a b H. unfold apply_replacements, visit_module. now rewrite (proj1 (visit_ext _ _ H)).
Qed.

Theorem C28_order_irrelevant : forall m vs vs',
  Permutation vs vs' -> NoDup (map (@v_node N repl) (filter autofixable vs)) ->
  apply_replacements m vs = apply_replacements m vs'.
Proof.
  intros m vs vs' P N. apply apply_ext. intro n.
  assert (K : forall (a b : list viol), Permutation a b -> NoDup (map (@v_node _ _) (filter autofixable b)) ->
            forall r, replacements a n = Some r -> replacements b n = Some r).
  { intros a b Q Nb r H. pose proof (replacements_spec a n) as A. rewrite H in A.
    destruct A as (vs1 & v & vs2 & A1 & A2 & A3 & A4 & _).
    assert (Hv : In v b). { eapply Permutation_in; [exact Q|]. subst a. apply in_app_iff. simpl. auto. }
    pose proof (replacements_spec b n) as B. destruct (replacements b n) as [r'|].
    - destruct B as (ws1 & w & ws2 & B1 & B2 & B3 & B4 & _).
      assert (Hw : In w b) by (subst b; apply in_app_iff; simpl; auto).
      assert (E : v = w).
      { clear -Hv Hw Nb A2 A4 B2 B4. assert (Fv : In v (filter autofixable b)) by (apply filter_In; auto).
        assert (Fw : In w (filter autofixable b)) by (apply filter_In; auto).
        revert Nb Fv Fw. generalize (filter autofixable b). induction l as [|x l IH]; intros Nb Fv Fw; [contradiction|].
        cbn [map] in Nb. inversion Nb as [|y l' N1 N2]; subst. destruct Fv as [->|Fv], Fw as [->|Fw]; auto.
        - exfalso. apply N1. rewrite <- B2. now apply in_map.
        - exfalso. apply N1. rewrite B2. now apply in_map. }
      subst w. congruence.
    - rewrite (B v Hv A2) in A4. discriminate. }
  assert (N' : NoDup (map (@v_node _ _) (filter autofixable vs'))).
  { eapply Permutation_NoDup; [|exact N]. apply Permutation_map.
    clear -P. induction P; cbn [filter]; auto.
    - destruct (autofixable x); auto.
    - destruct (autofixable x), (autofixable y); auto. constructor.
    - eapply perm_trans; eauto. }
  destruct (replacements vs n) as [r|] eqn:E.
  - symmetry. now apply (K vs vs').
  - destruct (replacements vs' n) as [r|] eqn:E'; auto. apply (K vs' vs) in E'; auto; [congruence|]. now apply Permutation_sym.
Qed.

(** For one node, the last accepted fix wins. *)
Theorem C28_last_wins : forall m vs1 v vs2,
  (forall w, In w vs1 -> v_node w = v_node v) -> autofixable v = true ->
  apply_replacements m (vs1 ++ v :: vs2) = apply_replacements m (v :: vs2).
Proof.
  intros m vs1 v vs2 H Hv. apply apply_ext. intro n. induction vs2 as [|w vs2 IH] using rev_ind.
  - rewrite replacements_snoc. change [v] with ([] ++ [v]). rewrite replacements_snoc.
    rewrite Hv. cbn [andb]. destruct (N.eqb n (v_node v)) eqn:E; auto. cbn.
    pose proof (replacements_spec vs1 n) as A. destruct (replacements vs1 n) as [r|]; auto.
    destruct A as (a & x & b & A1 & A2 & _). exfalso. apply N.eqb_neq in E. apply E. rewrite <- A2. apply H. subst vs1.
    apply in_app_iff. simpl. auto.
  - rewrite app_comm_cons, app_assoc, replacements_snoc.
    change (v :: vs2 ++ [w]) with ((v :: vs2) ++ [w]). rewrite replacements_snoc, IH. reflexivity.
Qed.

(** ** C26 continued: fixes of nodes inside a node that is replaced are ignored *)

Inductive child : part -> tree -> Prop :=
| ch_req : forall t, child (Req t) t
| ch_opt : forall t, child (Opt (Some t)) t
| ch_sep : forall t d, child (Sep (Some t) d) t
| ch_seq : forall pass l t, In t l -> child (Seq pass l) t
| ch_body : forall blk l t, In t l -> child (Body blk l) t.

(** [x] is in the tree and not inside an accepted node (it may be accepted itself). *)
Inductive exposed (acc : N -> option repl) (x : tree) : tree -> Prop :=
| ex_here : exposed acc x x
| ex_below : forall i line ps p c, acc i = None -> In p ps -> child p c -> exposed acc x c ->
    exposed acc x (Node i line ps).

Lemma visit_exposed : forall a b,
  (forall t, (forall x, exposed a x t -> a (node_id x) = b (node_id x)) -> visit a t = visit b t) /\
  (forall p, (forall c x, child p c -> exposed a x c -> a (node_id x) = b (node_id x)) -> visit_part a p = visit_part b p).
Proof.
  intros a b. apply trees_ind.
  - intros id line ps Hp H. rewrite !visit_eq. pose proof (H _ (ex_here _ _)) as H0. cbn [node_id] in H0. rewrite <- H0.
    destruct (a id) eqn:E; auto.
    assert (K : visit_parts a ps = visit_parts b ps).
    { assert (H' : forall p c x, In p ps -> child p c -> exposed a x c -> a (node_id x) = b (node_id x))
        by (intros; apply H; econstructor; eauto).
      clear H H0 E. induction Hp as [|p ps Hx Hr IH]; [reflexivity|]. cbn [visit_parts].
      rewrite Hx by (intros; eapply (H' p); eauto; left; auto).
      rewrite IH by (intros p0 c x I; intros; eapply (H' p0); eauto; right; auto). reflexivity. }
    rewrite K. reflexivity.
  - reflexivity.
  - reflexivity.
  - intros t Ht H. cbn [visit_part]. rewrite Ht; [reflexivity|]. intros x Hx. eapply H; [constructor|exact Hx].
  - reflexivity.
  - intros t Ht H. cbn [visit_part]. rewrite Ht; [reflexivity|]. intros x Hx. eapply H; [constructor|exact Hx].
  - reflexivity.
  - intros t d Ht H. cbn [visit_part]. rewrite Ht; [reflexivity|]. intros x Hx. eapply H; [constructor|exact Hx].
  - intros pass l Hl H. rewrite !visit_seq_eq.
    assert (K : visit_seq a l = visit_seq b l).
    { assert (H' : forall c x, In c l -> exposed a x c -> a (node_id x) = b (node_id x))
        by (intros; eapply H; eauto; now constructor).
      clear H. induction Hl as [|y l Hx Hr IH]; [reflexivity|]. cbn [visit_seq].
      rewrite Hx by (intros; eapply (H' y); eauto; left; auto).
      rewrite IH by (intros c x I; intros; eapply (H' c); eauto; right; auto). reflexivity. }
    rewrite K. reflexivity.
  - intros blk l Hl H. rewrite !visit_body_eq.
    assert (K : visit_body a l = visit_body b l).
    { assert (H' : forall c x, In c l -> exposed a x c -> a (node_id x) = b (node_id x))
        by (intros; eapply H; eauto; now constructor).
      clear H. induction Hl as [|y l Hx Hr IH]; [reflexivity|]. cbn [visit_body].
      rewrite Hx by (intros; eapply (H' y); eauto; left; auto).
      rewrite IH by (intros c x I; intros; eapply (H' c); eauto; right; auto). reflexivity. }
    rewrite K. reflexivity.
Qed.

Theorem C26_inner_ignored : forall m vs1 v vs2,
  (forall x, exposed (replacements (vs1 ++ vs2)) x (m_tree m) -> node_id x <> v_node v) ->
  apply_replacements m (vs1 ++ v :: vs2) = apply_replacements m (vs1 ++ vs2).
Proof.
  intros m vs1 v vs2 H. unfold apply_replacements, visit_module.
  rewrite (proj1 (visit_exposed (replacements (vs1 ++ vs2)) (replacements (vs1 ++ v :: vs2)))); [reflexivity|].
  intros x Hx. apply H in Hx. symmetry. clear H. induction vs2 as [|w vs2 IH] using rev_ind.
  - rewrite replacements_snoc, app_nil_r. apply N.eqb_neq in Hx. rewrite Hx, andb_false_r. reflexivity.
  - rewrite app_comm_cons, !app_assoc, !replacements_snoc, IH. reflexivity.
Qed.

(** ** Concrete cases *)

Definition nl : str := [10%N].
Definition ex_range : range := Range (Pos 1 0) (Pos 1 1).
Definition arg1 : tree := Node 5 false [Txt (u "1"); Sep (Some (Node 6 false [Txt (u ", ")])) (u ", ")].
(** [import a] and [x = f(1, 2)] *)
Definition ex_module : module :=
  Mod (Node 0 false [Body None [
    Node 1 true [Ind; Seq true [Node 2 false [Txt (u "import a"); Sep None (u "; ")]]; Txt nl];
    Node 3 true [Ind; Seq true [Node 4 false [Txt (u "x = f("); Seq false [arg1; Node 7 false [Txt (u "2"); Sep None (u ", ")]];
                                              Txt (u ")"); Sep None (u "; ")]]; Txt nl]]]) true nl.
Definition mkv (rule : string) (n : N) (r : option repl) : viol := Violation (u rule) ex_range (u "m") n r [].
Definition v_gone : viol := mkv "A" 2 (Some RRemove).
Definition v_arg : viol := mkv "A" 5 (Some (RNode (Node 50 false [Txt (u "99"); Sep None (u ", ")]))).
Definition v_none : viol := mkv "B" 7 None.
Definition v_call : viol := mkv "B" 4 (Some (RNode (Node 51 false [Txt (u "g()"); Sep None (u "; ")]))).
Definition ex_rules : list rule := [RuleInst (u "A") None [v_gone; v_arg]; RuleInst (u "B") None [v_none]].

Example C26_example_code : code ex_module = u "import a" ++ nl ++ u "x = f(1, 2)" ++ nl /\ parsed (m_tree ex_module).
Proof.
  split; [vm_compute; reflexivity|]. cbn [m_tree ex_module].
  repeat match goal with
    | |- parsed _ => constructor; intros ? K; cbn [In] in K;
                     repeat (destruct K as [<-|K]; [|]); try contradiction
    | |- parsed_part (Txt _) => constructor
    | |- parsed_part Ind => constructor
    | |- parsed_part (Sep _ _) => constructor; intros ? K; try discriminate; injection K as <-
    end.
  constructor. intros t [<-|[<-|[]]].
  - constructor. intros p [<-|[<-|[<-|[]]]]; try constructor.
    + intros t [<-|[]]. constructor. intros p [<-|[<-|[]]]; constructor. discriminate.
    + intros [|b [|c bs]] x [|a as_] E N; try congruence; discriminate.
  - constructor. intros p [<-|[<-|[<-|[]]]]; try constructor.
    + intros t [<-|[]]. constructor. intros p [<-|[<-|[<-|[<-|[]]]]]; constructor; try discriminate.
      * intros t [<-|[<-|[]]]; constructor; intros p [<-|[<-|[]]]; constructor; intros t E; try discriminate.
        injection E as <-. constructor. intros p [<-|[]]. constructor.
      * intros [|b [|c [|d bs]]] x [|a as_] E N; try congruence; try discriminate. injection E as <- _ _. reflexivity.
    + intros [|b [|c bs]] x [|a as_] E N; try congruence; discriminate.
Qed.

Example C26_example_fixed : forall m', apply_replacements ex_module [v_gone; v_arg] = Ok (Some m') ->
  code m' = u "x = f(99, 2)" ++ nl.
Proof. intros m' H. vm_compute in H. injection H as <-. vm_compute. reflexivity. Qed.

(** The fix of the argument is inside the replaced statement: ignored. *)
Example C26_example_inner : forall x, exposed (replacements [v_call]) x (m_tree ex_module) -> node_id x <> v_node v_arg.
Proof.
  intros x H. cbn [m_tree ex_module] in H.
  inversion H as [|i l ps p c _ I C X]; subst; [discriminate|]. destruct I as [<-|[]].
  inversion C as [| | | |blk ll t It]; subst. destruct It as [<-|[<-|[]]].
  - inversion X as [|i l ps p c0 _ I C' X']; subst; [discriminate|]. destruct I as [<-|[<-|[<-|[]]]]; inversion C' as [| | |ps' ll t It|]; subst.
    destruct It as [<-|[]]. inversion X' as [|i l ps p c _ I C0 X0]; subst; [discriminate|].
    destruct I as [<-|[<-|[]]]; inversion C0.
  - inversion X as [|i l ps p c0 _ I C' X']; subst; [discriminate|]. destruct I as [<-|[<-|[<-|[]]]]; inversion C' as [| | |ps' ll t It|]; subst.
    destruct It as [<-|[]]. inversion X' as [|i l ps p c A I C0 X0]; subst; [discriminate|]. vm_compute in A. discriminate.
Qed.

Example C25_example : match collect_violations (fun a b => b) ex_module (Ok (ex_rules, [])) true with
  | ([Yield a; Yield b; Yield c; Hook m], Ok 3) =>
      v_diff a = u "x = f(1, 2)" ++ nl /\ v_diff b = u "import a" ++ nl ++ u "x = f(99, 2)" ++ nl /\ v_diff c = [] /\
      dget (u "Count.A") m = Some 2 /\ dget (u "FixCount.A") m = Some 2 /\ dget (u "Count.B") m = Some 1 /\
      dget (u "FixCount.B") m = Some 0
  | _ => False
  end.
Proof. vm_compute. repeat split. Qed.

(** Two rules of one name (classes of different modules may have one) overwrite each other's
    counts, and a rule called [Total] loses its own. *)
Theorem C25_counts_refuted : ~ (forall udiff md rules m0 evs n m r,
  (forall r v, In r rules -> In v (r_violations r) -> v_rule v = r_name r) ->
  collect_violations udiff md (Ok (rules, m0)) true = (evs, Ok n) -> In (Hook m) evs -> In r rules ->
  dget (u "Count." ++ r_name r) m =
    Some (List.length (filter (fun v => str_eqb (v_rule v) (r_name r)) (yields evs)))).
Proof.
  intro H. pose (rs := [RuleInst (u "A") None [mkv "A" 7 None]; RuleInst (u "A") None []] : list rule).
  assert (W : forall r v, In r rs -> In v (r_violations r) -> v_rule v = r_name r).
  { intros r v [<-|[<-|[]]] Hv; [|contradiction]. destruct Hv as [<-|[]]. reflexivity. }
  assert (K := fun m r => H (fun a b => b) ex_module rs [] _ _ m r W eq_refl).
  specialize (K _ (RuleInst (u "A") None []) (or_intror (or_introl eq_refl)) (or_intror (or_introl eq_refl))).
  vm_compute in K. discriminate.
Qed.

(** Replacing a node by an empty sequence of nodes is no fix: it is never applied. *)
Theorem C26_empty_flatten : forall m v, v_replacement v = Some (RFlat []) -> apply_replacements m [v] = Ok (Some m).
Proof.
  intros m v H. apply C26_nothing_accepted. intros w [<-|[]]. unfold autofixable. rewrite H. reflexivity.
Qed.

(** Some replacements raise: a required node cannot be removed. *)
Example C25_example_raises :
  collect_violations (fun a b => b) (Mod (Node 0 false [Req (Node 1 false [Txt (u "x")])]) true nl)
    (Ok ([RuleInst (u "A") None [mkv "A" 1 None; mkv "A" 1 (Some RRemove)]], [])) true
  = ([Yield (mkv "A" 1 None)], Err (OtherError 0)).
Proof. vm_compute. reflexivity. Qed.
