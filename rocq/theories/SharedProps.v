(** * C92: the rules of fixit.upgrade together on whole files *)
From Coq Require Import String List NArith ZArith Bool Arith Lia.
From Verif Require Import Base PyStr Py Ftypes Paths Config Collect CollectSpec Suppress Classes ClassesSpec ClassesProps SortedProps Imports ImportsProps Upgrade UpgradeProps
  Cst Engine EngineSpec EngineProps Batch BatchProps Api ApiSpec ApiFacts System SystemSpec SystemProps Session SessionSpec CommandsSpec ProgramSpec Visitors VisitorsSpec VisitorsFacts Statements StatementsSpec StatementsFacts StatementsProps
  Shared SharedSpec.
Import ListNotations.
Opaque fixit_bytes.

(** ** Any tool: what is given to the user when a file is linted without errors *)
Lemma lint_any : forall T F p content cfg vs, lint_of T F p content cfg = (vs, None) ->
  exists ks, t_collect T F cfg = Ok ks /\
    ((ks = [] /\ vs = []) \/ exists md rs m, t_parse T content = Ok md /\ t_visit T F cfg md ks = Ok (rs, m) /\ Forall2 (delivered (t_udiff T p) md) (reported rs) vs).
Proof.
  intros T F p content cfg vs H. unfold lint_of in H. destruct (t_collect T F cfg) as [ks|e] eqn:Ec; [|discriminate H].
  exists ks. split; [reflexivity|]. destruct ks as [|k0 ks0]; [left; injection H as <-; auto|right].
  destruct (t_parse T content) as [md|e] eqn:Ep; [|discriminate H]. destruct (t_visit T F cfg md (k0 :: ks0)) as [[rs m]|e] eqn:Ev; [|cbn in H; discriminate H].
  destruct (collect_violations _ _ _ _) as [evs r] eqn:Er. destruct r as [n|e]; [|discriminate H]. injection H as <-. destruct (C25_complete _ _ _ _ _ _ _ Er) as (D & _).
  exists md, rs, m. split; [reflexivity|]. split; [exact Ev|].
  assert (Yd : flat_map (fun e => match e with Yield v => [v] | Hook _ => [] end) evs = yields evs).
  { clear. induction evs as [|[v|m] evs IH]; cbn [flat_map yields app]; [reflexivity|now f_equal|auto]. }
  rewrite Yd. exact D.
Qed.

Lemma file_any : forall T p autofix opts hook es,
  run (fixit_file T p autofix opts hook) es (Returned tt) -> no_errors es ->
  exists F content F1 cfg F2 es' ks,
    es = ELook F :: ELook F1 :: ELook F2 :: es' /\ f_file F p = Some content /\ generate_config (t_env T) F1 p None opts = Ok cfg /\ t_collect T F2 cfg = Ok ks /\
    ((ks = [] /\ violations (results es) = []) \/
     exists md rs m, t_parse T content = Ok md /\ t_visit T F2 cfg md ks = Ok (rs, m) /\ Forall2 (delivered (t_udiff T p) md) (reported rs) (violations (results es))).
Proof.
  intros T p autofix opts hook es H Ne. destruct (file_run _ _ _ _ _ _ H Ne) as (F & content & F1 & cfg & es1 & es2 & r & -> & Ef & Eg & R & E2).
  apply bytes_run in R. destruct R as [_ [[_ X]|(F2 & es' & -> & R)]]; [discriminate|].
  destruct (lint_of T F2 p content cfg) as [vs err] eqn:L. cbv zeta in R. destruct R as (err' & Rr & R).
  assert (Rs : results (ELook F :: ELook F1 :: (ELook F2 :: es') ++ es2) = report_of p vs err').
  { rewrite <- Rr. change (results (ELook F :: ELook F1 :: (ELook F2 :: es') ++ es2)) with (results ((ELook F2 :: es') ++ es2)). rewrite results_app, E2. apply app_nil_r. }
  unfold no_errors in Ne. rewrite Rs in Ne |- *.
  destruct err' as [e|].
  { exfalso. enough (x_error (Result p None (Some e)) = None) by discriminate. apply Ne. unfold report_of. apply in_or_app. right. simpl. auto. }
  destruct R as [-> _].
  assert (V : violations (report_of p vs None) = vs).
  { unfold report_of, violations. rewrite flat_map_app. replace (flat_map _ (match vs with [] => _ | _ => _ end)) with (@nil viol) by (destruct vs; reflexivity).
    rewrite app_nil_r. clear. induction vs as [|v vs IH]; [reflexivity|]. cbn [map flat_map x_violation app]. now f_equal. }
  rewrite V. destruct (lint_any _ _ _ _ _ _ L) as (ks & Ec & D). exists F, content, F1, cfg, F2, (es' ++ es2), ks. auto 8.
Qed.

(** ** Trees *)
(** Where a node is, those in it follow. *)
Lemma follows : forall t pre c post, all_nodes t = pre ++ c :: post -> exists rest, post = tl (all_nodes c) ++ rest.
Proof.
  apply (cst_ind2 (fun t => forall pre c post, all_nodes t = pre ++ c :: post -> exists rest, post = tl (all_nodes c) ++ rest)). intros i ty attrs IH pre c post E.
  change (all_nodes (Cst i ty attrs)) with (Cst i ty attrs :: flat_map (fun a : str * list cst => match a with (_, cs) => flat_map all_nodes cs end) attrs) in E.
  destruct pre as [|x pre]; cbn [app] in E.
  { injection E as <- <-. exists []. rewrite app_nil_r. reflexivity. }
  injection E as _ E.
  assert (G : forall (subs : list cst) pre post, (forall s, In s subs -> forall pre c post, all_nodes s = pre ++ c :: post -> exists rest, post = tl (all_nodes c) ++ rest) ->
    flat_map all_nodes subs = pre ++ c :: post -> exists rest, post = tl (all_nodes c) ++ rest).
  { clear. induction subs as [|s subs IHs]; intros pre post IH E; [destruct pre; discriminate E|]. cbn [flat_map] in E.
    assert (Cut : (exists q, all_nodes s = pre ++ c :: q /\ post = q ++ flat_map all_nodes subs) \/ exists pre', flat_map all_nodes subs = pre' ++ c :: post).
    { clear IH IHs. generalize dependent (all_nodes s). generalize (flat_map all_nodes subs). intros l2 l1. revert pre. induction l1 as [|y l1 IHl]; intros pre E.
      - right. exists pre. exact E.
      - destruct pre as [|z pre]; cbn [app] in E; injection E as -> E.
        + left. exists l1. auto.
        + destruct (IHl _ E) as [(q & -> & ->)|(pre' & ->)]; [left; exists q; auto|right; eauto]. }
    destruct Cut as [(q & E1 & ->)|(pre' & E1)].
    - destruct (IH s (or_introl eq_refl) _ _ _ E1) as (rest & ->). exists (rest ++ flat_map all_nodes subs). now rewrite app_assoc.
    - apply (IHs pre'); auto. intros s' I. apply IH. now right. }
  assert (Ef : flat_map (fun a : str * list cst => match a with (_, cs) => flat_map all_nodes cs end) attrs = flat_map all_nodes (flat_map snd attrs)).
  { clear. induction attrs as [|[n cs] attrs IH]; [reflexivity|]. cbn [flat_map snd]. rewrite flat_map_app. now rewrite IH. }
  rewrite Ef in E. eapply G; [|exact E]. intros s I. apply in_flat_map in I. destruct I as ([n cs] & Ia & Is). exact (IH n cs Ia s Is).
Qed.

Lemma nodup_right : forall A (l l' : list A), NoDup (l ++ l') -> NoDup l'.
Proof. intros A l l'. induction l as [|x l IH]; [auto|]. cbn [app]. intro H. inversion H; auto. Qed.
Lemma nodup_left : forall A (l l' : list A), NoDup (l ++ l') -> NoDup l.
Proof. intros A l l'. induction l as [|x l IH]; [constructor|]. cbn [app]. intro H. inversion H as [|? ? N H']; subst. constructor; [|auto]. intro I. apply N, in_or_app. now left. Qed.

Definition all_types : list str := map u ["ImportFrom"; "Name"; "ClassDef"; "Call"]%string.

Section Nodes.
  Context (read : module -> N -> item) (write : module -> N -> new_item -> repl) (code_range : expr -> expr -> expr) (md : module) (M : metadata) (W : well_read read md M).
  Context (imports suffixes : bool).
  Notation says_at := (upgrade_says read write code_range).

  (** What becomes of the sets when a node is entered *)
  Definition entered (i : N) (h : sets) : res sets :=
    let! h' := (if suffixes then upgrade_leaves read SuffixRule md i h else Ok h) in
    if imports then upgrade_leaves read ImportRule md i h' else Ok h'.

  Inductive going (w : upgrade_rule) : list cst -> sets -> list say -> Prop :=
  | g_end : forall h, going w [] h []
  | g_node : forall c cs h h' ys, entered (cst_id c) h = Ok h' -> going w cs h' ys -> going w (c :: cs) h (says_at w md (cst_id c) h ++ ys).

  Definition in_bases (nodes : list cst) (i : N) : bool := existsb (fun c => existsb (N.eqb i) (bases_of (read md (cst_id c)))) nodes.
  Definition is_a_name (t : item) : bool := match t with AName _ => true | _ => false end.
  Definition named (nodes : list cst) (i : N) : bool := existsb (fun c => N.eqb i (cst_id c) && is_a_name (read md (cst_id c))) nodes.
  Definition once (b : bool) (s : option (list str)) : option (list str) := if b then popped s else s.

  Lemma in_bases_iff : forall nodes i, in_bases nodes i = true <-> In i (flat_map (fun c => bases_of (read md (cst_id c))) nodes).
  Proof.
    intros nodes i. unfold in_bases. rewrite existsb_exists, in_flat_map. split; intros (c & Ic & H); exists c; (split; [exact Ic|]).
    - apply existsb_exists in H. destruct H as (j & Ij & E). apply N.eqb_eq in E. now subst.
    - apply existsb_exists. exists i. split; [exact H|apply N.eqb_refl].
  Qed.

  Lemma suffix_pops : forall name bs h, NoDup bs ->
    match suffix_loop name bs h with
    | (new, Ok h') => (forall b, In b bs -> h b <> Some []) /\ (forall i, h' i = once (existsb (N.eqb i) bs) (h i)) /\
        exists rest, remove_suffix name (map h bs) = Ok (new, rest)
    | (_, Err e) => exists b, In b bs /\ h b = Some []
    end.
  Proof.
    intros name bs. induction bs as [|b bs IH]; intros h Nd; cbn [suffix_loop map].
    - split; [intros b []|]. split; [reflexivity|]. exists []. reflexivity.
    - inversion Nd as [|? ? Nb Nd']; subst. assert (Ex : existsb (N.eqb b) bs = false).
      { apply not_true_iff_false. intro X. apply existsb_exists in X. destruct X as (j & Ij & E). apply N.eqb_eq in E. now subst. }
      destruct (h b) as [[|q qs]|] eqn:Eb.
      + exists b. split; [now left|exact Eb].
      + assert (Em : map (pop_at b h) bs = map h bs).
        { apply map_ext_in. intros j Ij. unfold pop_at. destruct (N.eqb j b) eqn:E; [apply N.eqb_eq in E; now subst|reflexivity]. }
        specialize (IH (pop_at b h) Nd'). rewrite Em in IH. destruct (suffix_loop name bs (pop_at b h)) as [new [h'|e]].
        * destruct IH as (Ne & Hh & rest & Er). split; [|split].
          -- intros j [<-|Ij]; [congruence|]. specialize (Ne j Ij). unfold pop_at in Ne. destruct (N.eqb j b) eqn:E; [apply N.eqb_eq in E; now subst|exact Ne].
          -- intro i. rewrite Hh. unfold pop_at. cbn [existsb]. destruct (N.eqb i b) eqn:E; [|reflexivity]. apply N.eqb_eq in E. subst i. rewrite Ex. reflexivity.
          -- cbn [remove_suffix]. rewrite Er. cbn [bind fst snd]. eauto.
        * destruct IH as (j & Ij & Ej). exists j. split; [now right|]. unfold pop_at in Ej. destruct (N.eqb j b) eqn:E; [apply N.eqb_eq in E; now subst|exact Ej].
      + specialize (IH h Nd'). destruct (suffix_loop name bs h) as [new [h'|e]].
        * destruct IH as (Ne & Hh & rest & Er). split; [|split].
          -- intros j [<-|Ij]; [congruence|now apply Ne].
          -- intro i. rewrite Hh. cbn [existsb]. destruct (N.eqb i b) eqn:E; [|reflexivity]. apply N.eqb_eq in E. subst i. rewrite Ex. cbn [orb once]. now rewrite Eb.
          -- cbn [remove_suffix]. rewrite Er. cbn [bind fst snd]. eauto.
        * destruct IH as (j & Ij & Ej). exists j. split; [now right|exact Ej].
  Qed.

  (** The sets that a rule finds when it looks at them *)
  Definition view (w : upgrade_rule) (h0 : sets) : sets :=
    fun i => match w with ImportRule => once (suffixes && in_bases (all_nodes (d_tree M)) i) (h0 i) | _ => h0 i end.

  Lemma says_congr : forall w i h h', (forall b, In b (i :: bases_of (read md i)) -> h b = h' b) -> NoDup (bases_of (read md i)) -> says_at w md i h = says_at w md i h'.
  Proof.
    intros w i h h' E Nd. unfold upgrade_says. destruct w, (read md i) as [s|imp js|name j bs|names args|n] eqn:Er; try reflexivity.
    - now rewrite (E i) by now left.
    - f_equal. cbn [bases_of] in *. pose proof (suffix_pops name bs h Nd) as P. pose proof (suffix_pops name bs h' Nd) as P'.
      assert (Em : map h bs = map h' bs) by (apply map_ext_in; intros b Ib; apply E; now right). rewrite Em in P.
      clear P P'. clear Er. revert h h' E Em. induction bs as [|b bs IH]; intros h h' E Em; [reflexivity|]. cbn [suffix_loop]. rewrite <- (E b) by (right; now left).
      inversion Nd as [|? ? Nb Nd']; subst.
      destruct (h b) as [[|q qs]|] eqn:Eb; [reflexivity| |].
      + assert (Ec : forall x, In x (i :: bs) -> pop_at b h x = pop_at b h' x).
        { intros x Ix. unfold pop_at. rewrite <- (E x) by (destruct Ix; [now left|right; now right]). reflexivity. }
        assert (Ep : fst (suffix_loop name bs (pop_at b h)) = fst (suffix_loop name bs (pop_at b h'))) by (apply IH; auto; apply map_ext_in; intros x Ix; apply Ec; now right).
        destruct (suffix_loop name bs (pop_at b h)), (suffix_loop name bs (pop_at b h')). cbn [fst] in *. now subst.
      + apply IH; auto; [intros x Ix; apply E; destruct Ix; [now left|right; now right]|]. cbn [map] in Em. now injection Em.
  Qed.

  Lemma going_all : forall w h0 todo done h xs, all_nodes (d_tree M) = done ++ todo ->
    (forall i, h i = once (imports && named done i) (once (suffixes && in_bases done i) (h0 i))) ->
    going w todo h xs ->
    xs = flat_map (fun c => says_at w md (cst_id c) (view w h0)) todo /\
    (suffixes = true -> forall c b, In c todo -> In b (bases_of (read md (cst_id c))) -> h0 b <> Some []).
  Proof.
    intros w h0 todo. induction todo as [|c todo IH]; intros done h xs Ea Hh G; inversion G as [|? ? ? h' ys En G']; subst.
    { split; [reflexivity|]. intros _ c b []. }
    pose proof (wr_ids _ _ _ W) as Ids. unfold own_ids in Ids. rewrite Ea, map_app in Ids. cbn [map] in Ids.
    assert (Ic : In c (all_nodes (d_tree M))) by (rewrite Ea; apply in_or_app; right; now left).
    assert (NoDone : forall x, In x done -> cst_id x <> cst_id c /\ ~ In (cst_id x) (map cst_id todo)).
    { intros x Ix. apply in_map with (f := cst_id) in Ix. split.
      - intro E. apply NoDup_remove_2 in Ids. apply Ids. apply in_or_app. left. now rewrite <- E.
      - intro I. apply in_split in Ix. destruct Ix as (a & b & E). rewrite E, <- app_assoc in Ids. cbn [app] in Ids. apply NoDup_remove_2 in Ids. apply Ids. rewrite !in_app_iff. cbn. auto. }
    assert (After : forall b, In b (bases_of (read md (cst_id c))) -> In b (map cst_id todo)).
    { intros b Ib. pose proof (wr_bases _ _ _ W c b Ic Ib) as I. destruct (follows _ _ _ _ Ea) as (rest & ->). rewrite map_app. apply in_or_app. now left. }
    assert (Apart : NoDup (flat_map (fun c => bases_of (read md (cst_id c))) (done ++ c :: todo))) by (rewrite <- Ea; apply (wr_apart _ _ _ W)).
    rewrite flat_map_app in Apart. cbn [flat_map] in Apart.
    assert (Ndb : NoDup (bases_of (read md (cst_id c)))).
    { clear - Apart. apply nodup_right in Apart. now apply nodup_left in Apart. }
    assert (Fresh : forall b, In b (bases_of (read md (cst_id c))) -> in_bases done b = false /\ named done b = false).
    { intros b Ib. split; apply not_true_iff_false; intro X.
      - apply in_bases_iff in X. apply in_split in X. destruct X as (a1 & a2 & E). rewrite E, <- app_assoc in Apart. cbn [app] in Apart. apply NoDup_remove_2 in Apart. apply Apart. rewrite !in_app_iff. auto.
      - unfold named in X. apply existsb_exists in X. destruct X as (x & Ix & E). apply andb_true_iff in E. destruct E as (E & _). apply N.eqb_eq in E. subst b. destruct (NoDone x Ix) as (_ & N). apply N, After, Ib. }
    assert (Hb : forall b, In b (bases_of (read md (cst_id c))) -> h b = h0 b).
    { intros b Ib. destruct (Fresh b Ib) as (E1 & E2). now rewrite Hh, E1, E2, !andb_false_r. }
    assert (Nn : named done (cst_id c) = false).
    { apply not_true_iff_false. intro X. unfold named in X. apply existsb_exists in X. destruct X as (x & Ix & E). apply andb_true_iff in E. destruct E as (E & _). apply N.eqb_eq in E. destruct (NoDone x Ix) as (N & _). congruence. }
    assert (Done : in_bases done (cst_id c) = in_bases (all_nodes (d_tree M)) (cst_id c)).
    { rewrite Ea. unfold in_bases. rewrite existsb_app. destruct (existsb _ done); [reflexivity|]. cbn [orb]. symmetry. apply not_true_iff_false. intro X.
      apply existsb_exists in X. destruct X as (x & Ix & E). apply existsb_exists in E. destruct E as (j & Ij & E). apply N.eqb_eq in E. subst j.
      apply in_split in Ix. destruct Ix as (q1 & q2 & Eq). assert (Ea' : all_nodes (d_tree M) = (done ++ q1) ++ x :: q2) by (rewrite Ea, Eq, <- app_assoc; reflexivity).
      assert (Ix : In x (all_nodes (d_tree M))) by (rewrite Ea'; apply in_or_app; right; now left).
      pose proof (wr_bases _ _ _ W x _ Ix Ij) as I. destruct (follows _ _ _ _ Ea') as (rest & ->).
      destruct q1 as [|y q1]; cbn [app] in Eq; injection Eq as <- Eq.
      - apply NoDup_remove_2 in Ids. apply Ids. apply in_or_app. right. rewrite Eq, map_app. apply in_or_app. now left.
      - apply NoDup_remove_2 in Ids. apply Ids. apply in_or_app. right. rewrite Eq, !map_app. cbn [map]. rewrite map_app. apply in_or_app. right. right. apply in_or_app. now left. }
    (** what is said *)
    assert (Es : says_at w md (cst_id c) h = says_at w md (cst_id c) (view w h0)).
    { unfold upgrade_says. destruct w, (read md (cst_id c)) as [s|imp js|name j bs|names args|n] eqn:Er; try reflexivity.
      - unfold view. now rewrite Hh, Nn, Done, andb_false_r.
      - assert (Ec := says_congr SuffixRule (cst_id c)). unfold upgrade_says in Ec. rewrite Er in Ec. cbn [bases_of] in *.
        assert (Ef : forall h h', (forall b, In b bs -> h b = h' b) -> fst (suffix_loop name bs h) = fst (suffix_loop name bs h')).
        { clear - Ndb. induction bs as [|b bs IH]; intros h h' E; [reflexivity|]. inversion Ndb as [|? ? Nb Nd']; subst. cbn [suffix_loop]. rewrite <- (E b) by now left. destruct (h b) as [[|q qs]|]; [reflexivity| |].
          - assert (Ep : fst (suffix_loop name bs (pop_at b h)) = fst (suffix_loop name bs (pop_at b h'))) by (apply (IH Nd'); intros x Ix; unfold pop_at; now rewrite <- (E x) by now right).
            destruct (suffix_loop name bs (pop_at b h)), (suffix_loop name bs (pop_at b h')). cbn [fst] in *. now subst.
          - apply (IH Nd'). intros x Ix. apply E. now right. }
        f_equal. apply Ef. intros b Ib. now apply Hb. }
    (** what becomes of the sets *)
    assert (Hh' : (forall i, h' i = once (imports && named (done ++ [c]) i) (once (suffixes && in_bases (done ++ [c]) i) (h0 i))) /\
                  (suffixes = true -> forall b, In b (bases_of (read md (cst_id c))) -> h0 b <> Some [])).
    { assert (Eb : forall i, in_bases (done ++ [c]) i = in_bases done i || existsb (N.eqb i) (bases_of (read md (cst_id c)))).
      { intro i. unfold in_bases. rewrite existsb_app. cbn [existsb]. now rewrite orb_false_r. }
      assert (Em : forall i, named (done ++ [c]) i = named done i || (N.eqb i (cst_id c) && is_a_name (read md (cst_id c)))).
      { intro i. unfold named. rewrite existsb_app. cbn [existsb]. now rewrite orb_false_r. }
      unfold entered in En.
      assert (E1 : exists h1, (if suffixes then upgrade_leaves read SuffixRule md (cst_id c) h else Ok h) = Ok h1 /\
        (forall i, h1 i = once (imports && named done i) (once (suffixes && in_bases (done ++ [c]) i) (h0 i))) /\
        (suffixes = true -> forall b, In b (bases_of (read md (cst_id c))) -> h0 b <> Some [])).
      { destruct suffixes eqn:Esf; [|exists h; split; [reflexivity|]; split; [|discriminate]; intro i; rewrite Hh; reflexivity].
        unfold upgrade_leaves in *. destruct (read md (cst_id c)) as [s|imp js|name j bs|names args|n] eqn:Er; cbn [bases_of] in *;
          try (exists h; split; [reflexivity|]; split; [intro i; rewrite Hh, Eb; cbn [existsb andb]; now rewrite orb_false_r|intros _ b []]).
        pose proof (suffix_pops name bs h Ndb) as P. destruct (suffix_loop name bs h) as [new [h1|e]]; [|discriminate En]. cbn [snd].
        destruct P as (P1 & P2 & _). exists h1. split; [reflexivity|]. split.
        - intro i. rewrite P2, Eb. cbn [andb]. destruct (existsb (N.eqb i) bs) eqn:Ei; [|rewrite orb_false_r; cbn [once]; apply Hh].
          apply existsb_exists in Ei. destruct Ei as (b & Ib & E). apply N.eqb_eq in E. subst b. destruct (Fresh i Ib) as (-> & Fn). rewrite Fn, andb_false_r. cbn [orb once]. now rewrite Hb.
        - intros _ b Ib. rewrite <- Hb by exact Ib. now apply P1. }
      destruct E1 as (h1 & E1 & H1 & Nz). assert (En2 : (if imports then upgrade_leaves read ImportRule md (cst_id c) h1 else Ok h1) = Ok h') by (revert En; unfold bind; destruct suffixes; [destruct (upgrade_leaves read SuffixRule md (cst_id c) h) as [hx|]; [|discriminate E1]; injection E1 as ->|injection E1 as ->]; intro En; exact En). clear En. rename En2 into En. split; [|exact Nz]. intro i. rewrite Em.
      destruct imports eqn:Eim; [|injection En as <-; rewrite H1; reflexivity]. unfold upgrade_leaves in En.
      destruct (read md (cst_id c)) as [s|imp js|name j bs|names args|n] eqn:Er; injection En as <-; cbn [is_a_name]; rewrite ?andb_false_r, ?orb_false_r; try apply H1.
      rewrite andb_true_r. cbn [andb]. unfold pop_at. rewrite H1. destruct (N.eqb i (cst_id c)) eqn:Ei; [|now rewrite orb_false_r].
      apply N.eqb_eq in Ei. subst i. rewrite Nn. reflexivity. }
    destruct Hh' as (Hh' & Nz). destruct (IH (done ++ [c]) h' ys) as (E & Nz'); [now rewrite <- app_assoc|exact Hh'|exact G'|].
    split; [cbn [flat_map]; now rewrite <- Es, <- E|]. intros Es' x b [<-|Ix] Ib; [exact (Nz Es' b Ib)|exact (Nz' Es' x b Ix Ib)].
  Qed.
End Nodes.

(** ** Rules in one traversal *)
Lemma say_all_app : forall U M a b r, say_all U M (a ++ b) r = let! r' := say_all U M a r in say_all U M b r'.
Proof. intros U M a. induction a as [|x a IH]; intros b r; [reflexivity|]. cbn [app say_all]. destruct (Suppress.report _ _ _ _ _ _ _ _) as [r1|e]; [|reflexivity]. cbn [bind]. apply IH. Qed.

Lemma one_rule : forall w w' method, is_visit (upgrade_types w) method = true -> is_visit (upgrade_types w') method = true -> w = w'.
Proof.
  intros w w' method H H'. unfold is_visit in *. apply existsb_exists in H. destruct H as (ty & I & E). apply str_eqb_eq in E. subst method.
  apply existsb_exists in H'. destruct H' as (ty' & I' & E). apply str_eqb_eq in E. apply app_same_head in E. subst ty'.
  destruct w, w'; try reflexivity; exfalso; cbn in I, I'; repeat (destruct I as [<-|I]; [|]); try contradiction; repeat (destruct I' as [E|I']; [discriminate E|]); contradiction.
Qed.

Lemma types_listed : forall w m, is_visit (upgrade_types w) m = true -> is_visit all_types m = true.
Proof.
  intros w m H. unfold is_visit in *. apply existsb_exists in H. destruct H as (ty & I & E). apply existsb_exists. exists ty. split; [|exact E].
  destruct w; cbn in I; unfold all_types; cbn; intuition auto.
Qed.

Section Members.
  Context (read : module -> N -> item) (write : module -> N -> new_item -> repl) (code_range : expr -> expr -> expr) (msg : str -> option str).
  Context (U : unicode) (M : metadata) (md : module) (took : nat -> nat).
  Notation code := (upgrade_code read write code_range msg).
  Notation says_at := (upgrade_says read write code_range).

  Inductive moved (R : upgrade_rule -> rule -> rule -> Prop) : list (option upgrade_rule) -> list (member sets) -> list (member sets) -> Prop :=
  | mv_nil : moved R [] [] []
  | mv_cons : forall o os x x' xs xs', m_code x' = m_code x ->
      match o with Some w => m_code x = code w /\ R w (m_rule x) (m_rule x') | None => leaves_alone (m_code x) end ->
      moved R os xs xs' -> moved R (o :: os) (x :: xs) (x' :: xs').

  Lemma moved_trans : forall (R R' R'' : upgrade_rule -> rule -> rule -> Prop) os xs ys zs, (forall w a b c, R w a b -> R' w b c -> R'' w a c) ->
    moved R os xs ys -> moved R' os ys zs -> moved R'' os xs zs.
  Proof.
    intros R R' R'' os xs ys zs T A. revert zs. induction A as [|o os x y xs ys E D A IH]; intros zs B; inversion B as [|? ? ? z ? zs' E' D' B']; subst; constructor; auto; [congruence|].
    destruct o; [|exact D]. destruct D as (D1 & D2). destruct D' as (_ & D3). split; [exact D1|]. eapply T; eauto.
  Qed.
  Lemma moved_weak : forall (R R' : upgrade_rule -> rule -> rule -> Prop) os xs ys, (forall w a b, R w a b -> R' w a b) -> moved R os xs ys -> moved R' os xs ys.
  Proof. intros R R' os xs ys T A. induction A as [|o os x y xs ys E D A IH]; constructor; auto. destruct o; [|exact D]. destruct D; auto. Qed.
  Lemma moved_start : forall (R : upgrade_rule -> rule -> rule -> Prop) os xs ys, moved R os xs ys -> moved (fun _ a b => b = a) os ys ys.
  Proof. intros R os xs ys A. induction A as [|o os x y xs ys E D A IH]; constructor; auto. rewrite E. destruct o; [|exact D]. destruct D; auto. Qed.

  Lemma moved_each : forall (R : upgrade_rule -> rule -> rule -> Prop) K (f : K -> option upgrade_rule) (g : K -> member sets) ks xs, moved R (map f ks) (map g ks) xs ->
    Forall2 (fun k x => match f k with Some w => m_code (g k) = code w /\ R w (m_rule (g k)) (m_rule x) | None => leaves_alone (m_code (g k)) end) ks xs.
  Proof. intros R K f g ks. induction ks as [|k ks IH]; intros xs H; cbn [map] in H; inversion H; subst; constructor; auto. Qed.

  Definition somes (os : list (option upgrade_rule)) : list upgrade_rule := flat_map (fun o => match o with Some w => [w] | None => [] end) os.

  (** The sets after a call *)
  Definition stepped (os : list (option upgrade_rule)) (method : str) (t : cst) (h h' : sets) : Prop :=
    (forall w, In w (somes os) -> is_visit (upgrade_types w) method = true -> upgrade_leaves read w md (cst_id t) h = Ok h') /\
    ((forall w, In w (somes os) -> is_visit (upgrade_types w) method = false) -> h' = h).
  Definition here_says (w : upgrade_rule) (method : str) (t : cst) (h : sets) : list say := if is_visit (upgrade_types w) method then says_at w md (cst_id t) h else [].

  Lemma call_others : forall method t os xs h m n xs' h' m' n', moved (fun _ a b => b = a) os xs xs -> (forall w, In w (somes os) -> is_visit (upgrade_types w) method = false) ->
    call_members sets U M md took method t xs h m n = Ok (xs', h', m', n') -> h' = h /\ moved (fun _ a b => b = a) os xs xs'.
  Proof.
    intros method t os xs h m n xs' h' m' n' T. remember xs as ys eqn:Ey in T at 2. clear Ey. revert h m n xs' h' m' n'.
    induction T as [|o os x y xs ys E D T IH]; intros h m n xs' h' m' n' No H; cbn [call_members] in H.
    - injection H as <- <- _ _. split; [reflexivity|constructor].
    - destruct (c_method (m_code x) md method) as [f|] eqn:Ef.
      + destruct o as [w|].
        { exfalso. destruct D as (D & _). assert (Ef' : c_method (m_code x) md method = None) by (rewrite D; cbn [upgrade_code c_method]; rewrite (No w) by (cbn; now left); reflexivity). congruence. }
        destruct (f t (m_own x) h) as [xs0 o] eqn:Ex. destruct (say_all U M xs0 (m_rule x)) as [r|e]; [|discriminate H]. cbn [bind] in H. destruct o as [[own h1]|e]; [|discriminate H]. cbn [bind fst snd] in H.
        assert (h1 = h) as -> by (eapply D; eauto).
        destruct (call_members sets U M md took method t xs h _ _) as [[[[rest h2] m2] n2]|e] eqn:Er; [|discriminate H]. cbn [bind] in H. injection H as <- <- _ _.
        destruct (IH _ _ _ _ _ _ _ No Er) as (-> & A). split; [reflexivity|]. constructor; auto.
      + destruct (call_members sets U M md took method t xs h m n) as [[[[rest h2] m2] n2]|e] eqn:Er; [|discriminate H]. cbn [bind] in H. injection H as <- <- _ _.
        assert (No' : forall w, In w (somes os) -> is_visit (upgrade_types w) method = false) by (intros w I; apply No; unfold somes; cbn [flat_map]; apply in_or_app; now right).
        destruct (IH _ _ _ _ _ _ _ No' Er) as (-> & A). split; [reflexivity|]. constructor; auto. destruct o; [|exact D]. destruct D as (D & _). auto.
  Qed.

  Lemma call_moved : forall method t os xs h m n xs' h' m' n', moved (fun _ a b => b = a) os xs xs -> NoDup (somes os) ->
    call_members sets U M md took method t xs h m n = Ok (xs', h', m', n') ->
    stepped os method t h h' /\ moved (fun w a b => say_all U M (here_says w method t h) a = Ok b) os xs xs'.
  Proof.
    intros method t os xs h m n xs' h' m' n' T. remember xs as ys eqn:Ey in T at 2. revert Ey. revert h m n xs' h' m' n'.
    induction T as [|o os x y xs ys E D T IH]; intros h m n xs' h' m' n' Ey Nd H; cbn [call_members] in H.
    - injection H as <- <- _ _. split; [|constructor]. split; [intros w []|reflexivity].
    - injection Ey as -> ->. destruct o as [w|].
      + unfold somes in Nd. cbn [flat_map app] in Nd. inversion Nd as [|? ? Nw Nd']; subst. fold (somes os) in Nw, Nd'.
        destruct (is_visit (upgrade_types w) method) eqn:Ev.
        * (** its turn: no other rule of the three has the method *)
          assert (No : forall w', In w' (somes os) -> is_visit (upgrade_types w') method = false).
          { intros w' I. apply not_true_iff_false. intro X. apply Nw. now rewrite (one_rule _ _ _ Ev X). }
          destruct D as (D & _).
          assert (Em : exists says o, (forall own, c_method (m_code x) md method = Some own -> own t (m_own x) h = (says, o)) /\ (exists own, c_method (m_code x) md method = Some own) /\
            says = says_at w md (cst_id t) h /\ (forall own' h1, o = Ok (own', h1) -> upgrade_leaves read w md (cst_id t) h = Ok h1)).
          { clear - D Ev. destruct x as [C own r]. cbn [m_code m_own] in *. subst C. unfold upgrade_code. cbn [c_method]. rewrite Ev. eexists _, _. split; [intros f Ef; injection Ef as <-; reflexivity|]. split; [eauto|]. split; [reflexivity|].
            intros own' h1 Eo. cbn [c_own upgrade_code] in *. destruct (upgrade_leaves read w md (cst_id t) h); [|discriminate Eo]. cbn [bind] in Eo. now injection Eo as _ ->. }
          destruct Em as (says & o & Em & (f & Ef) & -> & Eh). rewrite Ef, (Em f Ef) in H.
          destruct (say_all U M (says_at w md (cst_id t) h) (m_rule x)) as [r|e] eqn:Er; [|discriminate H]. cbn [bind] in H. destruct o as [[own h1]|e]; [|discriminate H]. cbn [bind fst snd] in H.
          destruct (call_members sets U M md took method t xs h1 _ _) as [[[[rest h2] m2] n2]|e] eqn:Ec; [|discriminate H]. cbn [bind] in H. injection H as <- <- _ _.
          destruct (call_others _ _ _ _ _ _ _ _ _ _ _ T No Ec) as (-> & A). specialize (Eh _ _ eq_refl). split.
          -- split; [|intro X; rewrite X in Ev by (cbn; now left); discriminate Ev]. intros w' [<-|I] Ev'; [exact Eh|]. exfalso. apply Nw. now rewrite (one_rule _ _ _ Ev Ev').
          -- constructor; [reflexivity| |].
             ++ split; [exact D|]. cbn [m_rule]. unfold here_says. now rewrite Ev.
             ++ clear - A No. induction A as [|o os x y xs ys E D A IH]; constructor; auto.
                ** destruct o as [w|]; [|exact D]. destruct D as (D1 & D2). split; [exact D1|]. unfold here_says. rewrite (No w) by (cbn; now left). cbn [say_all]. now rewrite D2.
                ** apply IH. intros w I. apply No. unfold somes. cbn [flat_map]. apply in_or_app. now right.
        * destruct D as (D & _). assert (Ef : c_method (m_code x) md method = None) by (rewrite D; cbn [upgrade_code c_method]; now rewrite Ev). rewrite Ef in H.
          destruct (call_members sets U M md took method t xs h m n) as [[[[rest h2] m2] n2]|e] eqn:Ec; [|discriminate H]. cbn [bind] in H. injection H as <- <- _ _.
          destruct (IH _ _ _ _ _ _ _ eq_refl Nd' Ec) as ((S1 & S2) & A). split.
          -- split; [intros w' [<-|I] Ev'; [congruence|auto]|]. intro No. apply S2. intros w' I. apply No. now right.
          -- constructor; auto. split; [exact D|]. unfold here_says. rewrite Ev. reflexivity.
      + destruct (c_method (m_code x) md method) as [f|] eqn:Ef.
        * destruct (f t (m_own x) h) as [xs0 o] eqn:Ex. destruct (say_all U M xs0 (m_rule x)) as [r|e]; [|discriminate H]. cbn [bind] in H. destruct o as [[own h1]|e]; [|discriminate H]. cbn [bind fst snd] in H.
          assert (h1 = h) as -> by (eapply D; eauto).
          destruct (call_members sets U M md took method t xs h _ _) as [[[[rest h2] m2] n2]|e] eqn:Er; [|discriminate H]. cbn [bind] in H. injection H as <- <- _ _.
          destruct (IH _ _ _ _ _ _ _ eq_refl Nd Er) as (S1 & A). split; [exact S1|]. constructor; auto.
        * destruct (call_members sets U M md took method t xs h m n) as [[[[rest h2] m2] n2]|e] eqn:Er; [|discriminate H]. cbn [bind] in H. injection H as <- <- _ _.
          destruct (IH _ _ _ _ _ _ _ eq_refl Nd Er) as (S1 & A). split; [exact S1|]. constructor; auto.
  Qed.

  Inductive calling (os : list (option upgrade_rule)) (w : upgrade_rule) : list (str * cst) -> sets -> list say -> Prop :=
  | cl_end : forall h, calling os w [] h []
  | cl_call : forall method t cs h h' ys, stepped os method t h h' -> calling os w cs h' ys -> calling os w ((method, t) :: cs) h (here_says w method t h ++ ys).

  Lemma run_moved : forall os cs xs h m n xs' h' m' n', moved (fun _ a b => b = a) os xs xs -> NoDup (somes os) ->
    run_members sets U M md took cs xs h m n = Ok (xs', h', m', n') ->
    moved (fun w a b => exists ys, calling os w cs h ys /\ say_all U M ys a = Ok b) os xs xs'.
  Proof.
    intros os cs. induction cs as [|[method t] cs IH]; intros xs h m n xs' h' m' n' T Nd H; cbn [run_members] in H.
    - injection H as <- _ _ _. eapply moved_weak; [|exact T]. intros w a b ->. exists []. split; [constructor|reflexivity].
    - destruct (call_members sets U M md took method t xs h m n) as [[[[xs1 h1] m1] n1]|e] eqn:Ec; [|discriminate H]. cbn [bind] in H.
      destruct (call_moved _ _ _ _ _ _ _ _ _ _ _ T Nd Ec) as (St & A). eapply moved_trans; [|exact A|eapply IH; [eapply moved_start; exact A|exact Nd|exact H]].
      intros w a b c S1 (ys & G & S2). exists (here_says w method t h ++ ys). split; [econstructor; eauto|]. rewrite say_all_app, S1. exact S2.
  Qed.

  (** Only entering nodes of the types above counts. *)
  Lemma calling_filter : forall os w cs h ys, calling os w cs h ys -> calling os w (filter (fun x => is_visit all_types (fst x)) cs) h ys.
  Proof.
    intros os w cs h ys G. induction G as [h|method t cs h h' ys St G IH]; [constructor|]. cbn [filter fst]. destruct (is_visit all_types method) eqn:E; [econstructor; eauto|].
    assert (No : forall w, is_visit (upgrade_types w) method = false).
    { intro w'. apply not_true_iff_false. intro X. apply types_listed in X. congruence. }
    assert (h' = h) as -> by (apply (proj2 St); auto). unfold here_says. rewrite No. exact IH.
  Qed.

  Definition is_w (w : upgrade_rule) (o : option upgrade_rule) : bool :=
    match o, w with Some ImportRule, ImportRule | Some SuffixRule, SuffixRule | Some KeywordsRule, KeywordsRule => true | _, _ => false end.
  Definition has_rule (os : list (option upgrade_rule)) (w : upgrade_rule) : bool := existsb (is_w w) os.
  Lemma has_rule_iff : forall os w, has_rule os w = true <-> In w (somes os).
  Proof.
    intros os w. unfold has_rule, somes. rewrite existsb_exists, in_flat_map. split; intros (o & I & H); exists o; (split; [exact I|]).
    - destruct o as [w'|]; [|discriminate H]. destruct w', w; try discriminate H; now left.
    - destruct o as [w'|]; [|destruct H]. destruct H as [->|[]]. destruct w; reflexivity.
  Qed.

  Lemma calling_inv : forall os w method t cs h xs, calling os w ((method, t) :: cs) h xs ->
    exists h' ys, stepped os method t h h' /\ calling os w cs h' ys /\ xs = here_says w method t h ++ ys.
  Proof. intros os w method t cs h xs G. inversion G; subst. eauto 6. Qed.

  Lemma calling_going : forall os w nodes h ys, (forall c, In c nodes -> item_type (read md (cst_id c)) (cst_type c)) ->
    calling os w (map (fun c => (u "visit_" ++ cst_type c, c)) (filter (fun c => existsb (str_eqb (cst_type c)) all_types) nodes)) h ys ->
    going read write code_range md (has_rule os ImportRule) (has_rule os SuffixRule) w nodes h ys.
  Proof.
    intros os w nodes. induction nodes as [|c nodes IH]; intros h ys Ty G; cbn [filter map] in G; [inversion G; constructor|].
    assert (Ty' : forall c, In c nodes -> item_type (read md (cst_id c)) (cst_type c)) by (intros x I; apply Ty; now right). specialize (Ty c (or_introl eq_refl)).
    assert (Quiet : forall w h, is_visit (upgrade_types w) (u "visit_" ++ cst_type c) = false -> says_at w md (cst_id c) h = [] /\ upgrade_leaves read w md (cst_id c) h = Ok h).
    { intros w' h0 No. rewrite is_visit_type in No. unfold upgrade_says, upgrade_leaves. destruct (read md (cst_id c)), w'; cbn [item_type] in Ty; rewrite ?Ty in No; try (split; reflexivity); discriminate No. }
    destruct (existsb (str_eqb (cst_type c)) all_types) eqn:E.
    - cbn [map] in G. apply calling_inv in G. destruct G as (h' & ys' & St & G' & ->).
      assert (Es : here_says w (u "visit_" ++ cst_type c) c h = says_at w md (cst_id c) h).
      { unfold here_says. destruct (is_visit (upgrade_types w) (u "visit_" ++ cst_type c)) eqn:Ev; [reflexivity|]. symmetry. now apply Quiet. }
      rewrite Es. apply g_node with (h' := h'); [|apply IH; auto]. unfold entered. destruct St as (S1 & S2).
      destruct (is_visit (upgrade_types SuffixRule) (u "visit_" ++ cst_type c)) eqn:Ea, (is_visit (upgrade_types ImportRule) (u "visit_" ++ cst_type c)) eqn:Eb.
      + pose proof (one_rule _ _ _ Ea Eb). discriminate.
      + destruct (has_rule os SuffixRule) eqn:Hs.
        * apply has_rule_iff in Hs. rewrite (S1 _ Hs Ea). cbn [bind]. destruct (has_rule os ImportRule); [|reflexivity]. now apply Quiet.
        * cbn [bind]. assert (h' = h) as ->.
          { apply S2. intros w' I. apply not_true_iff_false. intro X. rewrite (one_rule _ _ _ Ea X) in Hs. apply has_rule_iff in I. congruence. }
          destruct (has_rule os ImportRule); [|reflexivity]. now apply Quiet.
      + assert (Eq : (if has_rule os SuffixRule then upgrade_leaves read SuffixRule md (cst_id c) h else Ok h) = Ok h) by (destruct (has_rule os SuffixRule); [now apply Quiet|reflexivity]).
        rewrite Eq. cbn [bind]. destruct (has_rule os ImportRule) eqn:Hi.
        * apply has_rule_iff in Hi. exact (S1 _ Hi Eb).
        * f_equal. symmetry. apply S2. intros w' I. apply not_true_iff_false. intro X. rewrite (one_rule _ _ _ Eb X) in Hi. apply has_rule_iff in I. congruence.
      + assert (Eq : (if has_rule os SuffixRule then upgrade_leaves read SuffixRule md (cst_id c) h else Ok h) = Ok h) by (destruct (has_rule os SuffixRule); [now apply Quiet|reflexivity]).
        rewrite Eq. cbn [bind]. assert (h' = h) as ->.
        { destruct (is_visit (upgrade_types KeywordsRule) (u "visit_" ++ cst_type c)) eqn:Ek.
          - destruct (has_rule os KeywordsRule) eqn:Hk.
            + apply has_rule_iff in Hk. specialize (S1 _ Hk Ek). unfold upgrade_leaves in S1. congruence.
            + apply S2. intros w' I. apply not_true_iff_false. intro X. rewrite (one_rule _ _ _ Ek X) in Hk. apply has_rule_iff in I. congruence.
          - apply S2. intros [] _; assumption. }
        destruct (has_rule os ImportRule); [|reflexivity]. now apply Quiet.
    - assert (No : forall w, is_visit (upgrade_types w) (u "visit_" ++ cst_type c) = false).
      { intro w'. apply not_true_iff_false. intro X. apply types_listed in X. rewrite is_visit_type in X. congruence. }
      replace ys with (says_at w md (cst_id c) h ++ ys) by (rewrite (proj1 (Quiet w h (No w))); reflexivity).
      apply g_node with (h' := h); [|apply IH; auto]. unfold entered.
      assert (Eq : forall (b : bool) w, (if b then upgrade_leaves read w md (cst_id c) h else Ok h) = Ok h) by (intros [] w'; [apply Quiet, No|reflexivity]).
      rewrite Eq. cbn [bind]. apply Eq.
  Qed.
End Members.

Lemma enter_calls : forall c, filter (fun x => is_visit all_types (fst x)) (calls c) =
  map (fun c => (u "visit_" ++ cst_type c, c)) (filter (fun c => existsb (str_eqb (cst_type c)) all_types) (all_nodes c)).
Proof.
  intro c. transitivity (filter (fun x => has_method all_types [] (fst x)) (calls c)).
  { apply filter_ext. intro x. unfold has_method. cbn [is_leave existsb]. now rewrite orb_false_r. }
  rewrite filter_steps; [|plain_types|constructor].
  assert (E : filter (relevant all_types []) (steps c) = map (pair true) (filter (fun c => existsb (str_eqb (cst_type c)) all_types) (all_nodes c))).
  { transitivity (filter (fun x : bool * cst => existsb (str_eqb (cst_type (snd x))) all_types) (filter (fun x : bool * cst => fst x) (steps c))).
    - generalize (steps c). intro l. induction l as [|[[|] x] l IH]; [reflexivity| |].
      + cbn [filter fst]. change (relevant all_types [] (true, x)) with (existsb (str_eqb (cst_type x)) all_types). cbn [snd]. now rewrite IH.
      + cbn [filter fst]. change (relevant all_types [] (false, x)) with false. exact IH.
    - rewrite steps_enter. generalize (all_nodes c). intro l. induction l as [|x l IH]; [reflexivity|]. cbn [map filter snd]. rewrite IH. now destruct (existsb _ all_types). }
  rewrite E, map_map. apply map_ext. reflexivity.
Qed.

(** ** What is said is what is to be reported *)
Section Told.
  Context (read : module -> N -> item) (write : module -> N -> new_item -> repl) (code_range : expr -> expr -> expr) (md : module) (M : metadata) (W : well_read read md M).
  Context (suffixes : bool) (h0 : sets).

  Lemma import_told : forall i names imp js, (forall m, f_module imp = Some [m] -> ~ In 46%N m) ->
    import_reports write md i names (AnImportOf imp js) (import_says write md imp js).
  Proof.
    intros i names imp js Nm. unfold import_says. destruct (f_module imp) as [[|m [|m' ms]]|] eqn:Em; try (apply ir_no_import; left; rewrite Em; discriminate).
    destruct (f_names imp) as [l|] eqn:El; [|apply ir_no_import; now right]. specialize (Nm m eq_refl).
    assert (D : str_eqb m (u "fixit") = true \/ m <> u "fixit") by (destruct (str_eqb m (u "fixit")) eqn:Q; [now left|right; intros ->; rewrite str_eqb_refl in Q; discriminate]).
    assert (E : forall a, match dget (m ++ u "." ++ al_name a) deprecations, deprecated_alias m a with
      | Some (old, new), Some a' => m = u "fixit" /\ old = al_name a /\ renamed (al_name a) new /\ al_name a' = new /\
          ((al_as a = Some new /\ al_as a' = None) \/ (al_as a <> Some new /\ al_as a' = al_as a))
      | None, None => m = u "fixit" -> forall new, ~ renamed (al_name a) new
      | _, _ => False end).
    { intro a. pose proof (C69_alias m a Nm) as A. destruct (dget _ deprecations) as [[old new]|] eqn:Dg; unfold deprecated_alias in A |- *; rewrite Dg in A |- *; [|exact A].
      cbn [al_name al_as] in *. destruct A as (-> & R & S). split; [reflexivity|]. apply deprecations_iff in Dg. destruct Dg as (Eo & Ro).
      assert (al_name a = old) by (apply (app_inv_head (u "fixit.")); exact Eo). auto. }
    destruct D as [D|D].
    - apply str_eqb_eq in D. subst m. 
      enough (X : exists sel, keeps (fun aj : alias * N => exists new, renamed (al_name (fst aj)) new) (combine l js) sel /\
        Forall2 (fun aj x => exists new a', renamed (al_name (fst aj)) new /\ al_name a' = new /\
                 ((al_as (fst aj) = Some new /\ al_as a' = None) \/ (al_as (fst aj) <> Some new /\ al_as a' = al_as (fst aj))) /\
                 x = rename_say write md (snd aj) (al_name (fst aj)) new (ANewAlias a')) sel
          (flat_map (fun aj : alias * N => match dget (u "fixit" ++ u "." ++ al_name (fst aj)) deprecations, deprecated_alias (u "fixit") (fst aj) with
                            | Some (old, new), Some a' => [Say (snd aj) (Some (deprecation_text old new)) PosDefault (Some (write md (snd aj) (ANewAlias a')))]
                            | _, _ => []
                            end) (combine l js))) by (destruct X as (sel & K & X); eapply ir_import; eauto).
      generalize (combine l js). intro ajs. induction ajs as [|[a j] ajs (sel & K & X)]; [exists []; split; constructor|]. cbn [flat_map fst snd]. specialize (E a).
      destruct (dget _ deprecations) as [[old new]|]; destruct (deprecated_alias _ a) as [a'|]; try contradiction.
      + destruct E as (_ & -> & R & En & S). exists ((a, j) :: sel). split; [apply keeps_one; [exists new; exact R|exact K]|]. cbn [app]. constructor; [|exact X]. exists new, a'. auto.
      + exists sel. split; [apply keeps_not; [|exact K]; intros (new & R); exact (E eq_refl new R)|exact X].
    - replace (flat_map _ _) with (@nil say); [apply ir_no_import; left; rewrite Em; congruence|].
      generalize (combine l js). intro ajs. induction ajs as [|[a j] ajs IH]; [reflexivity|]. cbn [flat_map fst]. specialize (E a).
      destruct (dget _ deprecations) as [[old new]|]; destruct (deprecated_alias m a) as [a'|]; try contradiction; [destruct E; contradiction|exact IH].
  Qed.

  Lemma name_told : forall i names s, import_reports write md i names (AName s) (name_says write md i s names).
  Proof.
    intros i names s. unfold name_says. destruct names as [[|q qs]|]; try (apply ir_no_name; intros new qs' E; discriminate E).
    destruct (dget q deprecations) as [[old new]|] eqn:D.
    - apply deprecations_iff in D. destruct D as (-> & R). destruct (str_eqb s old) eqn:Q.
      + apply str_eqb_eq in Q. subst old. change (Say i _ _ _) with (rename_say write md i s new (ANewName new)). eapply ir_name; eauto.
      + apply ir_no_name. intros new' qs' E _. assert (E2 : u "fixit." ++ old = u "fixit." ++ s) by congruence. apply app_inv_head in E2. subst. rewrite str_eqb_refl in Q. discriminate.
    - apply ir_no_name. intros new qs' E R. assert (X : dget q deprecations = Some (s, new)) by (apply deprecations_iff; split; [congruence|exact R]). congruence.
  Qed.

  Lemma suffix_told : forall name j bs, NoDup bs -> (forall b, In b bs -> h0 b <> Some []) ->
    suffix_reports write md h0 (AClassOf name j bs) (map (fun new => Say j None PosDefault (Some (write md j (ANewName new)))) (fst (suffix_loop name bs h0))).
  Proof.
    intros name j bs Nd Ne. pose proof (suffix_pops name bs h0 Nd) as P. destruct (suffix_loop name bs h0) as [new [h'|e]].
    - destruct P as (_ & _ & rest & E). cbn [fst]. pose proof (C69_suffix name (map h0 bs)) as C. rewrite E in C. destruct C as (_ & sel & K & C).
      destruct C as [(stem & -> & ->)|(N & ->)]; [|now apply sr_no_suffix].
      assert (X : exists sel', keeps (fun b => exists qs, h0 b = Some (u "fixit.LintRule" :: qs)) bs sel' /\ sel = map h0 sel').
      { clear - K. remember (map h0 bs) as l eqn:El. revert bs El. induction K as [|x l l' Hx K IH|x l l' Hx K IH]; intros bs El; destruct bs as [|b bs]; try discriminate El.
        - exists []. split; [constructor|reflexivity].
        - injection El as -> ->. destruct (IH _ eq_refl) as (sel' & A & ->). exists (b :: sel'). split; [apply keeps_one; auto|reflexivity].
        - injection El as -> ->. destruct (IH _ eq_refl) as (sel' & A & ->). exists sel'. split; [apply keeps_not; auto|reflexivity]. }
      destruct X as (sel' & A & ->). rewrite map_length. replace (map _ (repeat stem (List.length sel'))) with (map (fun _ : N => Say j None PosDefault (Some (write md j (ANewName stem)))) sel').
      + now apply sr_suffix.
      + clear. induction sel' as [|b l IH]; [reflexivity|]. cbn [map List.length repeat]. now f_equal.
    - exfalso. destruct P as (b & I & E). exact (Ne b I E).
  Qed.

  Lemma call_told : forall i names args, call_reports write code_range md i (ACallOf names args)
    (flat_map (fun n => if existsb (str_eqb n) [u "fixit.InvalidTestCase"; u "fixit.ValidTestCase"]
                        then match convert_linecol code_range args with Some new => [Say i None PosDefault (Some (write md i (NewArguments new)))] | None => [] end
                        else []) names).
  Proof.
    intros i names args. left. pose proof (keywords_told code_range names args) as K. eexists names, args, _. split; [reflexivity|]. split; [exact K|]. clear K.
    induction names as [|n names IH]; [reflexivity|]. cbn [flat_map]. rewrite map_app. f_equal; [|exact IH]. destruct (existsb _ _); [|reflexivity]. destruct (convert_linecol code_range args); reflexivity.
  Qed.

  Lemma told_reports : forall w c, In c (all_nodes (d_tree M)) -> (w = SuffixRule -> suffixes = true) ->
    (suffixes = true -> forall c b, In c (all_nodes (d_tree M)) -> In b (bases_of (read md (cst_id c))) -> h0 b <> Some []) ->
    upgrade_reports read write code_range md M h0 (suffixes = true) w c (upgrade_says read write code_range w md (cst_id c) (view read md M suffixes w h0)).
  Proof.
    intros w c Ic Hw Nz. unfold upgrade_reports, upgrade_says. destruct w.
    - exists (view read md M suffixes ImportRule h0 (cst_id c)). split.
      + unfold view. destruct (suffixes && in_bases read md (all_nodes (d_tree M)) (cst_id c)) eqn:E; cbn [once].
        * apply andb_true_iff in E. destruct E as (Es & E). apply in_bases_iff in E. pose proof E as E2. apply in_flat_map in E2. destruct E2 as (x & Ix & Ib).
          specialize (Nz Es x _ Ix Ib). destruct (h0 (cst_id c)) as [[|q qs]|]; cbn [popped]; [congruence|now apply lo_rest|now apply lo_none].
        * apply lo_all. intros (Es & E2). apply in_bases_iff in E2. rewrite Es, E2 in E. discriminate E.
      + destruct (read md (cst_id c)) as [s|imp js|name j bs|names args|n] eqn:Er; try (apply ir_other; exact Logic.I).
        * apply name_told.
        * apply import_told. intros m Em. exact (wr_names _ _ _ W c imp js m Ic Er Em).
    - destruct (read md (cst_id c)) as [s|imp js|name j bs|names args|n] eqn:Er; try (apply sr_other; exact Logic.I).
      apply suffix_told.
      + pose proof (wr_apart _ _ _ W) as Ap. apply in_split in Ic. destruct Ic as (a & b & E). rewrite E, flat_map_app in Ap. cbn [flat_map] in Ap. rewrite Er in Ap. cbn [bases_of] in Ap.
        apply nodup_right in Ap. now apply nodup_left in Ap.
      + intros b Ib. apply (Nz (Hw eq_refl) c b Ic). now rewrite Er.
    - destruct (read md (cst_id c)) as [s|imp js|name j bs|names args|n] eqn:Er; try (right; split; [exact Logic.I|reflexivity]). apply call_told.
  Qed.
End Told.

(** ** The theorem *)

(** Linting a file without errors, with rules that share the sets of names: each of the three classes of fixit.upgrade reports what it is to, and
    FixitDeprecatedImport does not see the first name of a base class when FixitRemoveRuleSuffix is run, too. *)
Theorem C92_lint : forall read write code_range msg Y shared code who p autofix opts hook es,
  (forall F, fair_sets (y_world Y F)) -> (forall c md M, y_parse Y c = Ok md -> y_wrap Y md = Ok M -> well_read read md M) ->
  (forall F k, match who F k with Some w => code F k = upgrade_code read write code_range msg w | None => leaves_alone (code F k) end) ->
  (forall F cfg k k' w, selected Y F cfg k -> selected Y F cfg k' -> who F k = Some w -> who F k' = Some w -> k = k') ->
  run (fixit_file (sharing_tool sets Y shared code) p autofix opts hook) es (Returned tt) -> no_errors es ->
  exists F content F1 cfg F2 es' ks parts,
    es = ELook F :: ELook F1 :: ELook F2 :: es' /\ f_file F p = Some content /\ generate_config (y_env Y) F1 p None opts = Ok cfg /\
    NoDup ks /\ (forall k, In k ks <-> selected Y F2 cfg k) /\ violations (results es) = concat parts /\
    Forall2 (fun k vs => forall w, who F2 k = Some w -> exists md M h0 reports,
      y_parse Y content = Ok md /\ y_wrap Y md = Ok M /\ shared F2 cfg md = Ok h0 /\
      Forall2 (upgrade_reports read write code_range md M h0 (exists k', In k' ks /\ who F2 k' = Some SuffixRule) w) (all_nodes (d_tree M)) reports /\
      heard (y_unicode Y) M (as_code (code F2 k)) (concat reports) vs) ks parts.
Proof.
  intros read write code_range msg Y shared code who p autofix opts hook es Fa Wr Who Inj R Ne.
  destruct (file_any _ _ _ _ _ _ R Ne) as (F & content & F1 & cfg & F2 & es' & ks & Ees & Ef & Eg & Ec & D). clear R Ne.
  cbn [sharing_tool t_collect t_env t_parse t_visit t_udiff] in *.
  destruct (collect_rules (y_world Y F2) cfg (y_py Y)) as [[[ks' d]|e] s] eqn:Ecr; cbn [fst bind] in Ec; [|discriminate Ec]. injection Ec as ->.
  destruct (selected_in _ _ _ _ _ _ (Fa F2) Ecr) as (Nd & Sel).
  exists F, content, F1, cfg, F2, es', ks.
  destruct D as [(-> & V)|(md & rs & m & Ep & Ev & D)]; [exists []; rewrite V; repeat (split; [assumption|]); split; [reflexivity|constructor]|].
  destruct (shared F2 cfg md) as [h0|e] eqn:Eh; [|discriminate Ev]. cbn [bind] in Ev. destruct (y_wrap Y md) as [M|e] eqn:Ew; [|discriminate Ev]. cbn [bind] in Ev.
  destruct (run_members _ _ _ _ _ _ _ _ _ _) as [[[[xs h'] m'] n']|e] eqn:Er; [|discriminate Ev]. cbn [bind] in Ev. injection Ev as <- _.
  pose proof (Wr _ _ _ Ep Ew) as W. set (os := map (who F2) ks).
  assert (Mv0 : moved read write code_range msg (fun _ a b => b = a) os (map (fun k => new_member (code F2 k)) ks) (map (fun k => new_member (code F2 k)) ks)).
  { clear - Who. subst os. induction ks as [|k ks IH]; [constructor|]. cbn [map]. constructor; auto. specialize (Who F2 k). destruct (who F2 k); auto. }
  assert (Nos : NoDup (somes os)).
  { assert (Inj' : forall k k' w, In k ks -> In k' ks -> who F2 k = Some w -> who F2 k' = Some w -> k = k') by (intros k k' w I I'; apply (Inj F2 cfg); now apply Sel).
    clear - Nd Inj'. subst os. induction Nd as [|k ks Nk Nd IH]; [constructor|]. unfold somes. cbn [map flat_map]. fold (somes (map (who F2) ks)).
    assert (IH' : NoDup (somes (map (who F2) ks))) by (apply IH; intros x x' w I I'; apply Inj'; now right).
    destruct (who F2 k) as [w|] eqn:E; [|exact IH']. cbn [app]. constructor; [|exact IH']. intro I. unfold somes in I. apply in_flat_map in I. destruct I as (o & Io & Iw).
    apply in_map_iff in Io. destruct Io as (k' & Eo & Ik'). subst o. destruct (who F2 k') as [w'|] eqn:E'; [|destruct Iw]. destruct Iw as [->|[]].
    apply Nk. rewrite (Inj' k k' w (or_introl eq_refl) (or_intror Ik') E E'). exact Ik'. }
  pose proof (run_moved _ _ _ _ _ _ _ _ _ _ _ _ _ _ _ _ _ _ Mv0 Nos Er) as Mv.
  assert (With : has_rule os SuffixRule = true <-> exists k', In k' ks /\ who F2 k' = Some SuffixRule).
  { rewrite has_rule_iff. unfold somes, os. rewrite in_flat_map. split.
    - intros (o & Io & Iw). apply in_map_iff in Io. destruct Io as (k' & <- & Ik). exists k'. split; [exact Ik|]. destruct (who F2 k'); [|destruct Iw]. destruct Iw as [->|[]]. reflexivity.
    - intros (k' & Ik & E). exists (who F2 k'). split; [now apply in_map|]. rewrite E. now left. }
  change (t_class (sharing_tool sets Y shared code)) with cls in *. set (Sfx := exists k', In k' ks /\ who F2 k' = Some SuffixRule) in *. clearbody Sfx.
  assert (Pf : Forall2 (fun k (x : member sets) => forall w, who F2 k = Some w -> exists reports,
      Forall2 (upgrade_reports read write code_range md M h0 Sfx w) (all_nodes (d_tree M)) reports /\
      heard (y_unicode Y) M (as_code (code F2 k)) (concat reports) (r_violations (m_rule x))) ks xs).
  { assert (Each : forall k (x : member sets), In k ks -> (match who F2 k with Some w => m_code (new_member (code F2 k)) = upgrade_code read write code_range msg w /\
        exists ys, calling read write code_range md os w (calls (d_tree M)) h0 ys /\ say_all (y_unicode Y) M ys (m_rule (new_member (code F2 k))) = Ok (m_rule x) | None => leaves_alone (m_code (new_member (code F2 k))) end) ->
      forall w, who F2 k = Some w -> exists reports,
        Forall2 (upgrade_reports read write code_range md M h0 Sfx w) (all_nodes (d_tree M)) reports /\
        heard (y_unicode Y) M (as_code (code F2 k)) (concat reports) (r_violations (m_rule x))).
    { intros k x Ik H w E. rewrite E in H. destruct H as (_ & ys & G & Sy). apply calling_filter in G. rewrite enter_calls in G. apply calling_going in G; [|apply (wr_types _ _ _ W)].
      destruct (going_all read write code_range md M W (has_rule os ImportRule) (has_rule os SuffixRule) w h0 (all_nodes (d_tree M)) [] h0 ys) as (Ey & Nz); [reflexivity| |exact G|].
      { intro i. cbn [in_bases named existsb]. now rewrite !andb_false_r. }
      exists (map (fun c => upgrade_says read write code_range w md (cst_id c) (view read md M (has_rule os SuffixRule) w h0)) (all_nodes (d_tree M))). split.
      - assert (Pt : forall c, In c (all_nodes (d_tree M)) -> upgrade_reports read write code_range md M h0 (has_rule os SuffixRule = true) w c
          (upgrade_says read write code_range w md (cst_id c) (view read md M (has_rule os SuffixRule) w h0))).
        { intros c Ic. apply told_reports; auto. intros ->. apply has_rule_iff. unfold somes, os. apply in_flat_map. exists (Some SuffixRule). split; [rewrite <- E; now apply in_map|now left]. }
        clear - Pt With. revert Pt. generalize (all_nodes (d_tree M)). intros l Pt. induction l as [|c l IH]; [constructor|]. cbn [map]. constructor; [|apply IH; intros x I; apply Pt; now right].
        specialize (Pt c (or_introl eq_refl)). unfold upgrade_reports in *. destruct w; auto. destruct Pt as (names & Lo & Ir). exists names. split; [|exact Ir].
        destruct Lo as [s N|q qs T|T]; [apply lo_all|apply lo_rest|apply lo_none]; rewrite <- With; auto. 
      - rewrite <- flat_map_concat_map, <- Ey. cbn [m_rule new_member] in Sy.
        destruct (say_all_heard (y_unicode Y) M (as_code (code F2 k)) ys (new_rule (c_name (code F2 k)) (c_MESSAGE (code F2 k))) _ eq_refl eq_refl Sy) as (_ & _ & vs & Ev & Hd). rewrite Ev. exact Hd. }
    pose proof (moved_each _ _ _ _ _ _ _ _ _ _ Mv) as Mv'. clearbody os. clear - Mv' Each. induction Mv' as [|k x l xs Hk Mv' IH]; [constructor|]. constructor; [apply Each; [now left|exact Hk]|].
    apply IH. intros k' x' I. apply Each. now right. }
  assert (Fin : exists parts, violations (results es) = concat parts /\ Forall2 (fun k vs => forall w, who F2 k = Some w -> exists md M h0 reports,
      y_parse Y content = Ok md /\ y_wrap Y md = Ok M /\ shared F2 cfg md = Ok h0 /\
      Forall2 (upgrade_reports read write code_range md M h0 Sfx w) (all_nodes (d_tree M)) reports /\
      heard (y_unicode Y) M (as_code (code F2 k)) (concat reports) vs) ks parts).
  { revert D. generalize (violations (results es)). unfold reported. clear - Pf Ep Ew Eh. induction Pf as [|k x l xs Hk Pf IH]; intros vs D; cbn [map flat_map] in D.
    - inversion D; subst. exists []. split; [reflexivity|constructor].
    - apply Forall2_app_inv_l in D. destruct D as (v1 & v2 & D1 & D2 & ->). destruct (IH _ D2) as (parts & -> & A). exists (v1 :: parts). split; [reflexivity|]. constructor; [|exact A].
      intros w E. destruct (Hk w E) as (reports & Fr & Hd). exists md, M, h0, reports. repeat (split; [assumption|]). eapply delivered_heard; eauto. }
  destruct Fin as (parts & V & Fin). exists parts. repeat (split; [assumption|]). exact Fin.
Qed.
