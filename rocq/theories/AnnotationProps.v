(** * C66: rules about annotations *)
From Coq Require Import String List NArith Bool Arith Lia.
From Verif Require Import Base PyStr Py Classes ClassesSpec ClassesProps Trees TreesSpec TreesFacts.
Import ListNotations.
Set Implicit Arguments.

(** ** Types from typing *)
Lemma typing_same : forall t s, fst (traverse typing_types t s) = s.
Proof.
  induction t as [i k cs IH] using node_induction. intro s. rewrite traverse_eq.
  assert (L : forall l s, Forall (fun t => forall s, fst (traverse typing_types t s) = s) l -> fst (traverse_all typing_types l s) = s).
  { induction l as [|c l IHl]; intros s0 F; [reflexivity|]. inversion F as [|? ? Fc Fl]; subst. cbn [traverse_all].
    specialize (Fc s0). destruct (traverse typing_types c s0) as [s1 r1]. cbn [fst] in Fc. subst s1. specialize (IHl s0 Fl).
    destruct (traverse_all typing_types l s0). exact IHl. }
  assert (D : k = AnnotationNode \/ (fst (v_visit typing_types (Node i k cs) s) = s /\ fst (v_leave typing_types (Node i k cs) s) = s)).
  { destruct k; auto; right; split; reflexivity. }
  destruct D as [->|[V1 V2]].
  - cbn [typing_types v_visit node_kind]. specialize (L cs (Datatypes.S s) IH). destruct (traverse_all typing_types cs (Datatypes.S s)) as [s2 r2].
    cbn [fst] in L. subst. cbn. lia.
  - destruct (v_visit typing_types (Node i k cs) s) as [s1 r1]. cbn [fst] in V1. subst s1. specialize (L cs s IH).
    destruct (traverse_all typing_types cs s) as [s2 r2]. cbn [fst] in L. subst. destruct (v_leave typing_types (Node i k cs) s). exact V2.
Qed.
Lemma typing_same_all : forall l s, fst (traverse_all typing_types l s) = s.
Proof.
  induction l as [|c l IHl]; intros s0; [reflexivity|]. cbn [traverse_all]. pose proof (typing_same c s0) as Fc.
  destruct (traverse typing_types c s0) as [s1 r1]. cbn [fst] in Fc. subst s1. specialize (IHl s0).
  destruct (traverse_all typing_types l s0). exact IHl.
Qed.

Lemma typing_state : forall p, state_at typing_types 0 p <> 0 <-> in_annotation p.
Proof.
  induction p as [|[a bs] p IH].
  - cbn. split; [congruence|intros (a & bs & [] & _)].
  - cbn [state_at]. rewrite typing_same_all.
    assert (D : is_annotation a \/ (~ is_annotation a /\ fst (v_visit typing_types a (state_at typing_types 0 p)) = state_at typing_types 0 p)).
    { unfold is_annotation, typing_types. cbn [v_visit]. destruct (node_kind a); auto; right; split; auto; discriminate. }
    destruct D as [D|[D ->]].
    + split; [intros _; exists a, bs; simpl; auto|]. intros _. unfold typing_types. cbn [v_visit]. rewrite D. discriminate.
    + rewrite IH. split; intros (b & cs & I & A); [exists b, cs; simpl; auto|]. destruct I as [E|I]; [injection E as <- <-; contradiction|].
      exists b, cs. auto.
Qed.

(** A name of a builtin container in an annotation that can only stand for one of the four builtins; [y] is the name
    of its counterpart in typing. *)
Inductive counterpart : str -> str -> Prop :=
| c_dict : counterpart (u "dict") (u "Dict")
| c_list : counterpart (u "list") (u "List")
| c_set : counterpart (u "set") (u "Set")
| c_tuple : counterpart (u "tuple") (u "Tuple").
Definition builtin_container (pn : place * node) (y : str) (in_scope : str -> bool) : Prop :=
  exists x names, node_kind (snd pn) = NameNode x names in_scope /\ counterpart x y /\ in_annotation (fst pn) /\
    (forall q, In q names -> exists b y', counterpart b y' /\ q = u "builtins." ++ b).

Lemma counterpart_iff : forall x y, counterpart x y <-> dget x replaced_builtins = Some y.
Proof.
  intros x y. split; [destruct 1; reflexivity|]. unfold replaced_builtins. cbn [dget].
  repeat match goal with |- context [str_eqb ?a ?b] => let Q := fresh in destruct (str_eqb a b) eqn:Q; [apply str_eqb_eq in Q; subst; intro H'; injection H' as <-; constructor|] end.
  discriminate.
Qed.
Lemma builtin_iff : forall q, existsb (fun b : str * str => str_eqb q (u "builtins." ++ fst b)) replaced_builtins = true <-> exists b y, counterpart b y /\ q = u "builtins." ++ b.
Proof.
  intro q. rewrite existsb_exists. split.
  - intros ([x y] & I & Q). apply str_eqb_eq in Q. exists x, y. split; auto. cbn in I. repeat (destruct I as [E|I]; [injection E as <- <-; constructor|]). destruct I.
  - intros (b & y & C & ->). exists (b, y). split; [destruct C; simpl; auto 6|apply str_eqb_refl].
Qed.

(** Exactly these names are reported, in the order of the text; the replacement is the counterpart when it is in scope. *)
Theorem C66_typing : forall t,
  exists sel, keeps (fun pn => exists y sc, builtin_container pn y sc) (preorder [] t) sel /\
    Forall2 (fun pn r => n_node r = node_id (snd pn) /\ exists y sc, builtin_container pn y sc /\ n_text r = y /\
               n_repl r = if sc y then Some (Name y) else None)
            sel (snd (traverse typing_types t 0)).
Proof.
  intro t. pose proof (@visit_reports _ typing_types) as R.
  specialize (R ltac:(intros x s; destruct x as [i k cs]; destruct k; reflexivity) 0 t []). cbn [state_at] in R. rewrite R. clear R.
  apply select_rel. intros [p n] _. cbn [fst snd]. unfold builtin_container. cbn [fst snd]. pose proof (typing_state p) as St.
  unfold typing_types at 1 3. cbn [v_visit]. fold typing_types.
  destruct (node_kind n) as [| | | |x names sc| | | |] eqn:K; cbn [snd];
    try (right; split; [intros (y & sc' & x' & ns & E & _); discriminate|reflexivity]).
  destruct (dget x replaced_builtins) as [y|] eqn:D.
  - pose proof (proj2 (counterpart_iff _ _) D) as C. destruct (Nat.eqb (state_at typing_types 0 p) 0) eqn:Z; cbn [negb andb].
    + apply Nat.eqb_eq in Z. right. split; [|reflexivity]. intros (y' & sc' & x' & ns & E & _ & I & _). apply St in I. contradiction.
    + apply Nat.eqb_neq in Z. destruct (forallb _ names) eqn:F.
      * left. assert (G : exists x0 names0, NameNode x names sc = NameNode x0 names0 sc /\ counterpart x0 y /\ in_annotation p /\
                     (forall q, In q names0 -> exists b y', counterpart b y' /\ q = u "builtins." ++ b)).
        { exists x, names. repeat split; auto; [now apply St|]. intros q I. rewrite forallb_forall in F. apply builtin_iff. auto. }
        split; [eauto|]. eexists. split; [reflexivity|]. cbn [n_node n_text n_repl]. split; [reflexivity|]. exists y, sc. auto.
      * right. split; [|reflexivity]. intros (y' & sc' & x' & ns & E & _ & _ & H). assert (names = ns) by congruence. subst ns.
        apply not_true_iff_false in F. apply F. apply forallb_forall. intros q I. apply builtin_iff. auto.
  - right. split; [|reflexivity]. intros (y' & sc' & x' & ns & E & C & _). assert (x = x') by congruence. subst x'. apply counterpart_iff in C. congruence.
Qed.

Definition name_node (i : N) (x q : string) : node := Node i (NameNode (u x) [u q] (fun y => str_eqb y (u "List"))) [].
Example C66_typing_example :
  snd (traverse typing_types (Node 0 (OtherNode 0) [name_node 1 "list" "builtins.list";
    Node 2 AnnotationNode [name_node 3 "list" "builtins.list"; Node 4 (SubscriptNode []) [name_node 5 "dict" "builtins.dict"; name_node 6 "set" "m.set"]];
    name_node 7 "dict" "builtins.dict"]) 0)
  = [Note 3 (u "List") (Some (Name (u "List"))); Note 5 (u "Dict") None].
Proof. vm_compute. reflexivity. Qed.

(** ** String annotations *)
Definition has_import (t : node) : Prop := exists n, within n t /\ is_future_import n.

Lemma future_import_iff : forall from names, future_import from names = true <->
  exists l, from = Some (Name (u "__future__")) /\ names = Some l /\ In (Name (u "annotations")) l.
Proof.
  intros from names. unfold future_import. split.
  - destruct from as [e|]; [|discriminate]. destruct e; try discriminate. destruct names as [l|]; [|discriminate].
    rewrite andb_true_iff, str_eqb_eq, existsb_exists. intros (-> & x & I & E). apply is_name_iff in E. subst x. eauto.
  - intros (l & -> & -> & I). rewrite str_eqb_refl. cbn [andb]. apply existsb_exists. exists (Name (u "annotations")). split; auto.
Qed.
Lemma is_literal_iff : forall names, is_literal names = true <-> In (u "typing.Literal") names \/ In (u "typing_extensions.Literal") names.
Proof.
  intro names. unfold is_literal. rewrite existsb_exists. split.
  - intros (x & I & E). apply orb_true_iff in E. rewrite !str_eqb_eq in E. destruct E; subst; auto.
  - intros [I|I]; eexists; (split; [exact I|]); rewrite ?str_eqb_refl; auto using orb_true_r.
Qed.

Lemma drop_cons : forall i l, ~ In i l -> drop i (i :: l) = l.
Proof.
  intros i l N. unfold drop. cbn [filter]. rewrite N.eqb_refl. cbn [negb].
  induction l as [|x l IH]; [reflexivity|]. cbn [filter]. destruct (N.eqb_spec x i) as [->|E]; [exfalso; apply N; simpl; auto|].
  cbn [negb]. rewrite IH; auto. intro I. apply N. simpl. auto.
Qed.
Lemma drop_none : forall i l, ~ In i l -> drop i l = l.
Proof.
  intros i l N. pose proof (drop_cons i l N) as D. unfold drop in D. cbn [filter] in D. rewrite N.eqb_refl in D. exact D.
Qed.

(** After a subtree of new nodes the sets are as before it. *)
Definition fresh (t : list N) (s : strings) : Prop := forall i, In i t -> ~ In i (s_annotation s) /\ ~ In i (s_literal s).

Lemma nodup_app : forall A (a b : list A), NoDup (a ++ b) -> NoDup a /\ NoDup b /\ forall x, In x a -> ~ In x b.
Proof.
  intros A a b. induction a as [|x a IH]; cbn [app]; intro N; [repeat split; auto; constructor|]. inversion N as [|? ? N1 N2]; subst.
  destruct (IH N2) as (A1 & A2 & A3). repeat split; auto.
  - constructor; auto. intro I. apply N1. apply in_or_app. auto.
  - intros y [<-|I]; auto. intro I. apply N1. apply in_or_app. auto.
Qed.

Definition unchanged (s s' : strings) (has : Prop) : Prop :=
  s_annotation s' = s_annotation s /\ s_literal s' = s_literal s /\ (s_future s' = true <-> s_future s = true \/ has).

Lemma strings_after : forall t s, NoDup (ids t) -> fresh (ids t) s -> unchanged s (fst (traverse string_types t s)) (has_import t).
Proof.
  induction t as [i k cs IH] using node_induction. intros s N F.
  assert (L : forall l s, Forall (fun t => forall s, NoDup (ids t) -> fresh (ids t) s -> unchanged s (fst (traverse string_types t s)) (has_import t)) l ->
    NoDup (flat_map ids l) -> fresh (flat_map ids l) s -> unchanged s (fst (traverse_all string_types l s)) (exists c, In c l /\ has_import c)).
  { induction l as [|c l IHl]; intros s0 Fo N0 F0; [repeat split; auto; intros [|(c & [] & _)]; auto|].
    inversion Fo as [|? ? Fc Fl]; subst. cbn [flat_map] in N0, F0. apply nodup_app in N0. destruct N0 as (N1 & N2 & _).
    specialize (Fc s0 N1 ltac:(intros j I; apply F0, in_or_app; auto)). cbn [traverse_all].
    destruct (traverse string_types c s0) as [s1 r1]. cbn [fst] in Fc. destruct Fc as (E1 & E2 & E3).
    specialize (IHl s1 Fl N2 ltac:(intros j I; rewrite E1, E2; apply F0, in_or_app; auto)).
    destruct (traverse_all string_types l s1) as [s2 r2]. cbn [fst] in *. destruct IHl as (G1 & G2 & G3).
    split; [congruence|]. split; [congruence|]. rewrite G3, E3. split.
    - intros [[H|H]|(c' & I & H)]; auto; right; [exists c|exists c']; simpl; auto.
    - intros [H|(c' & [<-|I] & H)]; auto. right. exists c'. auto. }
  cbn [ids] in N, F. inversion N as [|? ? Ni Ncs]; subst.
  assert (Fi : ~ In i (s_annotation s) /\ ~ In i (s_literal s)) by (apply F; simpl; auto).
  assert (Fcs : fresh (flat_map ids cs) s) by (intros j I; apply F; simpl; auto).
  assert (Hw : has_import (Node i k cs) <-> is_future_import (Node i k cs) \/ exists c, In c cs /\ has_import c).
  { unfold has_import. split.
    - intros (n & W & I). apply within_children in W. destruct W as [->|(c & Ic & W)]; [left; auto|right; exists c; split; auto; exists n; auto].
    - intros [I|(c & Ic & n & W & I)]; [exists (Node i k cs); split; auto; constructor|]. exists n. split; auto. eapply within_below; eauto. }
  assert (Hp : (exists from names, k = ImportFromNode from names) \/ ~ is_future_import (Node i k cs)).
  { destruct k; try (right; intros (l & E & _); discriminate). left. eauto. }
  rewrite traverse_eq. unfold unchanged. rewrite Hw.
  destruct k as [| | | | |from names|names| |]; cbn [string_types v_visit v_leave node_kind].
  1-3,5,8-9: destruct Hp as [(? & ? & E)|Hp]; [discriminate|];
      specialize (L cs s IH Ncs Fcs); destruct (traverse_all string_types cs s) as [s2 r2]; cbn [fst] in *;
      destruct L as (L1 & L2 & L3); split; [exact L1|]; split; [exact L2|]; rewrite L3; tauto.
  - (* AnnotationNode *)
    destruct Hp as [(? & ? & E)|Hp]; [discriminate|]. cbn [node_id].
    specialize (L cs (Strings (i :: s_annotation s) (s_literal s) (s_future s)) IH Ncs).
    destruct L as (L1 & L2 & L3).
    { intros j I. cbn [s_annotation s_literal]. split; [|apply Fcs; auto]. intros [<-|K]; [contradiction|]. destruct (Fcs j I); contradiction. }
    destruct (traverse_all string_types cs _) as [s2 r2]. cbn [fst s_annotation s_literal s_future] in *. rewrite L1, drop_cons by (destruct Fi; assumption).
    split; [reflexivity|]. split; [exact L2|]. rewrite L3. tauto.
  - (* ImportFromNode *)
    assert (Hf : future_import from names = true <-> is_future_import (Node i (ImportFromNode from names) cs)).
    { rewrite future_import_iff. unfold is_future_import. cbn [node_kind]. split.
      - intros (l & -> & -> & I). eauto.
      - intros (l & E & I). injection E as -> ->. eauto. }
    destruct (future_import from names).
    + pose proof (proj1 Hf eq_refl) as Hy. specialize (L cs (Strings (s_annotation s) (s_literal s) true) IH Ncs Fcs).
      destruct (traverse_all string_types cs _) as [s2 r2]. cbn [fst s_annotation s_literal s_future] in *. destruct L as (L1 & L2 & L3).
      split; [exact L1|]. split; [exact L2|]. rewrite L3. tauto.
    + assert (Hn : ~ is_future_import (Node i (ImportFromNode from names) cs)) by (intro K; apply Hf in K; discriminate).
      specialize (L cs s IH Ncs Fcs). destruct (traverse_all string_types cs s) as [s2 r2]. cbn [fst] in *. destruct L as (L1 & L2 & L3).
      split; [exact L1|]. split; [exact L2|]. rewrite L3. tauto.
  - (* SubscriptNode *)
    destruct Hp as [(? & ? & E)|Hp]; [discriminate|]. cbn [node_id].
    destruct (s_future s && nonempty (s_annotation s) && is_literal names) eqn:A.
    + apply andb_true_iff in A. destruct A as [A _]. apply andb_true_iff in A. destruct A as [A _].
      specialize (L cs (Strings (s_annotation s) (i :: s_literal s) (s_future s)) IH Ncs).
      destruct L as (L1 & L2 & L3).
      { intros j I. cbn [s_annotation s_literal]. split; [apply Fcs; auto|]. intros [<-|K]; [contradiction|]. destruct (Fcs j I); contradiction. }
      destruct (traverse_all string_types cs _) as [s2 r2]. cbn [fst s_annotation s_literal s_future] in *.
      assert (F2 : s_future s2 = true) by (apply L3; auto). rewrite F2. cbn [fst s_annotation s_literal s_future]. rewrite L2, drop_cons by (destruct Fi; assumption).
      split; [exact L1|]. split; [reflexivity|]. rewrite F2 in L3. rewrite L3. tauto.
    + specialize (L cs s IH Ncs Fcs). destruct (traverse_all string_types cs s) as [s2 r2]. cbn [fst] in *. destruct L as (L1 & L2 & L3).
      destruct (s_future s2) eqn:F2; cbn [fst s_annotation s_literal s_future]; [rewrite L2, drop_none by (destruct Fi; assumption)|]; rewrite ?F2;
        (split; [exact L1|]; split; [congruence || exact L2|]; rewrite L3; tauto).
Qed.

Lemma strings_after_all : forall l s, NoDup (flat_map ids l) -> fresh (flat_map ids l) s ->
  unchanged s (fst (traverse_all string_types l s)) (exists c, In c l /\ has_import c).
Proof.
  induction l as [|c l IHl]; intros s0 N0 F0; [repeat split; auto; intros [|(c & [] & _)]; auto|].
  cbn [flat_map] in N0, F0. apply nodup_app in N0. destruct N0 as (N1 & N2 & _).
  pose proof (strings_after c N1 (s := s0) ltac:(intros j I; apply F0, in_or_app; auto)) as Fc. cbn [traverse_all].
  destruct (traverse string_types c s0) as [s1 r1]. cbn [fst] in Fc. destruct Fc as (E1 & E2 & E3).
  specialize (IHl s1 N2 ltac:(intros j I; rewrite E1, E2; apply F0, in_or_app; auto)).
  destruct (traverse_all string_types l s1) as [s2 r2]. cbn [fst] in *. destruct IHl as (G1 & G2 & G3).
  split; [congruence|]. split; [congruence|]. rewrite G3, E3. split.
  - intros [[H|H]|(c' & I & H)]; auto; right; [exists c|exists c']; simpl; auto.
  - intros [H|(c' & [<-|I] & H)]; auto. right. exists c'. auto.
Qed.

Definition start : strings := Strings [] [] false.

Lemma strings_state : forall p, NoDup (place_ids p) ->
  let s := state_at string_types start p in
  (forall i, In i (s_annotation s) \/ In i (s_literal s) -> In i (place_ids p)) /\
  (s_annotation s <> [] <-> in_annotation p) /\ (s_literal s <> [] <-> in_literal p) /\ (s_future s = true <-> future_before p).
Proof.
  induction p as [|[a bs] p IH]; intros N s.
  - cbn in s. subst s. cbn. repeat split; try congruence; try discriminate; try tauto.
    + intros (a & bs & [] & _). + intros ([|] & a & b & o & ns & E & _); discriminate. + intros (a & bs & [] & _).
  - cbn [place_ids flat_map fst snd] in N. fold (place_ids p) in N.
    change ((node_id a :: flat_map ids bs) ++ place_ids p) with (node_id a :: (flat_map ids bs ++ place_ids p)) in N.
    inversion N as [|? ? N1 N2]; subst. destruct (nodup_app _ _ N2) as (Nb & Np & Nbp). destruct (IH Np) as (I1 & I2 & I3 & I4). clear IH.
    set (s0 := state_at string_types start p) in *. set (s1 := fst (v_visit string_types a s0)).
    assert (F1 : fresh (flat_map ids bs) s1).
    { intros j Ij. assert (Z : ~ In j (s_annotation s0) /\ ~ In j (s_literal s0)) by (split; intro K; apply (Nbp j Ij); apply I1; auto).
      assert (Zi : node_id a <> j) by (intros <-; apply N1, in_or_app; auto).
      subst s1. unfold string_types. cbn [v_visit]. destruct (node_kind a) as [| | | | |from names|names| |]; cbn [fst]; auto.
      - cbn [s_annotation s_literal]. simpl. tauto.
      - destruct (future_import _ _); cbn [s_annotation s_literal]; auto.
      - destruct (_ && _); cbn [s_annotation s_literal]; simpl; tauto. }
    pose proof (strings_after_all bs Nb F1) as U.
    assert (Es : s = fst (traverse_all string_types bs s1)) by reflexivity. rewrite <- Es in U. destruct U as (U1 & U2 & U3). rewrite U1, U2, U3. clear Es U1 U2 U3.
    assert (V : (forall i, In i (s_annotation s1) \/ In i (s_literal s1) -> i = node_id a \/ In i (place_ids p)) /\
      (s_annotation s1 <> [] <-> is_annotation a \/ in_annotation p) /\
      (s_literal s1 <> [] <-> in_literal p \/ (exists names, node_kind a = SubscriptNode names /\ (In (u "typing.Literal") names \/ In (u "typing_extensions.Literal") names) /\ in_annotation p /\ future_before p)) /\
      (s_future s1 = true <-> is_future_import a \/ future_before p)).
    { subst s1. unfold string_types, is_annotation, is_future_import. cbn [v_visit].
      destruct (node_kind a) as [| | | | |from names|names| |] eqn:K; cbn [fst].
      1-3,5,8-9: split; [intros i H; right; auto|]; split; [rewrite I2; split; [auto|intros [E|H]; [discriminate|auto]]|];
         split; [rewrite I3; split; [auto|intros [H|(ns & E & _)]; [auto|discriminate]]|]; rewrite I4; split; [auto|intros [(l & E & _)|H]; [discriminate|auto]].
      - cbn [s_annotation s_literal s_future]. split; [intros i [[<-|H]|H]; auto|]. split; [split; [auto|discriminate]|].
        split; [rewrite I3; split; [auto|intros [H|(ns & E & _)]; [auto|discriminate]]|]. rewrite I4; split; [auto|intros [(l & E & _)|H]; [discriminate|auto]].
      - assert (Hf : future_import from names = true <-> exists l, ImportFromNode from names = ImportFromNode (Some (Name (u "__future__"))) (Some l) /\ In (Name (u "annotations")) l).
        { rewrite future_import_iff. split; [intros (l & -> & -> & I); eauto|]. intros (l & E & I). injection E as -> ->. eauto. }
        rewrite <- Hf. destruct (future_import from names); cbn [s_annotation s_literal s_future]; (split; [intros i H; right; auto|]);
        (split; [rewrite I2; split; [auto|intros [E|H]; [discriminate|auto]]|]);
        (split; [rewrite I3; split; [auto|intros [H|(ns & E & _)]; [auto|discriminate]]|]); rewrite ?I4; intuition congruence.
      - assert (Ht : s_future s0 && nonempty (s_annotation s0) && is_literal names = true <->
                     (In (u "typing.Literal") names \/ In (u "typing_extensions.Literal") names) /\ in_annotation p /\ future_before p).
        { rewrite !andb_true_iff, is_literal_iff, I4, <- I2. destruct (s_annotation s0); cbn [nonempty]; intuition congruence. }
        destruct (_ && _ && _); cbn [s_annotation s_literal s_future].
        + split; [intros i [H|[<-|H]]; auto|]. split; [rewrite I2; split; [auto|intros [E|H]; [discriminate|auto]]|].
          split; [split; [intros _|discriminate]|].
          * right. exists names. split; [reflexivity|]. apply Ht. reflexivity.
          * rewrite I4; split; [auto|intros [(l & E & _)|H]; [discriminate|auto]].
        + split; [intros i H; right; auto|]. split; [rewrite I2; split; [auto|intros [E|H]; [discriminate|auto]]|].
          split; [rewrite I3; split; [auto|]|rewrite I4; split; [auto|intros [(l & E & _)|H]; [discriminate|auto]]].
          intros [H|(ns & E & H)]; auto. injection E as <-. apply Ht in H. discriminate. }
    destruct V as (V1 & V2 & V3 & V4). split; [|split; [|split]].
    + intros i H. cbn [place_ids flat_map fst snd]. fold (place_ids p). destruct (V1 i H) as [->|H']; [simpl; auto|]. apply in_or_app. auto.
    + rewrite V2. unfold in_annotation. split.
      * intros [A|(b & cs & I & A)]; [exists a, bs|exists b, cs]; simpl; auto.
      * intros (b & cs & [E|I] & A); [injection E as <- <-; auto|]. right. exists b, cs. auto.
    + rewrite V3. unfold in_literal. split.
      * intros [(inner & b & before & outer & ns & -> & R)|(ns & K & R)]; [exists ((a, bs) :: inner), b, before, outer, ns; auto|].
        exists [], a, bs, p, ns. tauto.
      * intros (inner & b & before & outer & ns & E & K & R). destruct inner as [|q inner].
        -- cbn in E. injection E as <- <- <-. right. exists ns. tauto.
        -- injection E as <- ->. left. exists inner, b, before, outer, ns. tauto.
    + rewrite V4. unfold future_before. split.
      * intros [[I|(b & cs & I & R)]|(c & I & n & W & Hf)]; [exists a, bs; simpl; auto|exists b, cs; simpl; auto|].
        exists a, bs. simpl. split; auto. right. exists c, n. auto.
      * intros (b & cs & [E|I] & R).
        -- injection E as <- <-. destruct R as [R|(c & n & I & W & Hf)]; auto. right. exists c. split; auto. exists n. auto.
        -- left. right. exists b, cs. auto.
Qed.

Definition is_string (n : node) (parsed : option expr) : Prop := node_kind n = StringNode parsed.

(** Exactly the strings in annotations after the import and outside Literal[...] are reported, in the order of the text;
    the replacement is the text as an expression, if it is one. *)
Theorem C66_strings : forall t, distinct t ->
  exists sel, keeps (fun pn => (exists e, is_string (snd pn) e) /\ in_annotation (fst pn) /\ future_before (fst pn) /\ ~ in_literal (fst pn)) (preorder [] t) sel /\
    Forall2 (fun pn r => n_node r = node_id (snd pn) /\ is_string (snd pn) (n_repl r)) sel (snd (traverse string_types t start)).
Proof.
  intros t Dt. pose proof (@visit_reports _ string_types) as R.
  specialize (R ltac:(intros x s; destruct x as [i k cs]; destruct k; try reflexivity; cbn; destruct (s_future s); reflexivity) start t []). cbn [state_at] in R. rewrite R. clear R.
  apply select_rel. intros [p n] I. cbn [fst snd]. unfold distinct in Dt. rewrite preorder_ids in Dt.
  pose proof (@place_distinct t [] Dt p n I) as Np. apply nodup_app in Np. destruct Np as (Np & _). destruct (strings_state p Np) as (_ & S2 & S3 & S4).
  unfold is_string. unfold string_types at 1 3. cbn [v_visit]. fold string_types.
  destruct (node_kind n) as [| | | | | | |e|] eqn:K; cbn [snd]; try (right; split; [intros ((e' & E) & _); discriminate|reflexivity]).
  assert (T : s_future (state_at string_types start p) && nonempty (s_annotation (state_at string_types start p)) && negb (nonempty (s_literal (state_at string_types start p))) = true
    <-> in_annotation p /\ future_before p /\ ~ in_literal p).
  { rewrite !andb_true_iff, S4, <- S2, <- S3, negb_true_iff. destruct (s_annotation _), (s_literal _); cbn [nonempty]; intuition congruence. }
  destruct (_ && _ && _).
  - left. destruct (proj1 T eq_refl) as (T1 & T2 & T3). split; [eauto|]. eexists. split; [reflexivity|]. auto.
  - right. split; [|reflexivity]. intros (_ & H). apply T in H. discriminate.
Qed.

Definition str_node (i : N) (x : str) := Node i (StringNode (Some (Name x))) [].
Definition future_node (i : N) := Node i (ImportFromNode (Some (Name (u "__future__"))) (Some [Name (u "annotations")])) [].
Example C66_strings_example :
  let t := Node 0 (OtherNode 0) [
    Node 1 AnnotationNode [str_node 2 (u "A")]; future_node 3; Node 4 AnnotationNode [str_node 5 (u "B")]; str_node 6 (u "C");
    Node 7 AnnotationNode [Node 8 (SubscriptNode [u "typing.Literal"]) [str_node 9 (u "D")]; Node 10 (SubscriptNode [u "typing.List"]) [str_node 11 (u "E")]]] in
  distinct t /\ snd (traverse string_types t start) = [Note 5 [] (Some (Name (u "B"))); Note 11 [] (Some (Name (u "E")))].
Proof. split; [|vm_compute; reflexivity]. vm_compute. repeat (constructor; [cbn [List.In]; intuition discriminate|]). constructor. Qed.

(** Only Literal is known to hold strings that are no types: the metadata of Annotated[...] is rewritten as well. *)
Definition in_annotated (p : place) : Prop :=
  exists a bs names, In (a, bs) p /\ node_kind a = SubscriptNode names /\ In (u "typing.Annotated") names.
Theorem C66_metadata_refuted : ~ (forall t p n r, distinct t -> In (p, n) (preorder [] t) ->
  In (Note (node_id n) [] (Some r)) (snd (traverse string_types t start)) -> ~ in_annotated p).
Proof.
  intro H.
  set (s := str_node 4 (u "metres")). set (sub := Node 3 (SubscriptNode [u "typing.Annotated"]) [s]). set (an := Node 2 AnnotationNode [sub]).
  set (t := Node 0 (OtherNode 0) [future_node 1; an]).
  apply (H t [(sub, []); (an, []); (t, [future_node 1])] s (Name (u "metres"))).
  - vm_compute. repeat (constructor; [cbn [List.In]; intuition discriminate|]). constructor.
  - vm_compute. auto 6.
  - vm_compute. auto.
  - exists sub, [], [u "typing.Annotated"]. cbn [node_kind sub]. simpl. auto.
Qed.

(** ** Union[T, None] *)

(** Types as sets of values. *)
Inductive member {V} (none : V) (den : expr -> V -> Prop) : expr * list element -> V -> Prop :=
| union_member : forall es e v, In (Index e) es -> den e v -> member none den (Name (u "Union"), es) v
| optional_none : forall e, member none den (Name (u "Optional"), [Index e]) none
| optional_member : forall e v, den e v -> member none den (Name (u "Optional"), [Index e]) v.

(** Reported are the unions of two types one of which is None; when there is another type and Optional is in scope,
    the replacement is Optional of the other type. *)
Theorem C66_union : forall scope value es,
  match union_to_optional scope value es with
  | None => ~ (value = Name (u "Union") /\ exists e, es = [Index e; Index (Name (u "None"))] \/ es = [Index (Name (u "None")); Index e])
  | Some repl =>
      value = Name (u "Union") /\
      exists e, (es = [Index e; Index (Name (u "None"))] \/ es = [Index (Name (u "None")); Index e]) /\
        ((scope = true /\ e <> Name (u "None") /\ repl = Some (Name (u "Optional"), [Index e])) \/
         ((scope = false \/ e = Name (u "None")) /\ repl = None))
  end.
Proof.
  intros scope value es. unfold union_to_optional. destruct (union_with_none value es) eqn:U.
  - unfold union_with_none in U. apply andb_true_iff in U. destruct U as [U1 U2]. apply is_name_iff in U1. split; [exact U1|].
    destruct es as [|x1 l1]; try discriminate. destruct x1 as [a|]; try discriminate. destruct l1 as [|x2 l2]; try discriminate. destruct x2 as [b|]; try discriminate.
    destruct l2; try discriminate. cbn [filter is_none_element].
    destruct (is_name (u "None") a) eqn:A, (is_name (u "None") b) eqn:B; try discriminate; cbn [negb filter List.length].
    + apply is_name_iff in A, B. subst. exists (Name (u "None")). split; auto. right. destruct scope; auto.
    + apply is_name_iff in A. subst. exists b. split; auto. assert (b <> Name (u "None")) by (intro K; apply is_name_iff in K; congruence). destruct scope; auto.
    + apply is_name_iff in B. subst. exists a. split; auto. assert (a <> Name (u "None")) by (intro K; apply is_name_iff in K; congruence). destruct scope; auto.
  - assert (Hn : is_name (u "None") (Name (u "None")) = true) by (now apply is_name_iff). assert (Hu : is_name (u "Union") (Name (u "Union")) = true) by (now apply is_name_iff).
    intros (-> & e & [->| ->]); unfold union_with_none in U; rewrite Hn, Hu in U; cbn [andb orb] in U; try rewrite orb_true_r in U; discriminate U.
Qed.

(** The type stays the same. *)
Theorem C66_union_same : forall V (none : V) den scope value es value' es',
  (forall v, den (Name (u "None")) v <-> v = none) ->
  union_to_optional scope value es = Some (Some (value', es')) ->
  forall v, member none den (value, es) v <-> member none den (value', es') v.
Proof.
  intros V none den scope value es value' es' Hn E v. generalize (C66_union scope value es). rewrite E.
  intros (-> & e & Hes & [(_ & Ne & R)|(_ & R)]); [|discriminate]. injection R as -> ->. split.
  - intro H. inversion H as [es0 e0 v0 I D| |]; subst.
    destruct Hes as [->| ->]; destruct I as [I|[I|[]]]; injection I as <-; try (apply Hn in D; subst; constructor; fail); apply optional_member; exact D.
  - intro H. inversion H as [|e0|e0 v0 D]; subst.
    + apply union_member with (e := Name (u "None")); [destruct Hes as [->| ->]; simpl; auto|]. now apply Hn.
    + apply union_member with (e := e); [destruct Hes as [->| ->]; simpl; auto|]. exact D.
Qed.

Example C66_union_example :
  union_to_optional true (Name (u "Union")) [Index (Name (u "None")); Index (Name (u "int"))] = Some (Some (Name (u "Optional"), [Index (Name (u "int"))])).
Proof. vm_compute. reflexivity. Qed.
