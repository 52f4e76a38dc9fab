(** * C63: classes that inherit from object *)
From Coq Require Import String List NArith Bool Arith Permutation Lia.
From Verif Require Import Base PyStr Py Classes ClassesSpec.
Import ListNotations.
Set Implicit Arguments.

(** ** Facts about C3 *)
Section Facts.
  Context {C : Type}.
  Variable o : C.
  Hypothesis dec : forall a b : C, {a = b} + {a <> b}.

  Definition before (a b : C) (l : list C) : Prop := exists x y, l = x ++ a :: y /\ In b y.

  Lemma before_tail : forall a b l, before a b l -> In b (tl l).
  Proof. intros a b l (x & y & -> & I). destruct x as [|x0 x]; simpl; auto. apply in_or_app. right. simpl. auto. Qed.

  Lemma without_before : forall h a b l l', without h l l' -> h <> a -> before a b l -> before a b l'.
  Proof.
    intros h a b l l' [->|[-> _]] N H; auto. destruct H as (x & y & E & I). destruct x as [|x0 x]; simpl in E; injection E as -> ->; [congruence|].
    exists x, y. auto.
  Qed.

  Lemma Forall2_in_l : forall A B (R : A -> B -> Prop) l l' x, Forall2 R l l' -> In x l -> exists y, In y l' /\ R x y.
  Proof. induction 1 as [|a b l l' H1 H2 IH]; intros []; subst; [exists b; simpl; auto|]. destruct (IH H) as (y & I & K). exists y. simpl. auto. Qed.

  Lemma Forall2_in_r : forall A B (R : A -> B -> Prop) l l' y, Forall2 R l l' -> In y l' -> exists x, In x l /\ R x y.
  Proof. induction 1 as [|a b l l' H1 H2 IH]; intros []; subst; [exists a; simpl; auto|]. destruct (IH H) as (x & I & K). exists x. simpl. auto. Qed.

  Lemma good_dec : forall (x : C) (ls : list (list C)), good ls x \/ ~ good ls x.
  Proof.
    intros x ls. induction ls as [|l ls [IH|IH]].
    - left. intros l [].
    - destruct (in_dec dec x (tl l)) as [I|I].
      + right. intro G. exact (G l (or_introl eq_refl) I).
      + left. intros l' [<-|I']; auto.
    - right. intro G. apply IH. intros l' I'. apply G. simpl. auto.
  Qed.

  (** Object before another class among the bases: no order exists. *)
  Lemma stuck : forall (ls : list (list C)) out, merges ls out -> forall b l1 l2,
    In l1 ls -> before o b l1 -> In l2 ls -> before b o l2 -> False.
  Proof.
    induction 1 as [ls H|ls ls' h out P W M IH]; intros b l1 l2 I1 B1 I2 B2.
    - rewrite (H _ I1) in B1. destruct B1 as (x & y & E & _). destruct x; discriminate.
    - destruct P as (_ & _ & _ & _ & G & _).
      assert (h <> o) by (intros ->; exact (G _ I2 (before_tail B2))).
      assert (h <> b) by (intros ->; exact (G _ I1 (before_tail B1))).
      destruct (@Forall2_in_l _ _ _ _ _ _ W I1) as (l1' & I1' & W1). destruct (@Forall2_in_l _ _ _ _ _ _ W I2) as (l2' & I2' & W2).
      exact (IH b l1' l2' I1' (without_before W1 H B1) I2' (without_before W2 H0 B2)).
  Qed.

  (** Empty lists do not matter. *)
  Lemma empties : forall (Ls E1 E2 : list (list C)) out, (forall l, In l E1 -> l = []) -> (forall l, In l E2 -> l = []) ->
    merges (Ls ++ E1) out -> merges (Ls ++ E2) out.
  Proof.
    intros Ls E1 E2 out H1 H2 M. remember (Ls ++ E1) as ls eqn:E. revert Ls E1 H1 E.
    induction M as [ls H|ls ls' h out P W M IH]; intros Ls E1 H1 ->.
    - constructor. intros l I. apply in_app_or in I. destruct I as [I|I]; auto. apply H. apply in_or_app. auto.
    - apply Forall2_app_inv_l in W. destruct W as (Ls' & E1' & W1 & W2 & ->).
      assert (G : forall x, good (Ls ++ E1) x <-> good (Ls ++ E2) x).
      { intro x. unfold good. split; intros G l I; apply in_app_or in I; destruct I as [I|I].
        - apply G. apply in_or_app. auto.
        - rewrite (H2 _ I). simpl. tauto.
        - apply G. apply in_or_app. auto.
        - rewrite (H1 _ I). simpl. tauto. }
      assert (N : forall t, ~ In (h :: t) E1) by (intros t I; apply H1 in I; discriminate).
      apply merges_next with (ls' := Ls' ++ E2).
      + destruct P as (l1 & t & l2 & E & Gh & Hl). 
        assert (K : exists r, Ls = l1 ++ (h :: t) :: r).
        { clear - E N. revert l1 E. induction Ls as [|x Ls IHL]; intros l1 E; simpl in E.
          - exfalso. apply (N t). rewrite E. apply in_or_app. right. simpl. auto.
          - destruct l1 as [|y l1]; simpl in E; injection E as -> E.
            + exists Ls. reflexivity.
            + destruct (IHL _ E) as (r & ->). exists r. reflexivity. }
        destruct K as (r & ->). exists l1, t, (r ++ E2). split; [now rewrite <- app_assoc|]. split; [now apply G|].
        intros x t' I K. apply (Hl x t' I). now apply G.
      + apply Forall2_app; auto. clear - H2. induction E2 as [|l E2 IHE]; constructor.
        * right. rewrite (H2 l (or_introl eq_refl)). split; [reflexivity|discriminate].
        * apply IHE. intros l' I. apply H2. simpl. auto.
      + apply IH with (E1 := E1').
        * intros l' I. destruct (@Forall2_in_r _ _ _ _ _ _ W2 I) as (l & I' & [K|[K _]]); [apply H1 in I'; congruence|]. rewrite K. now apply H1.
        * reflexivity.
  Qed.

  (** The last base object, and its own list, can be left out. *)
  Lemma same_merge : forall out Ls Bs,
    ~ In o Bs -> (forall b, In b Bs -> exists l, In l Ls /\ before b o l) -> (exists l, In l Ls /\ In o l) ->
    merges (Ls ++ [[o]; Bs ++ [o]]) out -> merges (Ls ++ [Bs]) out.
  Proof.
    induction out as [|h out IH]; intros Ls Bs No B1 B2 M.
    - inversion M as [ls H|]; subst. specialize (H [o]). exfalso. assert (K : [o] = []); [|discriminate].
      apply H. apply in_or_app. simpl. auto.
    - inversion M as [|ls ls' h' out' P W M']; subst. 
      apply Forall2_app_inv_l in W. destruct W as (Ls' & R & W1 & W2 & ->).
      inversion W2 as [|? r1 ? R' Wo W2']; subst. inversion W2' as [|? r2 ? R'' Wb W2'']; subst. inversion W2''; subst. clear W2 W2' W2''.
      assert (G : forall x, x <> o -> good (Ls ++ [[o]; Bs ++ [o]]) x <-> good (Ls ++ [Bs]) x).
      { intros x Nx. unfold good. split; intros G l I; apply in_app_or in I; destruct I as [I|I].
        - apply G. apply in_or_app. auto.
        - destruct I as [<-|[]]. intro K. apply (G (Bs ++ [o])); [apply in_or_app; simpl; auto|].
          destruct Bs; [destruct K|]. simpl in *. apply in_or_app. auto.
        - apply G. apply in_or_app. auto.
        - destruct I as [<-|[<-|[]]]; [simpl; tauto|]. intro K. apply (G Bs); [apply in_or_app; simpl; auto|].
          destruct Bs; [destruct K|]. simpl in *. apply in_app_or in K. destruct K as [K|[K|[]]]; congruence. }
      assert (Go : good (Ls ++ [[o]; Bs ++ [o]]) o -> Bs = [] /\ forall l, In l Ls -> ~ In o (tl l)).
      { intro G0. split.
        - destruct Bs as [|b Bs]; auto. exfalso. apply (G0 ((b :: Bs) ++ [o])); [apply in_or_app; simpl; auto|]. simpl. apply in_or_app. simpl. auto.
        - intros l I. apply G0. apply in_or_app. auto. }
      assert (Gn : ~ good (Ls ++ [[o]; Bs ++ [o]]) o -> ~ good (Ls ++ [Bs]) o).
      { intros N G0. apply N. intros l I. apply in_app_or in I. destruct I as [I|[<-|[<-|[]]]].
        - apply G0. apply in_or_app. auto.
        - simpl. tauto.
        - destruct Bs as [|b Bs]; [simpl; tauto|]. intros _. destruct (B1 b (or_introl eq_refl)) as (l & Il & Bl).
          apply (G0 l); [apply in_or_app; auto|]. now apply before_tail in Bl. }
      destruct P as (l1 & t & l2 & E & Gh & Hl).
      destruct (dec h o) as [->|Nh].
      + (* object is next *)
        destruct (Go Gh) as [-> Gt]. destruct B2 as (lo & Ilo & Io).
        assert (Ho : exists t', lo = o :: t').
        { destruct lo as [|x t']; [destruct Io|]. destruct Io as [->|Io]; [eauto|]. exfalso. exact (Gt _ Ilo Io). }
        destruct Ho as (t' & ->).
        (* it is the head of a list in Ls *)
        assert (K : exists r, Ls = l1 ++ (o :: t) :: r).
        { assert (S : forall (Ls : list (list C)) l1 l2 E', Ls ++ E' = l1 ++ (o :: t) :: l2 -> (exists r, Ls = l1 ++ (o :: t) :: r) \/ (exists r, l1 = Ls ++ r)).
          { clear. induction Ls as [|x Ls IHL]; intros l1 l2 E' E; [right; exists l1; reflexivity|]. destruct l1 as [|y l1]; simpl in E; injection E as -> E.
            - left. exists Ls. reflexivity.
            - destruct (IHL _ _ _ E) as [(r & ->)|(r & ->)]; [left|right]; exists r; reflexivity. }
          destruct (S _ _ _ _ E) as [K|(r & ->)]; auto. exfalso. apply (Hl o t'); auto. apply in_or_app. auto. }
        destruct K as (r & ->).
        apply merges_next with (ls' := Ls' ++ [[]]).
        * exists l1, t, (r ++ [[]]). split; [now rewrite <- app_assoc|]. split.
          -- intros l I. apply in_app_or in I. destruct I as [I|[<-|[]]]; [now apply Gt|simpl; tauto].
          -- intros x tx I K. apply (Hl x tx I). destruct (dec x o) as [->|Nx]; [exact Gh|]. now apply G.
        * apply Forall2_app; auto. constructor; [|constructor]. right. split; [reflexivity|discriminate].
        * assert (r1 = [] /\ r2 = []) as [-> ->].
          { simpl in Wb. split; [destruct Wo as [K|[-> K]]|destruct Wb as [K|[-> K]]]; try congruence; try (exfalso; apply K; reflexivity). }
          eapply empties; [| |exact M']; intros l I; simpl in I; intuition congruence.
      + (* another class is next *)
        assert (r1 = [o]) as -> by (destruct Wo as [K|[-> K]]; congruence).
        assert (Wb' : exists Bs', r2 = Bs' ++ [o] /\ without h Bs Bs').
        { destruct Bs as [|b Bs]; simpl in Wb.
          - destruct Wb as [K|[-> K]]; [congruence|]. exists []. split; [reflexivity|]. right. split; [reflexivity|discriminate].
          - destruct Wb as [K|[-> K]].
            + injection K as -> K. exists Bs. split; auto. left. reflexivity.
            + exists (b :: Bs). split; [reflexivity|]. right. split; [reflexivity|]. exact K. }
        destruct Wb' as (Bs' & -> & Wb'). clear Wo Wb.
        assert (Sub : forall b, In b Bs' -> In b Bs) by (intros b I; destruct Wb' as [->|[-> _]]; simpl; auto).
        assert (NhB : ~ In h Bs').
        { intro I. assert (K : In h (tl Bs)).
          { destruct Wb' as [->|[-> K]]; [exact I|]. destruct Bs as [|b Bs]; [destruct I|]. simpl in K. destruct I as [->|I]; [congruence|exact I]. }
          apply G in Gh; auto. apply (Gh Bs); auto. apply in_or_app. simpl. auto. }
        apply merges_next with (ls' := Ls' ++ [Bs']).
        * (* the same one is picked *)
          assert (S : exists l2', Ls ++ [Bs] = l1 ++ (h :: t) :: l2' \/ (exists t2, l1 = Ls ++ [[o]] /\ Bs = h :: t2)).
          { clear - E Nh. revert l1 E. induction Ls as [|x Ls IHL]; intros l1 E; simpl in E.
            - destruct l1 as [|y l1]; simpl in E; injection E as E1 E2; [congruence|]. subst y.
              destruct l1 as [|z l1]; simpl in E2; injection E2 as E2 E3.
              + exists []. right. destruct Bs as [|b Bs]; simpl in E2; [congruence|]. injection E2 as -> E2. exists Bs. auto.
              + exfalso. destruct l1; discriminate.
            - destruct l1 as [|y l1]; simpl in E; injection E as -> E.
              + exists (Ls ++ [Bs]). left. reflexivity.
              + destruct (IHL _ E) as (l2' & [K|(t2 & -> & K)]); exists l2'; [left|right].
                * simpl. now rewrite K.
                * exists t2. auto. }
          destruct S as (l2' & [K|(t2 & -> & K)]).
          -- exists l1, t, l2'. split; auto. split; [now apply G|]. intros x tx I Gx. apply (Hl x tx I).
             destruct (dec x o) as [->|Nx]; [|now apply G]. destruct (good_dec o (Ls ++ [[o]; Bs ++ [o]])) as [Y|N]; auto. exfalso. now apply (Gn N).
          -- subst Bs. exists Ls, t2, []. split; [reflexivity|]. split; [now apply G|]. intros x tx I Gx. apply (Hl x tx); [apply in_or_app; auto|].
             destruct (dec x o) as [->|Nx]; [|now apply G]. destruct (good_dec o (Ls ++ [[o]; (h :: t2) ++ [o]])) as [Y|N]; auto. exfalso. now apply (Gn N).
        * apply Forall2_app; auto.
        * apply IH; auto.
          -- intros b I. destruct (B1 b (Sub b I)) as (l & Il & Bl). destruct (@Forall2_in_l _ _ _ _ _ _ W1 Il) as (l' & Il' & Wl).
             exists l'. split; auto. apply (without_before Wl); auto. intros ->. auto.
          -- destruct B2 as (l & Il & Io). destruct (@Forall2_in_l _ _ _ _ _ _ W1 Il) as (l' & Il' & Wl). exists l'. split; auto.
             destruct Wl as [->|[-> _]]; auto. destruct Io; [congruence|auto].
  Qed.
End Facts.

(** ** C63 *)

Lemma keeps_filter : forall A (P : A -> Prop) (f : A -> bool) l, (forall x, In x l -> f x = true <-> P x) -> keeps P l (filter f l).
Proof.
  intros A P f l. induction l as [|x l IH]; intro H; simpl; [constructor|]. destruct (f x) eqn:E.
  - constructor; [now apply H; simpl; auto|]. apply IH. intros y I. apply H. simpl. auto.
  - apply keeps_not; [|apply IH; intros y I; apply H; simpl; auto]. intro K. apply H in K; simpl; auto. congruence.
Qed.

Lemma is_name_iff : forall s e, is_name s e = true <-> e = Name s.
Proof. intros s e. destruct e; simpl; split; intro H; try discriminate; [apply str_eqb_eq in H; now subst|]. injection H as ->. apply str_eqb_refl. Qed.

Lemma filter_length_eq : forall A (f : A -> bool) l, List.length (filter f l) = List.length l <-> forall x, In x l -> f x = true.
Proof.
  intros A f l. induction l as [|x l IH]; simpl; [split; [intros _ ? []|auto]|].
  assert (List.length (filter f l) <= List.length l) by (clear; induction l; simpl; [lia|destruct (f a); simpl; lia]).
  destruct (f x) eqn:E; simpl; split; intro H0.
  - intros y [->|I]; auto. apply IH; auto.
  - f_equal. apply IH. auto.
  - lia.
  - rewrite H0 in E; auto. discriminate.
Qed.

(** A class is reported iff one of its bases is written object; exactly those bases are removed, nothing else
    is changed. *)
Theorem C63_reported : forall c,
  match no_object c with
  | None => forall a, In a (d_bases c) -> a_value a <> Name (u "object")
  | Some new =>
      (exists a, In a (d_bases c) /\ a_value a = Name (u "object")) /\
      keeps (fun a => a_value a <> Name (u "object")) (d_bases c) (d_bases new) /\
      d_name new = d_name c /\ d_keywords new = d_keywords c /\ d_decorators new = d_decorators c /\ d_body new = d_body c
  end.
Proof.
  intro c. unfold no_object. destruct (Nat.eqb _ _) eqn:E.
  - apply Nat.eqb_eq, filter_length_eq in E || (apply Nat.eqb_eq in E; rewrite filter_length_eq in E).
    intros a I K. specialize (E a I). rewrite (proj2 (is_name_iff _ _) K) in E. discriminate.
  - apply Nat.eqb_neq in E. repeat split.
    + destruct (existsb (fun a => is_name (u "object") (a_value a)) (d_bases c)) eqn:X.
      * apply existsb_exists in X. destruct X as (a & I & X). exists a. split; auto. now apply is_name_iff.
      * exfalso. apply E. apply filter_length_eq. intros a I.
        destruct (is_name (u "object") (a_value a)) eqn:Y; auto.
        assert (T : existsb (fun a => is_name (u "object") (a_value a)) (d_bases c) = true) by (apply existsb_exists; eauto). congruence.
    + apply keeps_filter. intros a _. rewrite negb_true_iff. split; intro H.
      * intro K. apply is_name_iff in K. congruence.
      * destruct (is_name _ _) eqn:Y; auto. exfalso. apply H. now apply is_name_iff.
Qed.

Theorem C63_once : forall c new, no_object c = Some new -> no_object new = None.
Proof.
  intros c new H. generalize (C63_reported c), (C63_reported new). rewrite H. intros (_ & K & _) G.
  destruct (no_object new) as [n|]; auto. destruct G as ((a & I & E) & _). exfalso.
  revert I E. induction K as [|x l l' P K IH|x l l' P K IH]; simpl; intros I E; auto.
  destruct I as [->|I]; auto.
Qed.

(** Object before another base class: the class statement always fails (so that removing object makes it work). *)
Theorem C63_failing : forall (C : Type) (dec : forall a b : C, {a = b} + {a <> b}) (o : C) (L : C -> list C) (c : C) bs1 bs2 mro,
  hierarchy o L -> bs2 <> [] -> ~ new_class o L c (bs1 ++ o :: bs2) mro.
Proof.
  intros C dec o L c bs1 bs2 mro [Ho H] N (out & -> & M).
  assert (E : match bs1 ++ o :: bs2 with [] => [o] | _ => bs1 ++ o :: bs2 end = bs1 ++ o :: bs2) by (destruct bs1; reflexivity).
  rewrite E in M. clear E. destruct bs2 as [|b bs2]; [congruence|]. 
  assert (I1 : In (bs1 ++ o :: b :: bs2) (map L (bs1 ++ o :: b :: bs2) ++ [bs1 ++ o :: b :: bs2])) by (apply in_or_app; simpl; auto).
  assert (B1 : before o b (bs1 ++ o :: b :: bs2)) by (exists bs1, (b :: bs2); simpl; auto).
  destruct (dec b o) as [->|Nb].
  - exact (@stuck C o _ _ M o _ _ I1 B1 I1 B1).
  - destruct (H b Nb) as (t & Et & It).
    apply (@stuck C o _ _ M b _ (L b) I1 B1).
    + apply in_or_app. left. apply in_map. apply in_or_app. right. simpl. auto.
    + exists [], t. split; auto.
Qed.

Lemma removed_bases : forall C (o : C) (den : arg -> list C) (keep : arg -> bool) args B,
  (forall a, In a args -> keep a = false -> den a = [o]) ->
  flat_map den args = B ++ [o] -> ~ In o B -> (exists a, In a args /\ keep a = false) ->
  flat_map den (filter keep args) = B.
Proof.
  intros C o den keep args. induction args as [|a args IH]; intros B Hd E N (r & I & K); [destruct I|].
  cbn [flat_map filter] in *. destruct (keep a) eqn:Ka.
  - destruct I as [->|I]; [congruence|].
    assert (X : exists B2, flat_map den args = B2 ++ [o] /\ B = den a ++ B2).
    { assert (Io : In o (flat_map den args)).
      { apply in_flat_map. exists r. split; auto. rewrite (Hd r); simpl; auto. }
      destruct (flat_map den args) as [|z l _] using rev_ind; [destruct Io|].
      rewrite app_assoc in E. apply app_inj_tail in E. destruct E as [<- <-]. exists l. auto. }
    destruct X as (B2 & E2 & ->). cbn [flat_map]. f_equal. apply IH; auto.
    + intros b Ib. apply Hd. simpl. auto.
    + intro Ib. apply N. apply in_or_app. auto.
    + exists r. auto.
  - rewrite (Hd a) in E by (simpl; auto). destruct B as [|b B].
    + simpl in E. injection E as E. clear - E. induction args as [|x args IH]; [reflexivity|].
      cbn [flat_map] in E. apply app_eq_nil in E. destruct E as [E1 E2]. cbn [filter]. destruct (keep x); cbn [flat_map]; [rewrite E1|]; auto.
    + simpl in E. injection E as E1 E2. exfalso. apply N. simpl. auto.
Qed.

(** If the statement worked, the class has the same method resolution order after the change. [den]: the classes an
    argument stands for (a starred one for any number); object is the built-in class. *)
Theorem C63_mro : forall (C : Type) (dec : forall a b : C, {a = b} + {a <> b}) (o : C) (L : C -> list C) (den : arg -> list C) c new k mro,
  hierarchy o L ->
  (forall a, In a (d_bases c) -> a_value a = Name (u "object") -> den a = [o]) ->
  no_object c = Some new ->
  new_class o L k (flat_map den (d_bases c)) mro ->
  new_class o L k (flat_map den (d_bases new)) mro.
Proof.
  intros C dec o L den c new k mro Hh Hd Hn Hc.
  set (keep := fun a : arg => negb (is_name (u "object") (a_value a))).
  assert (En : d_bases new = filter keep (d_bases c)).
  { unfold no_object in Hn. destruct (Nat.eqb _ _); [discriminate|]. injection Hn as <-. reflexivity. }
  assert (Hk : forall a, keep a = false -> a_value a = Name (u "object")).
  { intros a K. apply is_name_iff. unfold keep in K. now apply negb_false_iff in K. }
  generalize (C63_reported c). rewrite Hn. intros ((r & Ir & Er) & _).
  assert (Io : In o (flat_map den (d_bases c))).
  { apply in_flat_map. exists r. split; auto. rewrite (Hd r); simpl; auto. }
  destruct (in_split _ _ Io) as (B1 & B2 & E). rewrite E in Hc.
  assert (B2 = []) as ->.
  { destruct B2 as [|b B2]; auto. exfalso. apply (@C63_failing C dec o L k B1 (b :: B2) mro); auto. discriminate. }
  assert (No : ~ In o B1).
  { intro I. destruct (in_split _ _ I) as (x & y & ->). rewrite <- app_assoc in Hc. simpl in Hc.
    apply (@C63_failing C dec o L k x (y ++ [o]) mro); auto. destruct y; discriminate. }
  assert (Ef : flat_map den (filter keep (d_bases c)) = B1).
  { apply removed_bases with (o := o); auto. exists r. split; auto. unfold keep. rewrite Er. reflexivity. }
  rewrite En, Ef. destruct Hc as (out & -> & M). exists out. split; auto.
  assert (X : match B1 ++ [o] with [] => [o] | _ => B1 ++ [o] end = B1 ++ [o]) by (destruct B1; reflexivity).
  rewrite X in M. clear X. destruct B1 as [|b B1]; [exact M|].
  destruct Hh as [Ho Hh]. rewrite map_app in M. cbn [map] in M. rewrite Ho, <- app_assoc in M. simpl app in M.
  apply (@same_merge C o dec); auto.
  - intros x I. assert (Nx : x <> o) by (intros ->; auto). destruct (Hh x Nx) as (t & Et & It). exists (L x). split; [now apply in_map|].
    rewrite Et. exists [], t. auto.
  - assert (Nb : b <> o) by (intros ->; apply No; simpl; auto). destruct (Hh b Nb) as (t & Et & It).
    exists (L b). split; [simpl; auto|]. rewrite Et. simpl. auto.
Qed.

(** A case: [class D(A, B, object)] with A and B below object, B below A. *)
Definition ex_L (n : nat) : list nat := match n with 0 => [0] | 1 => [1; 0] | _ => [n; 1; 0] end.
Definition base (s : string) : arg := plain_arg (Name (u s)).
Definition ex_den (a : arg) : list nat :=
  if is_name (u "object") (a_value a) then [0] else if is_name (u "A") (a_value a) then [1] else [2].
Definition ex_class (bs : list arg) : class_def := ClassDef (u "D") bs [] [] (Block []).

Example C63_example :
  hierarchy 0 ex_L /\
  no_object (ex_class [base "B"; base "A"; base "object"]) = Some (ex_class [base "B"; base "A"]) /\
  new_class 0 ex_L 9 (flat_map ex_den [base "B"; base "A"; base "object"]) [9; 2; 1; 0] /\
  no_object (ex_class [base "object"]) = Some (ex_class []) /\
  new_class 0 ex_L 9 [] [9; 0].
Proof.
  split; [|split; [|split; [|split]]].
  - split; [reflexivity|]. intros [|[|n]] N; [congruence| |]; eexists; (split; [reflexivity|simpl; auto]).
  - vm_compute. reflexivity.
  - exists [2; 1; 0]. split; [reflexivity|]. vm_compute.
    assert (G : forall (ls : list (list nat)) x, existsb (fun l => existsb (Nat.eqb x) (tl l)) ls = false -> good ls x).
    { intros ls x E l I K. assert (T : existsb (fun l => existsb (Nat.eqb x) (tl l)) ls = true); [|congruence].
      apply existsb_exists. exists l. split; auto. apply existsb_exists. exists x. split; auto. apply Nat.eqb_refl. }
    assert (F : forall h (l : list nat), without h l (match l with x :: t => if Nat.eqb x h then t else l | [] => [] end)).
    { intros h [|x t]; [right; split; [reflexivity|discriminate]|]. destruct (Nat.eqb_spec x h); [left; now subst|right]. split; [reflexivity|]. simpl. congruence. }
    assert (F2 : forall h (ls : list (list nat)), Forall2 (without h) ls (map (fun l => match l with x :: t => if Nat.eqb x h then t else l | [] => [] end) ls)).
    { intros h ls. induction ls; constructor; auto. }
    eapply merges_next; [exists [], [1; 0], [[1; 0]; [0]; [2; 1; 0]]; split; [reflexivity|]; split; [now apply G|intros ? ? []]|apply F2|vm_compute].
    eapply merges_next; [exists [], [0], [[1; 0]; [0]; [1; 0]]; split; [reflexivity|]; split; [now apply G|intros ? ? []]|apply F2|vm_compute].
    eapply merges_next; [exists [], [], [[0]; [0]; [0]]; split; [reflexivity|]; split; [now apply G|intros ? ? []]|apply F2|vm_compute].
    constructor. intros l I. simpl in I. intuition congruence.
  - vm_compute. reflexivity.
  - exists [0]. split; [reflexivity|]. simpl.
    eapply merges_next with (ls' := [[]; []]).
    + exists [], [], [[0]]. split; [reflexivity|]. split; [|intros ? ? []]. intros l [<-|[<-|[]]] [].
    + repeat constructor.
    + constructor. intros l [<-|[<-|[]]]; reflexivity.
Qed.
