(** * C94: the layout of the code in test cases *)
From Coq Require Import String List NArith Bool Arith Lia.
From Verif Require Import Base PyStr PyStrFacts Ftypes Suppress Cst Engine Testing TestingSpec EngineProps TestingProps Dedent.
Import ListNotations.

(** ** Specification *)

(** The lines of a text. *)
Definition lines_of (text : str) (ls : list str) : Prop := ls <> [] /\ (forall l, In l ls -> ~ In 10%N l) /\ text = join [10%N] ls.
(** Spaces and tabs only. *)
Definition blank (l : str) : Prop := forall c, In c l -> c = 32%N \/ c = 9%N.
(** [w] is the longest indentation that all lines with other characters have. *)
Definition indented_by (w : str) (ls : list str) : Prop := blank w /\ forall l, In l ls -> ~ blank l -> exists rest, l = w ++ rest.
Definition common_indentation (w : str) (ls : list str) : Prop :=
  indented_by w ls /\ forall w', indented_by w' ls -> exists rest, w = w' ++ rest.

(** ** Facts *)
Lemma is_blank_iff : forall c, is_blank c = true <-> c = 32%N \/ c = 9%N.
Proof. intro c. unfold is_blank. rewrite orb_true_iff, !N.eqb_eq. tauto. Qed.
Lemma blank_iff : forall l, forallb is_blank l = true <-> blank l.
Proof. intro l. rewrite forallb_forall. unfold blank. split; intros H c I; apply is_blank_iff; auto. Qed.
Lemma not_blank_iff : forall l, forallb is_blank l = false <-> ~ blank l.
Proof. intro l. rewrite <- blank_iff. destruct (forallb is_blank l); split; intro H; congruence. Qed.
Lemma blank_nil : blank [].
Proof. intros c []. Qed.
Lemma blank_app : forall a b, blank (a ++ b) <-> blank a /\ blank b.
Proof. intros a b. unfold blank. split; [intro H; split; intros c I; apply H, in_or_app; auto|intros [A B] c I; apply in_app_or in I; destruct I; auto]. Qed.

Lemma split_lines : forall text, lines_of text (split 10 text).
Proof.
  intro text. split; [apply split_nonempty|]. split.
  - induction text as [|x s IH]; cbn [split]; [intros l [<-|[]] []|]. destruct (N.eqb_spec x 10) as [->|Nx].
    + intros l [<-|I]; [intros []|auto].
    + destruct (split 10 s) as [|h t] eqn:E; [intros l [<-|[]] [X|[]]; congruence|]. intros l [<-|I]; [|apply IH; simpl; auto].
      intros [X|X]; [congruence|]. exact (IH h (or_introl eq_refl) X).
  - induction text as [|x s IH]; cbn [split]; [reflexivity|]. pose proof (split_nonempty 10 s) as Ne. destruct (N.eqb_spec x 10) as [->|Nx].
    + destruct (split 10 s) as [|h t]; [congruence|]. cbn [join app] in *. now rewrite <- IH.
    + destruct (split 10 s) as [|h t]; [congruence|]. rewrite IH at 1. destruct t; reflexivity.
Qed.
Lemma lines_split : forall text ls, lines_of text ls -> ls = split 10 text.
Proof. intros text ls (N & H & ->). symmetry. now apply split_join. Qed.
Lemma lines_join : forall ls, ls <> [] -> (forall l, In l ls -> ~ In 10%N l) -> lines_of (join [10%N] ls) ls.
Proof. intros ls N H. split; auto. Qed.

Lemma leading_spec : forall l, exists rest, l = leading l ++ rest /\ blank (leading l) /\ match rest with [] => True | c :: _ => is_blank c = false end.
Proof.
  induction l as [|c l (rest & E & B & R)]; [exists []; repeat split; apply blank_nil|]. cbn [leading]. destruct (is_blank c) eqn:Ec.
  - exists rest. split; [cbn [app]; congruence|]. split; auto. intros d [<-|I]; [now apply is_blank_iff|auto].
  - exists (c :: l). split; [reflexivity|]. split; [apply blank_nil|exact Ec].
Qed.

(** A blank prefix of a line with other characters is a prefix of its indentation *)
Lemma prefix_leading : forall w l, blank w -> ~ blank l -> ((exists r, l = w ++ r) <-> exists r, leading l = w ++ r).
Proof.
  intros w l Bw Nl. destruct (leading_spec l) as (rest & E & B & R). split.
  - intros (r & El). rewrite El in E at 1.
    assert (G : forall i w, blank w -> w ++ r = i ++ rest -> exists r', i = w ++ r').
    { clear - R. induction i as [|c i IH]; intros w Bw El; cbn [app] in *.
      + destruct w as [|d w]; [exists []; reflexivity|]. rewrite <- El in R. cbn [app] in R.
        assert (X : is_blank d = true) by (apply is_blank_iff, Bw; simpl; auto). congruence.
      + destruct w as [|d w]; [exists (c :: i); reflexivity|]. cbn [app] in El. injection El as -> El.
        destruct (IH w (fun x I => Bw x (or_intror I)) El) as (r' & ->). exists r'. reflexivity. }
    now apply G.
  - intros (r & Er). exists (r ++ rest). rewrite E, Er. now rewrite app_assoc.
Qed.

Lemma cut_spec : forall m i w, startswith m i = false -> startswith i m = false ->
  ((exists r, cut m i = w ++ r) <-> (exists r, m = w ++ r) /\ (exists r, i = w ++ r)).
Proof.
  induction m as [|x m IH]; intros i w A B; [discriminate|]. destruct i as [|y i]; [discriminate|]. cbn [startswith cut] in *.
  destruct (N.eqb_spec x y) as [<-|Nx].
  - rewrite N.eqb_refl in B. cbn [andb] in *. destruct w as [|c w]; [split; intros _; [split; eexists; reflexivity|eexists; reflexivity]|].
    split.
    + intros (r & E). cbn [app] in E. injection E as -> E. destruct (proj1 (IH i w A B) (ex_intro _ r E)) as ((r1 & ->) & (r2 & ->)).
      split; eexists; reflexivity.
    + intros ((r1 & E1) & (r2 & E2)). cbn [app] in *. injection E1 as -> E1. injection E2 as E2.
      destruct (proj2 (IH i w A B) (conj (ex_intro _ r1 E1) (ex_intro _ r2 E2))) as (r & ->). exists r. reflexivity.
  - split.
    + intros (r & E). destruct w; [|discriminate]. split; eexists; reflexivity.
    + intros ((r1 & E1) & (r2 & E2)). destruct w as [|c w]; [eexists; reflexivity|]. cbn [app] in *. congruence.
Qed.

Lemma startswith_antisym_prefix : forall a b (w : str), startswith a b = true -> ((exists r, a = w ++ r) <-> (exists r, a = w ++ r) /\ (exists r, b = w ++ r)).
Proof.
  intros a b w H. apply startswith_spec in H. destruct H as (t & ->). split; [|tauto]. intros (r & ->). split; [eauto|]. exists (r ++ t). now rewrite app_assoc.
Qed.

Lemma narrow_spec : forall m i, exists m', narrow (Some m) i = Some m' /\
  forall w : str, (exists r, m' = w ++ r) <-> (exists r, m = w ++ r) /\ (exists r, i = w ++ r).
Proof.
  intros m i. cbn [narrow]. destruct (startswith m i) eqn:A; [exists m; split; [reflexivity|]; intro w; now apply startswith_antisym_prefix|].
  destruct (startswith i m) eqn:B.
  - exists i. split; [reflexivity|]. intro w. rewrite and_comm. now apply startswith_antisym_prefix.
  - exists (cut m i). split; [reflexivity|]. intro w. now apply cut_spec.
Qed.

Lemma margin_fold : forall is m, exists m', fold_left narrow is (Some m) = Some m' /\
  forall w : str, (exists r, m' = w ++ r) <-> (exists r, m = w ++ r) /\ forall i, In i is -> exists r, i = w ++ r.
Proof.
  induction is as [|i is IH]; intro m; cbn [fold_left]; [exists m; split; [reflexivity|]; intro w; split; [intro H; split; auto; intros i []|tauto]|].
  destruct (narrow_spec m i) as (m1 & -> & H1). destruct (IH m1) as (m2 & E2 & H2). exists m2. split; [exact E2|]. intro w. rewrite H2, H1. split.
  - intros ((A & B) & C). split; auto. intros j [<-|I]; auto.
  - intros (A & B). split; [split; auto; apply B; simpl; auto|]. intros j I. apply B. simpl. auto.
Qed.

Lemma normal_eq : forall l, normal l = l \/ (normal l = [] /\ blank l).
Proof. intro l. unfold normal. destruct (forallb is_blank l) eqn:E; auto. right. split; auto. now apply blank_iff. Qed.
Lemma normal_blank : forall l, blank l -> normal l = [].
Proof. intros l H. unfold normal. apply blank_iff in H. now rewrite H. Qed.
Lemma normal_other : forall l, ~ blank l -> normal l = l.
Proof. intros l H. unfold normal. apply not_blank_iff in H. now rewrite H. Qed.

Lemma indents_in : forall ls i, In i (indents (map normal ls)) <-> exists l, In l ls /\ ~ blank l /\ i = leading l.
Proof.
  intros ls i. unfold indents. rewrite in_map_iff. split.
  - intros (x & <- & I). apply filter_In in I. destruct I as (I & N). apply in_map_iff in I. destruct I as (l & <- & I). apply negb_true_iff, not_blank_iff in N.
    destruct (normal_eq l) as [E|(E & B)]; [rewrite E in *; eauto|]. rewrite E in N. exfalso. apply N, blank_nil.
  - intros (l & I & N & ->). exists (normal l). rewrite normal_other by exact N. split; [reflexivity|]. apply filter_In. split.
    + apply in_map_iff. exists l. split; [now apply normal_other|exact I].
    + apply negb_true_iff. now apply not_blank_iff.
Qed.

(** What [dedent] does to lines, with the margin [m] *)
Definition shifted (w : str) (l l' : str) : Prop := (blank l /\ l' = []) \/ (~ blank l /\ l = w ++ l').

Lemma unindent_lines : forall w ls, indented_by w ls -> Forall2 (shifted w) ls (map (unindent w) (map normal ls)).
Proof.
  intros w ls (Bw & Pw). induction ls as [|l ls IH]; cbn [map]; [constructor|]. constructor.
  - destruct (forallb is_blank l) eqn:E.
    + left. apply blank_iff in E. split; auto. rewrite normal_blank by exact E. unfold unindent. destruct w; reflexivity.
    + right. apply not_blank_iff in E. split; auto. rewrite normal_other by exact E. destruct (Pw l (or_introl eq_refl) E) as (r & ->).
      unfold unindent. assert (X : startswith w (w ++ r) = true) by (apply startswith_spec; eauto). rewrite X.
      rewrite skipn_app, skipn_all, Nat.sub_diag. reflexivity.
  - apply IH. intros x I. apply Pw. simpl. auto.
Qed.

Lemma dedent_lines : forall text ls, lines_of text ls -> exists w ls',
  lines_of (dedent text) ls' /\ Forall2 (shifted w) ls ls' /\ indented_by w ls /\ ((exists l, In l ls /\ ~ blank l) -> common_indentation w ls).
Proof.
  intros text ls Hl. pose proof (lines_split _ _ Hl) as ->. destruct Hl as (Ne & Nl & _). unfold dedent. set (ls := split 10 text) in *.
  assert (G : exists w ls', match fold_left narrow (indents (map normal ls)) None with
      | Some ((_ :: _) as m) => join [10%N] (map (unindent m) (map normal ls)) | _ => join [10%N] (map normal ls) end = join [10%N] ls' /\
      Forall2 (shifted w) ls ls' /\ indented_by w ls /\ ((exists l, In l ls /\ ~ blank l) -> common_indentation w ls)).
  { pose proof (fun w => unindent_lines w ls) as P.
    assert (P0 : map (unindent []) (map normal ls) = map normal ls) by (rewrite map_map; apply map_ext; intro a; reflexivity).
    assert (I0 : indented_by [] ls) by (split; [apply blank_nil|]; intros l _ _; exists l; reflexivity).
    destruct (indents (map normal ls)) as [|i is] eqn:Ei.
    - cbn [fold_left]. exists [], (map normal ls). split; [reflexivity|]. split; [rewrite <- P0; now apply P|]. split; auto.
      intros (l & I & N). exfalso. assert (X : In (leading l) (indents (map normal ls))) by (apply indents_in; eauto). rewrite Ei in X. exact X.
    - cbn [fold_left narrow]. destruct (margin_fold is i) as (m & Em & Hm). rewrite Em.
      assert (Hw : forall w : str, (exists r, m = w ++ r) <-> forall j, In j (indents (map normal ls)) -> exists r, j = w ++ r).
      { intro w. rewrite Hm, Ei. split; [intros (A & B) j [<-|I]; auto|]. intro H. split; [apply H; simpl; auto|]. intros j I. apply H. simpl. auto. }
      assert (Hi : In i (indents (map normal ls))) by (rewrite Ei; simpl; auto). apply indents_in in Hi. destruct Hi as (l0 & Il0 & Nl0 & El0).
      assert (Bm : blank m).
      { destruct (proj1 (Hw m) (ex_intro _ [] (eq_sym (app_nil_r m))) i) as (r & E); [rewrite Ei; simpl; auto|].
        destruct (leading_spec l0) as (_ & _ & B & _). rewrite <- El0, E in B. now apply blank_app in B. }
      assert (Im : indented_by m ls).
      { split; auto. intros l I N. apply (proj2 (prefix_leading m l Bm N)). apply (proj1 (Hw m)); [exists []; now rewrite app_nil_r|]. apply indents_in. eauto. }
      assert (Cm : common_indentation m ls).
      { split; auto. intros w' (Bw & Pw). apply Hw. intros j Ij. apply indents_in in Ij. destruct Ij as (l & I & N & ->). apply (proj1 (prefix_leading w' l Bw N)). auto. }
      exists m, (map (unindent m) (map normal ls)). split; [destruct m; [now rewrite P0|reflexivity]|]. split; [now apply P|]. split; auto. }
  destruct G as (w & ls' & -> & F & I & C). exists w, ls'. split; [|auto]. apply lines_join.
  - intros ->. inversion F. congruence.
  - intros l' Il'. clear C Ne. revert l' Il'. induction F as [|l l' ls0 ls1 H F IH]; [intros ? []|].
    intros x [<-|Ix]; [|apply IH; auto; [intros y Iy; apply Nl; simpl; auto|destruct I as (B & I); split; auto; intros y Iy; apply I; simpl; auto]].
    destruct H as [(_ & ->)|(_ & ->)]; [intros []|]. intro X. apply (Nl (w ++ l') (or_introl eq_refl)). apply in_or_app. auto.
Qed.

Lemma common_unique : forall w1 w2 ls, common_indentation w1 ls -> common_indentation w2 ls -> w1 = w2.
Proof.
  intros w1 w2 ls (I1 & C1) (I2 & C2). destruct (C1 _ I2) as (r & ->). destruct (C2 _ I1) as (r' & E). rewrite <- app_assoc in E.
  rewrite <- (app_nil_r w2) in E at 1. apply app_inv_head in E. symmetry in E. apply app_eq_nil in E. destruct E as (-> & _). now rewrite app_nil_r.
Qed.

Lemma blank_dec : forall l, blank l \/ ~ blank l.
Proof. intro l. destruct (forallb is_blank l) eqn:E; [left; now apply blank_iff|right; now apply not_blank_iff]. Qed.
Lemma some_other : forall ls, (exists l, In l ls /\ ~ blank l) \/ forall l, In l ls -> blank l.
Proof.
  induction ls as [|l ls [(x & I & N)|H]]; [right; intros ? []|left; exists x; simpl; auto|].
  destruct (blank_dec l) as [B|N]; [right; intros x [<-|I]; auto|left; exists l; simpl; auto].
Qed.

(** ** Theorems *)

(** Lines of blanks become empty, and all other lines lose their longest common indentation. *)
Theorem C94_dedent : forall text ls w, lines_of text ls -> (exists l, In l ls /\ ~ blank l) -> common_indentation w ls ->
  exists ls', lines_of (dedent text) ls' /\ Forall2 (fun l l' => (blank l /\ l' = []) \/ (~ blank l /\ l = w ++ l')) ls ls'.
Proof.
  intros text ls w Hl Ex C. destruct (dedent_lines text ls Hl) as (w1 & ls' & L & F & _ & C1). assert (w1 = w) as -> by (eapply common_unique; eauto). eauto.
Qed.

Theorem C94_blank : forall text ls, lines_of text ls -> (forall l, In l ls -> blank l) ->
  lines_of (dedent text) (map (fun _ => []) ls).
Proof.
  intros text ls Hl B. destruct (dedent_lines text ls Hl) as (w & ls' & L & F & _). replace (map (fun _ => []) ls) with ls'; auto.
  clear L Hl. induction F as [|l l' ls0 ls1 H F IH]; [reflexivity|]. cbn [map]. f_equal; [|apply IH; intros x I; apply B; simpl; auto].
  destruct H as [(_ & ->)|(N & _)]; [reflexivity|]. exfalso. apply N, B. simpl. auto.
Qed.

(** [reindented t t']: [t'] is [t] with every line that has more than blanks indented further by the same blanks; lines of blanks may
    be any others. *)
Definition reindented (t t' : str) : Prop :=
  exists w ls ls', blank w /\ lines_of t ls /\ lines_of t' ls' /\
    Forall2 (fun l l' => (blank l /\ blank l') \/ (~ blank l /\ l' = w ++ l)) ls ls'.

(** A text can be indented as a whole. *)
Theorem C94_indented : forall t t', reindented t t' -> dedent t' = dedent t.
Proof.
  intros t t' (w & ls & ls' & Bw & Hl & Hl' & F).
  destruct (dedent_lines t ls Hl) as (m & out & Lo & Fo & Io & Co). destruct (dedent_lines t' ls' Hl') as (m' & out' & Lo' & Fo' & Io' & Co').
  assert (E : out' = out).
  { assert (Nb : forall l, ~ blank l -> ~ blank (w ++ l)) by (intros l N B; apply blank_app in B; tauto).
    destruct (some_other ls) as [Ex|B].
    - assert (Ex' : exists l, In l ls' /\ ~ blank l).
      { destruct Ex as (l & I & N). clear - F I N Nb. induction F as [|a b ls ls' H F IH]; [destruct I|]. destruct I as [->|I].
        - destruct H as [(B & _)|(_ & ->)]; [tauto|]. exists (w ++ l). simpl. auto.
        - destruct (IH I) as (x & Ix & Nx). exists x. simpl. auto. }
      assert (I1 : forall v, indented_by v ls -> indented_by (w ++ v) ls').
      { intros v (Bv & Pv). split; [now apply blank_app|]. clear - F Pv. induction F as [|a b ls ls' H F IH]; [intros ? []|].
        intros x [<-|I] N; [|apply IH; auto; intros y Iy; apply Pv; simpl; auto]. destruct H as [(_ & B)|(Na & ->)]; [tauto|].
        destruct (Pv a (or_introl eq_refl) Na) as (r & ->). exists r. now rewrite app_assoc. }
      assert (I2 : forall v, indented_by (w ++ v) ls' -> indented_by v ls).
      { intros v (Bv & Pv). apply blank_app in Bv. split; [tauto|]. clear - F Pv Nb. induction F as [|a b ls ls' H F IH]; [intros ? []|].
        intros x [<-|I] N; [|apply IH; auto; intros y Iy; apply Pv; simpl; auto]. destruct H as [(B & _)|(Na & ->)]; [tauto|].
        destruct (Pv (w ++ a) (or_introl eq_refl) (Nb _ Na)) as (r & Er). rewrite <- app_assoc in Er. apply app_inv_head in Er. eauto. }
      destruct (Co Ex) as (Im & Cm). destruct (Co' Ex') as (Im' & Cm').
      assert (m' = w ++ m).
      { destruct (Cm' _ (I1 _ Im)) as (r & Er). rewrite Er, <- app_assoc in Im'. apply I2 in Im'. destruct (Cm _ Im') as (r' & Er').
        rewrite <- app_assoc in Er'. rewrite <- (app_nil_r m) in Er' at 1. apply app_inv_head in Er'. symmetry in Er'. apply app_eq_nil in Er'. destruct Er' as (-> & _).
        now rewrite app_nil_r in Er. }
      subst m'. clear - F Fo Fo' Nb. revert out out' Fo Fo'. induction F as [|a b ls ls' H F IH]; intros out out' Fo Fo'; inversion Fo; inversion Fo'; subst; [reflexivity|].
      f_equal; [|eauto]. destruct H as [(A & B)|(A & ->)].
      + match goal with H1 : shifted m a ?x, H2 : shifted (w ++ m) b ?y |- _ => destruct H1 as [(_ & ->)|(N & _)]; [|tauto]; destruct H2 as [(_ & ->)|(N & _)]; [|tauto] end. reflexivity.
      + match goal with H1 : shifted m a ?x, H2 : shifted (w ++ m) (w ++ a) ?y |- _ =>
          destruct H1 as [(X & _)|(_ & ->)]; [tauto|]; destruct H2 as [(X & _)|(_ & X)]; [apply Nb in A; tauto|] end.
        rewrite <- app_assoc in X. apply app_inv_head in X. apply app_inv_head in X. now symmetry.
    - assert (B' : forall l, In l ls' -> blank l).
      { clear - F B. induction F as [|a b ls ls' H F IH]; [intros ? []|]. intros x [<-|I]; [|apply IH; auto; intros y Iy; apply B; simpl; auto].
        destruct H as [(_ & H)|(H & _)]; auto. exfalso. apply H, B. simpl. auto. }
      clear - F Fo Fo' B B'. revert out out' Fo Fo'. induction F as [|a b ls ls' H F IH]; intros out out' Fo Fo'; inversion Fo; inversion Fo'; subst; [reflexivity|].
      f_equal; [|apply IH; auto; intros x I; [apply B|apply B']; simpl; auto].
      match goal with H1 : shifted m a ?x, H2 : shifted m' b ?y |- _ => destruct H1 as [(_ & ->)|(N & _)]; [|exfalso; apply N, B; simpl; auto];
        destruct H2 as [(_ & ->)|(N & _)]; [|exfalso; apply N, B'; simpl; auto] end. reflexivity. }
  destruct Lo as (_ & _ & ->). destruct Lo' as (_ & _ & ->). now rewrite E.
Qed.

(** Which texts stay as they are: those with a line in the first column and no line of blanks (but empty ones). *)
Theorem C94_kept : forall text ls, lines_of text ls ->
  (dedent text = text <-> (forall l, In l ls -> blank l -> l = []) /\
                          ((exists l, In l ls /\ ~ blank l) -> forall w, indented_by w ls -> w = [])).
Proof.
  intros text ls Hl. destruct (dedent_lines text ls Hl) as (m & out & Lo & Fo & Io & Co). split.
  - intro E. rewrite E in Lo. pose proof (lines_split _ _ Hl) as E1. rewrite <- (lines_split _ _ Lo) in E1. subst out. clear Lo E.
    split.
    + intros l I B. clear - Fo I B. remember ls as ls2 eqn:E2 in Fo at 2. assert (F : Forall2 (fun a b => a = b /\ shifted m a b) ls ls).
      { subst ls2. clear I. induction ls; [constructor|]. inversion Fo; subst. constructor; auto. }
      clear - F I B. induction ls as [|a ls IH]; [destruct I|]. inversion F as [|? ? ? ? (_ & H) F']; subst. destruct I as [->|I]; [|auto].
      destruct H as [(_ & H)|(H & _)]; tauto.
    + intros Ex w Iw. destruct (Co Ex) as (_ & C). destruct (C _ Iw) as (r & Er). destruct Ex as (l & I & N).
      assert (X : l = m ++ l).
      { clear - Fo I N. assert (F : Forall2 (fun a b => a = b /\ shifted m a b) ls ls) by (clear I; induction ls; [constructor|]; inversion Fo; subst; constructor; auto).
        induction ls as [|a ls IH]; [destruct I|]. inversion F as [|? ? ? ? (_ & H) F']; subst. inversion Fo; subst. destruct I as [->|I]; [|auto].
        destruct H as [(H & _)|(_ & H)]; tauto. }
      assert (m = []) as -> by (apply (f_equal (@List.length _)) in X; rewrite app_length in X; destruct m; [reflexivity|cbn in X; lia]).
      symmetry in Er. now apply app_eq_nil in Er.
  - intros (H1 & H2). destruct Lo as (_ & _ & ->). destruct Hl as (_ & _ & ->). f_equal.
    assert (Em : (exists l, In l ls /\ ~ blank l) -> m = []) by (intro Ex; now apply H2).
    clear Co Io H2. induction Fo as [|a b ls out H F IH]; [reflexivity|]. f_equal.
    + destruct H as [(B & ->)|(N & E)]; [symmetry; apply H1; simpl; auto|]. rewrite E. rewrite Em by (exists a; simpl; auto). reflexivity.
    + apply IH; [intros l I; apply H1; simpl; auto|]. intros (l & I & N). apply Em. exists l. simpl. auto.
Qed.

(** The result has no common indentation left: dedenting again changes nothing. *)
Theorem C94_again : forall text, dedent (dedent text) = dedent text.
Proof.
  intro text. pose proof (split_lines text) as Hl. set (ls := split 10 text) in *. destruct (dedent_lines text ls Hl) as (m & out & Lo & Fo & Io & Co).
  apply (proj2 (C94_kept _ _ Lo)). split.
  - intros l' I B. clear Co Lo Hl. revert I. destruct Io as (Bm & _). clearbody ls. induction Fo as [|a b ls0 out H F IH]; [intros []|]. intros [<-|I]; auto.
    destruct H as [(_ & ->)|(N & ->)]; [reflexivity|]. exfalso. apply N. now apply blank_app.
  - intros (l' & I' & N') w (Bw & Pw). destruct Io as (Bm & Pm).
    assert (Ex : exists l, In l ls /\ ~ blank l).
    { clear - Fo I' N'. induction Fo as [|a b ls0 out H F IH]; [destruct I'|]. destruct I' as [->|I'].
      - destruct H as [(_ & ->)|(N & _)]; [exfalso; apply N', blank_nil|]. exists a. simpl. auto.
      - destruct (IH I') as (x & Ix & Nx). exists x. simpl. auto. }
    destruct (Co Ex) as (_ & C). destruct (C (m ++ w)) as (r & Er).
    + split; [now apply blank_app|]. intros l I N. clear - Fo Pw I N Bm. induction Fo as [|a b ls0 out H F IH]; [destruct I|]. destruct I as [->|I].
      * destruct H as [(X & _)|(_ & ->)]; [tauto|]. destruct (Pw b (or_introl eq_refl)) as (r & ->); [intro X; apply N, blank_app; auto|]. exists r. now rewrite app_assoc.
      * apply IH; auto. intros x Ix. apply Pw. simpl. auto.
    + rewrite <- app_assoc in Er. rewrite <- (app_nil_r m) in Er at 1. apply app_inv_head in Er. symmetry in Er. now apply app_eq_nil in Er.
Qed.

(** ** Tests *)

(** The text after a newline at the start, if there is one. *)
Definition after_newline (src text : str) : Prop := src = 10%N :: text \/ (src = text /\ forall s, src <> 10%N :: s).

(** [laid_out src src']: the same text, but indented, and with or without a newline at the start. *)
Definition laid_out (src src' : str) : Prop := exists t t', after_newline src t /\ after_newline src' t' /\ reindented t t'.

(** The same case with its code, and the code expected, laid out in another way. *)
Definition same_case (t t' : tcase) : Prop :=
  match t, t' with
  | TValid c, TValid c' => laid_out c c'
  | TInvalid i, TInvalid i' =>
      laid_out (n_code i) (n_code i') /\ n_range i = n_range i' /\ n_message i = n_message i' /\
      match n_replacement i, n_replacement i' with
      | None, None => True
      | Some e, Some e' => e = e' \/ (e <> [] /\ e' <> [] /\ laid_out e e')
      | _, _ => False
      end
  | _, _ => False
  end.

Lemma laid_out_dedent : forall L src src', (forall s, l_dedent L s = dedent s) -> laid_out src src' -> Testing.dedent L src = Testing.dedent L src'.
Proof.
  intros L src src' D (t & t' & A & A' & R).
  assert (G : forall s t, after_newline s t -> Testing.dedent L s = dedent t).
  { intros s x [->|(-> & N)]; unfold Testing.dedent.
    - apply D.
    - destruct x as [|c x]; [apply D|]. destruct (N.eqb_spec c 10) as [->|_]; [exfalso; apply (N x); reflexivity|apply D]. }
  rewrite (G _ _ A), (G _ _ A'). symmetry. now apply C94_indented.
Qed.

(** The layout of a case does not matter for its test. *)
Theorem C94_tests : forall L st t t' r, (forall s, l_dedent L s = dedent s) -> same_case t t' -> test_method L st t r = test_method L st t' r.
Proof.
  intros L st t t' r D S. unfold test_method. destruct (nth_error st r) as [i0|]; [|reflexivity]. unfold test_case.
  assert (Ec : Testing.dedent L (case_code t) = Testing.dedent L (case_code t')).
  { destruct t, t'; cbn in S |- *; try contradiction; [now apply laid_out_dedent|apply laid_out_dedent; tauto]. }
  assert (Ek : forall md reports, check L md t reports = check L md t' reports).
  { intros md reports. destruct t as [c|i], t' as [c'|i']; cbn in S; try contradiction; [reflexivity|]. destruct S as (_ & Er & Em & Ee). cbn [check].
    assert (X : forall v, expected i v = expected i' v) by (intro v; unfold expected; now rewrite Er, Em).
    assert (Y : forallb (expected i) reports = forallb (expected i') reports) by (induction reports; cbn [forallb]; congruence). rewrite Y.
    assert (Z : check_replacement L md i reports = check_replacement L md i' reports).
    { unfold check_replacement. destruct (n_replacement i) as [e|], (n_replacement i') as [e'|]; try contradiction; [|reflexivity].
      destruct Ee as [->|(N & N' & Le)]; [reflexivity|]. rewrite (laid_out_dedent L e e' D Le). destruct e; [congruence|]. destruct e'; [congruence|]. reflexivity. }
    now rewrite Z. }
  assert (Ev : is_valid t = is_valid t') by (destruct t, t'; cbn in S |- *; try contradiction; reflexivity).
  rewrite Ec, Ev. destruct (bind _ _) as [md|e]; [|reflexivity]. destruct (nth_error _ _) as [i1|]; [|reflexivity].
  destruct (l_visit L (i_class i1) md) as [vs|e]; [|reflexivity]. destruct (collect_violations _ _ _ _) as [evs [n|e]]; [|reflexivity]. now rewrite Ek.
Qed.

(** What fixes give is compared as it is: when it has a line of blanks, or all its lines are indented, no expected code lets the test pass. *)
Theorem C94_untestable : forall L st r inst i e md vs md' b code ls,
  (forall s, l_dedent L s = dedent s) -> nth_error st r = Some inst -> single_fix L (i_class inst) (TInvalid i) ->
  n_replacement i = Some e -> e <> [] -> case_module L (TInvalid i) md -> l_visit L (i_class inst) md = Ok vs ->
  apply_replacements md vs = Ok (Some md') -> l_bytes L md' = Ok b -> l_decode L b = Ok code -> lines_of code ls ->
  (exists l, In l ls /\ blank l /\ l <> []) \/ ((exists l, In l ls /\ ~ blank l) /\ exists w, w <> [] /\ indented_by w ls) ->
  fst (test_method L st (TInvalid i) r) <> Pass.
Proof.
  intros L st r inst i e md vs md' b code ls D N Si Er Ne Cm Ev Ea Eb Ed Hl Bad P. apply (@C45_passes L st r inst _ N Si) in P.
  destruct P as (md0 & vs0 & Cm0 & Ev0 & _ & Ex). assert (md0 = md) as ->.
  { destruct Cm as (c1 & x1 & R1 & E1 & P1). destruct Cm0 as (c0 & x0 & R0 & E0 & P0). apply read_as_iff in R1. apply read_as_iff in R0. congruence. }
  assert (vs0 = vs) as -> by congruence. destruct Ex as (_ & _ & Ex). destruct (Ex e Er Ne) as (m2 & b2 & code2 & E1 & E2 & E3 & R).
  assert (code2 = code) as -> by congruence. apply read_as_iff in R. unfold Testing.dedent in R. rewrite D in R.
  assert (K : dedent code = code) by (rewrite R; apply C94_again). apply (C94_kept _ _ Hl) in K. destruct K as (K1 & K2).
  destruct Bad as [(l & I & B & Nl)|(Ex' & w & Nw & Iw)]; [apply Nl; auto|apply Nw; auto].
Qed.

(** The code tested need not be the code written, even if that begins in the first column: blanks in a string of several lines are lost. *)
Theorem C94_code_refuted : ~ (forall text ls, lines_of text ls -> (exists c l rest, In l ls /\ l = c :: rest /\ ~ blank [c]) -> dedent text = text).
Proof.
  intro H. specialize (H (u "s = '''" ++ [10; 32; 10]%N ++ u "'''") [u "s = '''"; [32%N]; u "'''"]).
  assert (X : dedent (u "s = '''" ++ [10; 32; 10]%N ++ u "'''") = u "s = '''" ++ [10; 32; 10]%N ++ u "'''"); [|vm_compute in X; discriminate]. apply H.
  - apply lines_join; [discriminate|]. intros l [<-|[<-|[<-|[]]]]; vm_compute; intuition discriminate.
  - exists 115%N, (u "s = '''"), (u " = '''"). split; [simpl; auto|]. split; [reflexivity|]. apply not_blank_iff. reflexivity.
Qed.

(** ** A concrete case *)
Definition example_code : str := u "if x:" ++ [10; 9; 10]%N ++ u "    y".
Definition example_indented : str := [10; 32; 32]%N ++ u "if x:" ++ [10; 10; 32; 32]%N ++ u "    y".
Example C94_example : laid_out example_code example_indented /\ dedent example_code = u "if x:" ++ [10; 10]%N ++ u "    y" /\
  dedent (skipn 1 example_indented) = dedent example_code.
Proof.
  split; [|split; vm_compute; reflexivity].
  assert (Lc : lines_of example_code [u "if x:"; [9%N]; u "    y"]).
  { apply lines_join; [discriminate|]. intros l [<-|[<-|[<-|[]]]]; vm_compute; intuition discriminate. }
  assert (Li : lines_of (skipn 1 example_indented) [u "  if x:"; []; u "      y"]).
  { apply lines_join; [discriminate|]. intros l [<-|[<-|[<-|[]]]]; vm_compute; intuition discriminate. }
  exists example_code, (skipn 1 example_indented). split; [right; split; [reflexivity|intros s X; vm_compute in X; discriminate]|]. split; [left; reflexivity|].
  exists (u "  "), [u "if x:"; [9%N]; u "    y"], [u "  if x:"; []; u "      y"].
  split; [apply blank_iff; reflexivity|]. split; [exact Lc|]. split; [exact Li|]. constructor; [|constructor; [|constructor; [|constructor]]].
  - right. split; [apply not_blank_iff|]; reflexivity.
  - left. split; apply blank_iff; reflexivity.
  - right. split; [apply not_blank_iff|]; reflexivity.
Qed.

(** The hypotheses of C94_untestable: a rule of TestingProps whose fixed code ends with a line of one space. *)
Definition lab1 : lab := Lab dedent Ok (fun b => Ok (b ++ [32%N])) (l_parse lab0) (l_bytes lab0) (l_udiff lab0) (l_visit lab0).
Example C94_example_untestable : forall e, e <> [] ->
  fst (test_method lab1 [Inst good []] (TInvalid (Invalid (u "b") None None (Some e))) 0) <> Pass.
Proof.
  intros e Ne. eapply (C94_untestable lab1 [Inst good []] 0 (Inst good []) _ e ex_module) with (ls := [u "x = f(99, 2)"; [32%N]]); try reflexivity; auto.
  - intros i0 e0 md v _ _ _ V. cbn in V. destruct (N.eqb _ _); discriminate.
  - exists (u "b"), (u "b"). split; [right; split; [discriminate|reflexivity]|]. split; reflexivity.
  - apply lines_join; [discriminate|]. intros l [<-|[<-|[]]]; vm_compute; intuition discriminate.
  - left. exists [32%N]. split; [simpl; auto|]. split; [apply blank_iff; reflexivity|discriminate].
Qed.
