(** * What the string functions of PyStr.v compute

    PyStr models methods of Python's str. Most of the definitions occur in proofs through lemmas
    of the files using them; this file pins the rest down. *)
From Coq Require Import String List NArith ZArith Bool Arith Lia.
From Verif Require Import Base PyStr Lsp.
Import ListNotations.
Local Open Scope N_scope.

(** The characters for which [str.isspace] holds (Unicode 13-15, CPython 3.8-3.12). *)
Definition spaces : str :=
  [9; 10; 11; 12; 13; 28; 29; 30; 31; 32; 133; 160; 5760; 8192; 8193; 8194; 8195; 8196; 8197; 8198; 8199; 8200; 8201; 8202;
   8232; 8233; 8239; 8287; 12288].

Lemma is_space_spaces : forall c, is_space c = true <-> In c spaces.
Proof.
  intro c. unfold is_space, spaces. rewrite !orb_true_iff, !andb_true_iff, !N.leb_le, !N.eqb_eq. cbn [In]. lia.
Qed.

(** The characters at which [str.splitlines] breaks. *)
Definition breaks : str := [10; 11; 12; 13; 28; 29; 30; 133; 8232; 8233].
Lemma is_linebreak_breaks : forall c, is_linebreak c = true <-> In c breaks.
Proof.
  intro c. unfold is_linebreak, breaks. rewrite !orb_true_iff, !andb_true_iff, !N.leb_le, !N.eqb_eq. cbn [In]. lia.
Qed.

(** Lower case: the 26 letters of ASCII, everything else stays, as long as all are ASCII. *)
Lemma lower_ascii : forall U s, (forall c, In c s -> c < 128) ->
  List.length (lower U s) = List.length s /\
  forall i c, nth_error s i = Some c ->
    nth_error (lower U s) i = Some (if existsb (N.eqb c) (u "ABCDEFGHIJKLMNOPQRSTUVWXYZ") then c + 32 else c).
Proof.
  intros U s H. unfold lower. replace (forallb (fun c => c <? 128) s) with true.
  - split; [apply map_length|]. intros i c N. rewrite (map_nth_error _ _ _ N). f_equal. unfold ascii_lower.
    destruct (existsb (N.eqb c) (u "ABCDEFGHIJKLMNOPQRSTUVWXYZ")) eqn:E.
    + apply existsb_exists in E. destruct E as (x & I & E). apply N.eqb_eq in E. subst x. vm_compute in I.
      repeat (destruct I as [<-|I]; [reflexivity|]). contradiction.
    + destruct ((65 <=? c) && (c <=? 90)) eqn:B; auto. exfalso. apply andb_true_iff in B. rewrite !N.leb_le in B.
      assert (X : existsb (N.eqb c) (u "ABCDEFGHIJKLMNOPQRSTUVWXYZ") = true); [|congruence].
      apply existsb_exists. exists c. split; [|apply N.eqb_refl]. vm_compute. lia.
  - symmetry. apply forallb_forall. intros c I. apply N.ltb_lt. auto.
Qed.
(** Otherwise the Unicode data base decides. *)
Lemma lower_other : forall U s c, In c s -> 128 <= c -> lower U s = uni_lower U s.
Proof.
  intros U s c I L. unfold lower. replace (forallb (fun c => c <? 128) s) with false; auto. symmetry.
  destruct (forallb (fun c => c <? 128) s) eqn:E; auto. rewrite forallb_forall in E. specialize (E c I). apply N.ltb_lt in E. lia.
Qed.

(** [sep.join(l)] puts [sep] between the elements; splitting at a separator gives them back. *)
Lemma join_spec : forall sep,
  join sep [] = [] /\ (forall x, join sep [x] = x) /\ forall x y l, join sep (x :: y :: l) = x ++ sep ++ join sep (y :: l).
Proof. intro sep. repeat split. Qed.
Lemma split_join : forall c l, l <> [] -> (forall x, In x l -> ~ In c x) -> split c (join [c] l) = l.
Proof.
  intros c l. assert (S0 : forall x, ~ In c x -> split c x = [x]).
  { induction x as [|a x IH]; intro H; [reflexivity|]. cbn [split]. destruct (N.eqb_spec a c) as [->|]; [exfalso; apply H; simpl; auto|].
    rewrite IH by (intro; apply H; simpl; auto). reflexivity. }
  assert (S1 : forall x s, ~ In c x -> split c (x ++ c :: s) = x :: split c s).
  { induction x as [|a x IH]; intros s H; cbn [app split].
    - now rewrite N.eqb_refl.
    - destruct (N.eqb_spec a c) as [->|]; [exfalso; apply H; simpl; auto|]. rewrite IH by (intro; apply H; simpl; auto). reflexivity. }
  induction l as [|x [|y l] IH]; intros N H; [congruence|apply S0, H; simpl; auto|].
  change (join [c] (x :: y :: l)) with (x ++ c :: join [c] (y :: l)). rewrite S1 by (apply H; simpl; auto). f_equal. apply IH; [discriminate|].
  intros z I. apply H. simpl in *. tauto.
Qed.
