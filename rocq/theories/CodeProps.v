(** * C26: the text of a file with and without a final newline *)
From Coq Require Import String List NArith Bool Arith Lia.
From Verif Require Import Base Cst Engine EngineSpec EditFacts EngineProps.
Import ListNotations.

(** A line ending at the end of a text, that is not the second half of another one *)
Definition line_end (text nl : str) : Prop :=
  nl = [13; 10]%N \/ nl = [13%N] \/ (nl = [10%N] /\ forall s, text <> s ++ [13%N]).

Lemma finish_without : forall d text nl, line_end text nl -> finish false d (text ++ nl) = text.
Proof.
  intros d text nl [-> |[-> |[-> N]]]; unfold finish; rewrite rev_app_distr; cbn [rev app].
  - apply rev_involutive.
  - destruct (rev text) as [|a r] eqn:E; rewrite <- (rev_involutive text), E; reflexivity.
  - assert (T : text = rev (rev text)) by (symmetry; apply rev_involutive). destruct (rev text) as [|a r] eqn:E; [now rewrite T|].
    destruct (N.eqb_spec a 13) as [->|Na].
    + exfalso. apply (N (rev r)). exact T.
    + rewrite T. destruct a as [|p]; [reflexivity|]. do 4 (destruct p as [p|p|]; try reflexivity; try congruence).
Qed.

(** The file ends with a newline: the new content is the old one with the edits. *)
Theorem C26_code : forall m vs m', m_newline m = true ->
  parsed (m_tree m) -> replacements vs (node_id (m_tree m)) = None -> apply_replacements m vs = Ok (Some m') ->
  render [] false (m_tree m) <> [] ->
  exists es, (forall e, In e es <-> edit_in (replacements vs) [] false false 0 (m_tree m) e) /\ in_order 0 es (List.length (code m)) /\
    (apply_edits 0 es (code m) <> [] -> code m' = apply_edits 0 es (code m)) /\
    (apply_edits 0 es (code m) = [] -> code m' = m_default_newline m).
Proof.
  intros m vs m' Nl P R H Ne. destruct (C26_edits m vs m' P R H) as (es & A & B & C & D). rewrite Nl in C, D.
  assert (E : code m = render [] false (m_tree m)) by (rewrite D; unfold finish; destruct (render [] false (m_tree m)); [congruence|reflexivity]).
  exists es. rewrite E. split; auto. split; auto. rewrite C. unfold finish. destruct (apply_edits 0 es (render [] false (m_tree m))); split; congruence.
Qed.

(** The file ends without a newline: no newline is added. *)
Theorem C26_code_no_newline : forall m vs m' text nl, m_newline m = false ->
  parsed (m_tree m) -> replacements vs (node_id (m_tree m)) = None -> apply_replacements m vs = Ok (Some m') ->
  render [] false (m_tree m) = text ++ nl -> line_end text nl ->
  code m = text /\
  exists es, (forall e, In e es <-> edit_in (replacements vs) [] false false 0 (m_tree m) e) /\
    (in_order 0 es (List.length text) -> line_end (apply_edits 0 es text) nl -> code m' = apply_edits 0 es (code m)).
Proof.
  intros m vs m' text nl Nl P R H E L. destruct (C26_edits m vs m' P R H) as (es & A & B & C & D). rewrite Nl, E in C, D. rewrite finish_without in D by exact L.
  split; [exact D|]. exists es. split; auto. intros O L'. rewrite D, C.
  pose proof (apply_edits_app es [] 0 text nl O) as K. cbn [Nat.add] in K. rewrite app_nil_r in K. rewrite K by (cbn; lia). cbn [apply_edits]. now rewrite finish_without.
Qed.

(** a file "x" without newline whose tree gives the newline anyway *)
Definition ex_no_newline : module := Mod (Node 1 false [Txt (u "x"); Txt [10%N]]) false [10%N].
Example C26_code_example : code ex_no_newline = u "x" /\ line_end (u "x") [10%N] /\
  render [] false (m_tree ex_no_newline) = u "x" ++ [10%N] /\ apply_replacements ex_no_newline [] = Ok (Some ex_no_newline).
Proof.
  split; [reflexivity|]. split; [|split; reflexivity]. right. right. split; [reflexivity|]. intros s H. destruct s as [|a [|b s]]; discriminate.
Qed.
