(** * C33: capture routes answers *)
From Coq Require Import String List NArith Bool Arith Lia.
From Verif Require Import Base Capture.
Import ListNotations.

(** The generator used directly: each answer sent for the result before it. *)
Fixpoint direct {Y S R} (st : gstate Y S R) (answers : list (option S)) : list (out Y R) :=
  match answers with
  | [] => []
  | a :: answers' => let (st', o) := send st a in o :: direct st' answers'
  end.

(** The answer of a round: what was sent, else what was responded last, else None. *)
Definition answer {S} (round : list S * option S) : option S :=
  match snd round with
  | Some a => Some a
  | None => match rev (fst round) with a :: _ => Some a | [] => None end
  end.

(** The generator's return value, if it was reached. *)
Fixpoint returned {Y R} (os : list (out Y R)) : option R :=
  match os with
  | [] => None
  | Item _ :: os' => returned os'
  | Stop r :: _ => r
  | Exc _ :: _ => None
  end.

Lemma respond_all : forall Y S R (rs : list S) (c : cap Y S R),
  fold_left (@respond Y S R) rs c =
  Cap (c_gen c) (match rev rs with a :: _ => Some a | [] => c_send c end) (c_result c).
Proof.
  intros Y S R rs. induction rs as [|a rs IH] using rev_ind; intro c.
  - destruct c; reflexivity.
  - rewrite fold_left_app, IH, rev_app_distr. reflexivity.
Qed.

Lemma use_waiting : forall Y S R rounds (c : cap Y S R) k,
  c_gen c = Suspended k -> c_send c = None ->
  let '(c', it, os) := use c IWaiting rounds in
  os = direct (Suspended k) (map answer rounds) /\
  c_result c' = match returned os with Some r => Some (Some r) | None => c_result c end.
Proof.
  intros Y S R. induction rounds as [|[rs v] rounds IH]; intros c k G N; [split; reflexivity|].
  cbn [use map direct send]. rewrite respond_all. unfold it_send.
  assert (Ht : turn (match v with
       | Some _ => Cap (c_gen (Cap (c_gen c) (match rev rs with a :: _ => Some a | [] => c_send c end) (c_result c))) v
                    (c_result (Cap (c_gen c) (match rev rs with a :: _ => Some a | [] => c_send c end) (c_result c)))
       | None => Cap (c_gen c) (match rev rs with a :: _ => Some a | [] => c_send c end) (c_result c) end) =
    turn (Cap (c_gen c) (answer (rs, v)) (c_result c))).
  { unfold answer. cbn [fst snd c_gen c_result]. destruct v; [reflexivity|]. rewrite N. destruct (rev rs); reflexivity. }
  rewrite Ht. unfold turn. cbn [c_gen c_send c_result]. rewrite G. cbn [send].
  destruct (k (answer (rs, v))) as [r|e|y k'] eqn:E; cbn [resume].
  - assert (D : forall l c, let '(c', it, os) := use c (IDone) l in
        os = direct (@Finished Y S R) (map answer l) /\ c_result c' = c_result c).
    { clear. induction l as [|[rs v] l IHl]; intro c; [split; reflexivity|]. cbn [use it_send map direct send].
      specialize (IHl (fold_left (respond (R:=R)) rs c)). rewrite respond_all in *.
      destruct (use _ IDone l) as [[c' it] os]. destruct IHl as [-> H]. split; [reflexivity|]. rewrite H. reflexivity. }
    specialize (D rounds (Cap Finished (answer (rs, v)) (Some (Some r)))).
    destruct (use _ IDone rounds) as [[c' it] os]. destruct D as [-> D]. split; [reflexivity|]. cbn [returned]. exact D.
  - assert (D : forall l c, let '(c', it, os) := use c (IDone) l in
        os = direct (@Finished Y S R) (map answer l) /\ c_result c' = c_result c).
    { clear. induction l as [|[rs v] l IHl]; intro c; [split; reflexivity|]. cbn [use it_send map direct send].
      specialize (IHl (fold_left (respond (R:=R)) rs c)). rewrite respond_all in *.
      destruct (use _ IDone l) as [[c' it] os]. destruct IHl as [-> H]. split; [reflexivity|]. rewrite H. reflexivity. }
    specialize (D rounds (Cap Finished (answer (rs, v)) (c_result c))).
    destruct (use _ IDone rounds) as [[c' it] os]. destruct D as [-> D]. split; [reflexivity|]. cbn [returned]. exact D.
  - specialize (IH (Cap (Suspended k') None (c_result c)) k' eq_refl eq_refl).
    destruct (use _ IWaiting rounds) as [[c' it] os]. destruct IH as [-> IH]. split; [reflexivity|]. cbn [returned]. exact IH.
Qed.

Lemma use_done : forall Y S R l (c : cap Y S R), let '(c', it, os) := use c IDone l in
  os = direct (@Finished Y S R) (map answer l) /\ c_result c' = c_result c.
Proof.
  intros Y S R. induction l as [|[rs v] l IHl]; intro c; [split; reflexivity|]. cbn [use it_send map direct send].
  specialize (IHl (fold_left (respond (R:=R)) rs c)). rewrite respond_all in *.
  destruct (use _ IDone l) as [[c' it] os]. destruct IHl as [-> H]. split; [reflexivity|]. rewrite H. reflexivity.
Qed.

(** Iterating over capture, with answers from the second step on, is using the generator directly
    with those answers; afterwards [result] is its return value. *)
Theorem C33_routing : forall Y S R (g : gen Y S R) rounds,
  let '(c, it, os) := use (new_cap g) INew (([], None) :: rounds) in
  os = direct (NotStarted g) (None :: map answer rounds) /\
  result_of c = match returned os with Some r => Ok (Some r) | None => Err ValueError end.
Proof.
  intros Y S R g rounds. cbn [use fold_left it_send]. unfold turn, new_cap. cbn [c_gen c_send c_result send].
  cbn [direct send]. destruct g as [r|e|y k]; cbn [resume].
  - pose proof (use_done Y S R rounds (Cap Finished None (Some (Some r)))) as D.
    destruct (use _ IDone rounds) as [[c it] os]. destruct D as [-> D]. split; [reflexivity|].
    unfold result_of. rewrite D. reflexivity.
  - pose proof (use_done Y S R rounds (Cap Finished None None)) as D.
    destruct (use _ IDone rounds) as [[c it] os]. destruct D as [-> D]. split; [reflexivity|].
    unfold result_of. rewrite D. reflexivity.
  - pose proof (use_waiting Y S R rounds (Cap (Suspended k) None None) k eq_refl eq_refl) as D.
    destruct (use _ IWaiting rounds) as [[c it] os]. destruct D as [-> D]. split; [reflexivity|].
    unfold result_of. rewrite D. cbn [returned]. destruct (returned _); reflexivity.
Qed.

(** Answering before the first result breaks the iteration with a TypeError. *)
Theorem C33_early_respond : forall Y S R (g : gen Y S R) a v rounds,
  v = None ->
  let '(c, it, os) := use (new_cap g) INew (([a], v) :: rounds) in
  os = Exc TypeError :: map (fun _ => Stop None) rounds /\ c_gen c = NotStarted g.
Proof.
  intros Y S R g a v rounds ->. cbn [use fold_left it_send respond new_cap turn send c_gen c_send c_result].
  assert (D : forall l (c : cap Y S R), let '(c', it, os) := use c IDone l in
     os = map (fun _ => Stop None) l /\ c_gen c' = c_gen c).
  { clear. induction l as [|[rs v] l IHl]; intro c; [split; reflexivity|]. cbn [use it_send map].
    specialize (IHl (fold_left (respond (R:=R)) rs c)). rewrite respond_all in *.
    destruct (use _ IDone l) as [[c' it] os]. destruct IHl as [-> H]. split; [reflexivity|]. rewrite H. reflexivity. }
  specialize (D rounds (Cap (NotStarted g) (Some a) None)).
  destruct (use _ IDone rounds) as [[c it] os]. destruct D as [-> D]. auto.
Qed.

(** Iterating a second time makes the captured result None. *)
Theorem C33_reiterate_refuted : ~ (forall Y S R (g : gen Y S R) rounds1 rounds2 r,
  let '(c, _, _) := use (new_cap g) INew rounds1 in
  result_of c = Ok r -> let '(c', _, _) := use c INew rounds2 in result_of c' = Ok r).
Proof.
  intro H. specialize (H nat bool nat (GRet 5) [([], None)] [([], None)] (Some 5)). cbn in H.
  specialize (H eq_refl). discriminate.
Qed.

Example C33_example :
  let g := GYield 1 (fun a => GYield 2 (fun b => GRet (a, b))) : gen nat bool (option bool * option bool) in
  let '(c, it, os) := use (new_cap g) INew [([], None); ([false; true], None); ([true], Some false)] in
  os = [Item 1; Item 2; Stop (Some (Some true, Some false))] /\ result_of c = Ok (Some (Some true, Some false)) /\
  fst (fst (use (new_cap g) INew [([], None)])) <> c.
Proof. repeat split. discriminate. Qed.
