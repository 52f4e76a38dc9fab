(** * C98: where the language server listens *)
From Coq Require Import List ZArith Bool Lia.
From Verif Require Import Serve.
Import ListNotations.

(** ** Specification *)

(** The value of the last such option, if there is one. *)
Definition last_of {A} (pick : given_option -> option A) (gs : list given_option) (v : option A) : Prop :=
  (v = None /\ forall g, In g gs -> pick g = None) \/
  (exists before g after, gs = before ++ g :: after /\ pick g = v /\ v <> None /\ forall g', In g' after -> pick g' = None).

Definition tcp_of (g : given_option) : option Z := match g with GTcp n => Some n | _ => None end.
Definition ws_of (g : given_option) : option Z := match g with GWs n => Some n | _ => None end.
Definition stdio_of (g : given_option) : option bool := match g with GStdio b => Some b | _ => None end.

(** The command line asks for the channel. *)
Definition asks (gs : list given_option) (c : channel) : Prop :=
  match c with
  | Ws n => last_of ws_of gs (Some n)
  | Tcp n => last_of tcp_of gs (Some n)
  | Stdio => last_of stdio_of gs (Some true) \/ last_of stdio_of gs None
  end.

(** Port 0 *)
Definition zero (c : channel) : Prop := c = Ws 0 \/ c = Tcp 0.

(** Web sockets before TCP before standard input and output *)
Definition rank (c : channel) : nat := match c with Ws _ => 0 | Tcp _ => 1 | Stdio => 2 end.

(** The channels that were opened, and those that were closed again. *)
Definition opened (es : list serve_event) : list channel := flat_map (fun e => match e with Opened c => [c] | Closed _ => [] end) es.
Definition closed (es : list serve_event) : list channel := flat_map (fun e => match e with Closed c => [c] | Opened _ => [] end) es.

(** ** Proofs *)

Lemma last_of_snoc : forall A (pick : given_option -> option A) gs g v,
  last_of pick (gs ++ [g]) v <-> (pick g <> None /\ v = pick g) \/ (pick g = None /\ last_of pick gs v).
Proof.
  intros A pick gs g v. unfold last_of. split.
  - intros [[-> H]|(b & x & a & E & P & N & H)].
    + right. split; [apply H, in_or_app; simpl; auto|]. left. split; auto. intros g' I. apply H, in_or_app. auto.
    + destruct (rev a) as [|y r] eqn:R.
      * assert (a = []) as -> by (rewrite <- (rev_involutive a), R; reflexivity). apply app_inj_tail in E. destruct E as [_ <-]. left. split; congruence.
      * assert (Ea : a = rev r ++ [y]) by (rewrite <- (rev_involutive a), R; reflexivity). subst a.
        change (x :: rev r ++ [y]) with ((x :: rev r) ++ [y]) in E. rewrite app_assoc in E. apply app_inj_tail in E. destruct E as [-> <-].
        right. split; [apply H, in_or_app; simpl; auto|]. right. exists b, x, (rev r). repeat split; auto. intros g' I. apply H, in_or_app. auto.
  - intros [[N ->]|[E [[-> H]|(b & x & a & -> & P & N & H)]]].
    + right. exists gs, g, []. repeat split; auto. intros g' [].
    + left. split; auto. intros g' I. apply in_app_iff in I. destruct I as [I|[<-|[]]]; auto.
    + right. exists b, x, (a ++ [g]). rewrite <- app_assoc. repeat split; auto. intros g' I. apply in_app_iff in I. destruct I as [I|[<-|[]]]; auto.
Qed.

Lemma command_fields : forall gs, let o := lsp_command gs in
  (forall v, last_of tcp_of gs v <-> v = o_tcp o) /\ (forall v, last_of ws_of gs v <-> v = o_ws o) /\
  (forall v, last_of stdio_of gs v -> o_stdio o = match v with Some b => b | None => true end) /\
  exists v, last_of stdio_of gs v.
Proof.
  intro gs. cbv zeta. induction gs as [|g gs IH] using rev_ind.
  - assert (N : forall A (pick : given_option -> option A) v, last_of pick [] v <-> v = None).
    { intros A pick v. split; [intros [[-> _]|(b & g & a & E & _)]; [auto|]; destruct b; discriminate|]. intros ->. left. split; auto. intros g []. }
    cbn. split; [apply N|]. split; [apply N|]. split; [intros v H; apply N in H; now subst|]. exists None. now apply N.
  - destruct IH as (T & W & S' & v0 & V0). unfold lsp_command in *. rewrite fold_left_app. cbn [fold_left].
    destruct g as [b|n|n]; cbn [one_option o_tcp o_ws o_stdio]; repeat split; intros;
      try (match goal with H : last_of _ _ _ |- _ => apply last_of_snoc in H; cbn in H; destruct H as [[X H]|[X H]] end);
      try (now rewrite H); try congruence; try (now apply T); try (now apply W); try (now apply S');
      try (apply last_of_snoc; cbn; right; split; [reflexivity|]; now first [apply T|apply W]);
      try (apply last_of_snoc; cbn; left; split; [discriminate|assumption]).
    + exists (Some b). apply last_of_snoc. left. split; [discriminate|reflexivity].
    + exists v0. apply last_of_snoc. right. auto.
    + exists v0. apply last_of_snoc. right. auto.
Qed.

(** The channels one after the other *)
Fixpoint plan (p : serving) : list channel := match p with Finished => [] | Serve c k => c :: plan k end.

Lemma asks_plan : forall gs c, In c (plan (start_server (lsp_command gs))) <-> asks gs c /\ ~ zero c.
Proof.
  intros gs c. destruct (command_fields gs) as (T & W & S' & v & V). set (o := lsp_command gs) in *.
  assert (St : asks gs Stdio <-> o_stdio o = true).
  { cbn [asks]. split.
    - intros [H|H]; exact (S' _ H).
    - intro E. rewrite (S' _ V) in E. destruct v as [[|]|]; [left; auto|discriminate|right; auto]. }
  assert (B : In c (plan (start_server o)) <-> match c with Ws n => o_ws o = Some n /\ n <> 0%Z | Tcp n => o_tcp o = Some n /\ n <> 0%Z | Stdio => o_stdio o = true end).
  { clear. unfold start_server. assert (P : forall x n, truthy_port x = Some n <-> x = Some n /\ n <> 0%Z).
    { intros [[| |]|] n; cbn; split; try discriminate; try (intros [X Y]; congruence); intro X; injection X as <-; split; auto; discriminate. }
    destruct (truthy_port (o_ws o)) as [w|] eqn:Ew, (truthy_port (o_tcp o)) as [t|] eqn:Et, (o_stdio o); cbn [plan In];
      destruct c as [n|n|]; rewrite <- ?P, ?Ew, ?Et; intuition congruence. }
  rewrite B. unfold zero. destruct c as [n|n|].
  - cbn [asks]. rewrite W. intuition congruence.
  - cbn [asks]. rewrite T. intuition congruence.
  - rewrite St. intuition congruence.
Qed.

Lemma plan_sorted : forall o a c b, plan (start_server o) = a ++ c :: b -> forall d, In d b -> rank c < rank d.
Proof.
  intros o a c b. unfold start_server.
  destruct (truthy_port (o_ws o)), (truthy_port (o_tcp o)), (o_stdio o); cbn [plan]; intro E;
    repeat (destruct a as [|? a]; cbn [app] in E; [injection E as <- <-; cbn [In]; intros d I; repeat (destruct I as [<-|I]); cbn [rank]; try lia; contradiction|injection E as _ E]); destruct a; discriminate.
Qed.

Lemma serves_plan : forall p es o, serves p es o ->
  match o with
  | AllEnded => opened es = plan p /\ closed es = plan p
  | _ => exists before c after, plan p = before ++ c :: after /\ opened es = before ++ [c] /\ closed es = before
  end /\
  (forall c, In c (closed es) -> In c (opened es)).
Proof.
  intros p es o H. induction H as [|c k|c k|c k es o H [IH1 IH2]].
  - cbn. auto.
  - split; [|cbn; tauto]. exists [], c, (plan k). auto.
  - split; [|cbn; tauto]. exists [], c, (plan k). auto.
  - change (opened (Opened c :: Closed c :: es)) with (c :: opened es). change (closed (Opened c :: Closed c :: es)) with (c :: closed es). cbn [plan]. split.
    + destruct o.
      * destruct IH1 as (b & x & a & E1 & E2 & E3). exists (c :: b), x, a. cbn [app]. rewrite E1, E2, E3. auto.
      * destruct IH1 as (b & x & a & E1 & E2 & E3). exists (c :: b), x, a. cbn [app]. rewrite E1, E2, E3. auto.
      * destruct IH1 as [-> ->]. auto.
    + intros x [<-|I]; simpl; auto.
Qed.

(** ** C98 *)

(** Only channels that the command line asks for are opened (standard input and output unless --stdio says no), never port 0. *)
Theorem C98_asked : forall gs es o c, serves (start_server (lsp_command gs)) es o -> In c (opened es) -> asks gs c /\ ~ zero c.
Proof.
  intros gs es o c H I. apply asks_plan. destruct (serves_plan _ _ _ H) as [P _]. destruct o.
  - destruct P as (b & x & a & E1 & E2 & _). rewrite E1. rewrite E2 in I. apply in_app_iff in I. apply in_or_app. simpl in *. tauto.
  - destruct P as (b & x & a & E1 & E2 & _). rewrite E1. rewrite E2 in I. apply in_app_iff in I. apply in_or_app. simpl in *. tauto.
  - destruct P as [E _]. now rewrite <- E.
Qed.

(** At any time at most one of them is open: all that were opened before have been closed, and they come in the order web socket, TCP,
    standard input and output. *)
Theorem C98_one_at_a_time : forall gs es o, serves (start_server (lsp_command gs)) es o ->
  (exists c, opened es = closed es ++ [c] /\ o <> AllEnded) \/ (opened es = closed es /\ o = AllEnded).
Proof.
  intros gs es o H. destruct (serves_plan _ _ _ H) as [P _]. destruct o.
  - destruct P as (b & x & a & _ & -> & ->). left. exists x. split; [auto|discriminate].
  - destruct P as (b & x & a & _ & -> & ->). left. exists x. split; [auto|discriminate].
  - destruct P as [-> ->]. auto.
Qed.

Theorem C98_order : forall gs es o a c b d, serves (start_server (lsp_command gs)) es o -> opened es = a ++ c :: b -> In d b -> rank c < rank d /\ In c (closed es).
Proof.
  intros gs es o a c b d H E I. destruct (serves_plan _ _ _ H) as [P _].
  assert (Q : forall bf x af, plan (start_server (lsp_command gs)) = bf ++ x :: af -> bf ++ [x] = a ++ c :: b -> rank c < rank d /\ In c bf).
  { intros bf x af Pl X. destruct (rev b) as [|y r] eqn:R.
    { assert (b = []) as -> by (rewrite <- (rev_involutive b), R; reflexivity). contradiction. }
    assert (Eb : b = rev r ++ [y]) by (rewrite <- (rev_involutive b), R; reflexivity). subst b.
    change (c :: rev r ++ [y]) with ((c :: rev r) ++ [y]) in X. rewrite app_assoc in X. apply app_inj_tail in X. destruct X as [-> ->].
    split; [|apply in_or_app; simpl; auto].
    rewrite <- app_assoc in Pl. cbn [app] in Pl. apply (plan_sorted _ _ _ _ Pl). apply in_app_iff in I. apply in_or_app. simpl in *. tauto. }
  destruct o.
  - destruct P as (bf & x & af & E1 & E2 & E3). rewrite E3. apply (Q _ _ _ E1). congruence.
  - destruct P as (bf & x & af & E1 & E2 & E3). rewrite E3. apply (Q _ _ _ E1). congruence.
  - destruct P as [E1 E2]. rewrite E2. rewrite E in E1. rewrite <- E1. split; [|apply in_or_app; simpl; auto]. symmetry in E1. exact (plan_sorted _ _ _ _ E1 d I).
Qed.

(** When all ended, all that the command line asks for were opened: a channel that is asked for waits until the server on an earlier one ends. *)
Theorem C98_all : forall gs es c, serves (start_server (lsp_command gs)) es AllEnded -> asks gs c -> ~ zero c -> In c (opened es) /\ In c (closed es).
Proof.
  intros gs es c H A Z. destruct (serves_plan _ _ _ H) as [[-> ->] _]. split; now apply asks_plan.
Qed.

(** Without options the server talks over standard input and output, and over nothing else. *)
Theorem C98_default : forall es o, serves (start_server (lsp_command [])) es o -> opened es = [Stdio].
Proof. intros es o H. cbn in H. inversion H as [| | |? ? ? ? K]; subst; auto. inversion K. reflexivity. Qed.

(** A port is served first and alone; until the server there ends, standard input and output are left alone. *)
Theorem C98_port : forall n es o, n <> 0%Z -> serves (start_server (lsp_command [GTcp n])) es o ->
  opened es = [Tcp n] \/ (opened es = [Tcp n; Stdio] /\ In (Tcp n) (closed es)).
Proof.
  intros n es o N H. cbn in H. destruct n as [|q|q]; [congruence|..]; cbn in H;
    (inversion H as [| | |? ? ? ? K]; subst; auto; right; inversion K as [| | |? ? ? ? K2]; subst; cbn; auto; inversion K2; cbn; auto).
Qed.

(** The documentation says [--stdio | --tcp PORT | --ws PORT]; that only the channel named is used is refuted: after the server on the port has
    ended, the same command serves standard input and output. *)
Theorem C98_only_refuted : ~ (forall n es o c, n <> 0%Z -> serves (start_server (lsp_command [GTcp n])) es o -> In c (opened es) -> c = Tcp n).
Proof.
  intro H. specialize (H 8080%Z [Opened (Tcp 8080); Closed (Tcp 8080); Opened Stdio] StillServing Stdio).
  enough (Stdio = Tcp 8080) by discriminate. apply H; [discriminate| |cbn; auto]. apply s_ends. apply s_still.
Qed.

(** That two ports can be served together is refuted as well: TCP waits for the web socket's server to end. *)
Theorem C98_both_refuted : ~ (exists es n m, serves (start_server (lsp_command [GTcp n; GWs m])) es StillServing /\ m <> 0%Z /\
  In (Tcp n) (opened es) /\ ~ In (Ws m) (closed es)).
Proof.
  intros (es & n & m & H & M & I & C). cbn in H. destruct m as [|q|q]; [congruence|..]; cbn in H;
    (inversion H as [| | |? ? ? ? K]; subst; [destruct I as [I|[]]; discriminate|apply C; cbn; auto]).
Qed.

(** Port 0 is no port: with it and without standard input and output the command ends at once. *)
Theorem C98_nothing : forall es o, serves (start_server (lsp_command [GTcp 0; GStdio false])) es o -> es = [] /\ o = AllEnded.
Proof. intros es o H. cbn in H. inversion H. auto. Qed.

Example C98_example :
  serves (start_server (lsp_command [GTcp 8080; GTcp 9000; GWs 7000])) [Opened (Ws 7000); Closed (Ws 7000); Opened (Tcp 9000)] StillServing /\
  asks [GTcp 8080; GTcp 9000; GWs 7000] (Tcp 9000) /\ ~ asks [GTcp 8080; GTcp 9000; GWs 7000] (Tcp 8080).
Proof.
  split; [apply s_ends, s_still|]. cbn [asks]. rewrite !(proj1 (command_fields _)). cbn. split; [reflexivity|discriminate].
Qed.

Print Assumptions C98_asked.
Print Assumptions C98_one_at_a_time.
Print Assumptions C98_order.
Print Assumptions C98_all.
Print Assumptions C98_default.
Print Assumptions C98_port.
Print Assumptions C98_only_refuted.
Print Assumptions C98_both_refuted.
Print Assumptions C98_nothing.
