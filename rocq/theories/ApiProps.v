(** * C29-C32, C34: results, returned content, writes, standard input, path arguments *)
From Coq Require Import String List NArith ZArith Bool Arith Lia.
From Verif Require Import Base PyStr Ftypes Paths Config Suppress Cst Engine EngineProps Api ApiSpec ApiFacts.
Import ListNotations.

(** ** C29: the results of linting one content *)

Theorem C29_never_raises : forall T p content cfg autofix hook es e,
  ~ run (fixit_bytes T p content cfg autofix hook) es (Raised e).
Proof.
  intros T p content cfg autofix hook es e H. apply bytes_run in H. destruct H as [_ [[_ X]|(F & es' & _ & K)]]; [discriminate|].
  destruct (lint_of T F p content cfg). contradiction.
Qed.

(** When the caller takes everything: the violations of linting, in order, then an error result
    if linting raised, the hook raised or fixing raised; one clean result if there is neither. *)
Theorem C29_complete : forall T p content cfg autofix hook es r,
  run (fixit_bytes T p content cfg autofix hook) es (Returned r) ->
  exists F es' vs err err',
    es = ELook F :: es' /\ lint_of T F p content cfg = (vs, err) /\
    results es = report_of p vs err' /\
    match err' with
    | None => err = None
    | Some e => err = Some e \/
        err = None /\ ((exists m, In (ECall m (Err e)) es) \/
                       (accepted autofix (given es) <> [] /\
                        exists F', fixed_content T F' p content cfg (accepted autofix (given es)) = Err e))
    end.
Proof.
  intros T p content cfg autofix hook es r H. apply bytes_run in H. destruct H as [_ [[_ X]|(F & es' & -> & K)]]; [discriminate|].
  destruct (lint_of T F p content cfg) as [vs err] eqn:L. destruct K as (err' & K1 & K2).
  exists F, es', vs, err, err'. repeat split; auto. destruct err' as [e|].
  - destruct K2 as [_ [K2|[(A & _ & B)|(A & B & C)]]]; auto.
  - now destruct K2.
Qed.

(** When the caller gives up: the beginning of that. *)
Theorem C29_abandoned : forall T p content cfg autofix hook es,
  run (fixit_bytes T p content cfg autofix hook) es Stopped ->
  es = [] \/ exists F es' err' rest, es = ELook F :: es' /\
    report_of p (fst (lint_of T F p content cfg)) err' = results es ++ rest.
Proof.
  intros T p content cfg autofix hook es H. apply bytes_run in H. destruct H as [_ [[X _]|(F & es' & -> & K)]]; auto.
  right. exists F, es'. destruct (lint_of T F p content cfg) as [vs err]. destruct K as (err' & c & K). exists err', c. auto.
Qed.

(** ** C30: the content returned *)

Theorem C30_content : forall T p content cfg autofix hook es r,
  run (fixit_bytes T p content cfg autofix hook) es (Returned r) ->
  let acc := accepted autofix (given es) in
  match r with
  | Some c => acc <> [] /\ (forall x, In x (results es) -> x_error x = None) /\
              exists F, In (ELook F) es /\ fixed_content T F p content cfg acc = Ok c
  | None => acc = [] \/ exists x e, In x (results es) /\ x_error x = Some e
  end.
Proof.
  intros T p content cfg autofix hook es r H acc. apply bytes_run in H. destruct H as [_ [[_ X]|(F & es' & -> & K)]]; [discriminate|].
  destruct (lint_of T F p content cfg) as [vs err]. destruct K as (err' & K1 & K2). fold acc in K2.
  destruct err' as [e|].
  - destruct K2 as [-> _]. right. exists (Result p None (Some e)), e. split; auto. rewrite K1. unfold report_of.
    apply in_app_iff. right. simpl. auto.
  - destruct K2 as [_ K2]. destruct acc as [|v acc'] eqn:Ea.
    + subst r. auto.
    + destruct K2 as (F' & c & I & Fc & ->). split; [discriminate|]. split.
      * intros x Hx. rewrite K1 in Hx. unfold report_of in Hx. apply in_app_iff in Hx. destruct Hx as [Hx|Hx].
        -- apply in_map_iff in Hx. destruct Hx as (w & <- & _). reflexivity.
        -- destruct vs; [|contradiction]. destruct Hx as [<-|[]]. reflexivity.
      * exists F'. split; simpl; auto.
Qed.

(** With autofix every violation reported is accepted, whatever the answers. *)
Theorem C30_autofix_all : forall T p content cfg hook es o,
  run (fixit_bytes T p content cfg true hook) es o ->
  accepted true (given es) =
  flat_map (fun x => match x_violation x with Some v => [v] | None => [] end) (results es).
Proof.
  intros T p content cfg hook es o _. unfold accepted, results. induction (given es) as [|[x a] l IH]; [reflexivity|].
  cbn [flat_map map fst snd]. rewrite IH. destruct (x_violation x), a as [[|]|]; reflexivity.
Qed.

(** Without autofix exactly those answered True are, and a violation with no fix changes nothing. *)
Theorem C30_interactive : forall T p content cfg hook es o v,
  run (fixit_bytes T p content cfg false hook) es o ->
  In v (accepted false (given es)) <-> exists x, In (x, Some true) (given es) /\ x_violation x = Some v.
Proof.
  intros T p content cfg hook es o v _. unfold accepted. rewrite in_flat_map. split.
  - intros ([x a] & I & J). cbn [fst snd] in J. destruct (x_violation x) as [w|] eqn:E; [|contradiction].
    destruct a as [[|]|]; try contradiction. destruct J as [->|[]]. eauto.
  - intros (x & I & E). exists (x, Some true). split; auto. cbn [fst snd]. rewrite E. simpl. auto.
Qed.

Opaque fixit_bytes.

(** ** C31: when files are written *)

Definition only_error (p : path) (o : res unit) (es : list ev) : Prop :=
  written es = [] /\ printed es = [] /\
  match o with Ok _ => es = [] | Err e => es = [] \/ exists a, es = [EGive (Result p None (Some e)) a] end.

Lemma handler_run : forall p e es (o : outcome unit),
  run (Give (error_result p e) (fun _ => Ret tt)) es o ->
  (forall e', o <> Raised e') /\ (es = [] \/ exists a, es = [EGive (error_result p e) a]).
Proof.
  intros p e es o H. inversion H as [| | |? ? a es3 ? H3| | | | |]; subst.
  - split; [discriminate|auto].
  - inversion H3; subst; (split; [discriminate|eauto]).
Qed.

Theorem C31_writes : forall T p autofix opts hook es o,
  run (fixit_file T p autofix opts hook) es o ->
  (forall e, o <> Raised e) /\ printed es = [] /\
  (written es = [] \/
   exists F content F1 cfg es1 c w es2 acc,
     es = ELook F :: ELook F1 :: es1 ++ EWrite p c w :: es2 /\
     f_file F p = Some content /\ c <> content /\ c <> [] /\
     generate_config (t_env T) F1 p None opts = Ok cfg /\
     (* es1 is a complete lint of that content without errors ... *)
     run (fixit_bytes T p content cfg autofix hook) es1 (Returned (Some c)) /\
     (forall x, In x (results es1) -> x_error x = None) /\
     (* ... with violations accepted, and this is their result *)
     acc = accepted autofix (given es1) /\ acc <> [] /\
     (exists F2, fixed_content T F2 p content cfg acc = Ok c) /\
     written es1 = [] /\ only_error p w es2).
Proof.
  intros T p autofix opts hook es o H. unfold fixit_file in H. apply run_catch in H.
  assert (B : forall es o,
    run (Look (fun F =>
       match f_file F p with
       | None => Raise OSError
       | Some content =>
           Look (fun F =>
             lift (generate_config (t_env T) F p None opts) (fun cfg =>
               pbind (fixit_bytes T p content cfg autofix hook) (fun updated =>
                 match updated with
                 | Some ((_ :: _) as c) =>
                     if negb (str_eqb c content) then Write p c (fun o => lift o (fun _ => Ret tt)) else Ret tt
                 | _ => Ret tt
                 end)))
       end)) es o ->
    (quiet es) \/
    exists F content F1 cfg es1 c w,
     es = ELook F :: ELook F1 :: es1 ++ [EWrite p c w] /\
     f_file F p = Some content /\ c <> content /\ c <> [] /\
     generate_config (t_env T) F1 p None opts = Ok cfg /\
     run (fixit_bytes T p content cfg autofix hook) es1 (Returned (Some c)) /\
     (forall e, o = Raised e -> w = Err e)).
  { clear. intros es o H. inversion H as [| | | |? F es' ? H'| | | |]; subst; [left; auto|].
    destruct (f_file F p) as [content|] eqn:Ef; [|inversion H'; subst; left; auto].
    inversion H' as [| | | |? F1 es1 ? H1| | | |]; subst; [left; auto|].
    apply run_lift in H1. destruct (generate_config (t_env T) F1 p None opts) as [cfg|e] eqn:Eg;
      [|destruct H1 as [-> _]; left; auto].
    apply run_pbind in H1. destruct H1 as [[-> H1]|[(e & -> & H1)|(es2 & es3 & r & -> & H2 & H3)]].
    - left. apply bytes_run in H1. destruct H1 as [Q _]. auto.
    - left. apply bytes_run in H1. destruct H1 as [Q _]. auto.
    - pose proof (bytes_run _ _ _ _ _ _ _ _ H2) as [Q _].
      assert (D : es3 = [] -> quiet (ELook F :: ELook F1 :: es2 ++ es3)) by (intros ->; rewrite app_nil_r; auto).
      destruct r as [[|x c]|]; try (left; apply D; inversion H3; subst; auto; fail).
      destruct (str_eqb (x :: c) content) eqn:Es; cbn [negb] in H3; [left; apply D; inversion H3; subst; auto|].
      apply str_eqb_neq in Es.
      inversion H3 as [| | | | |? ? ? w es4 ? H4| | |]; subst; [left; apply D; auto|].
      right. exists F, content, F1, cfg, es2, (x :: c), w. apply run_lift in H4.
      assert (es4 = [] /\ (forall e, o = Raised e -> w = Err e)) as [-> Ho].
      { destruct w; [inversion H4; subst; split; auto; discriminate|].
        destruct H4 as [-> [->| ->]]; split; auto; [discriminate|congruence]. }
      repeat split; auto. discriminate. }
  assert (W : forall F content F1 cfg es1 c w es2,
    f_file F p = Some content -> c <> content -> c <> [] -> generate_config (t_env T) F1 p None opts = Ok cfg ->
    run (fixit_bytes T p content cfg autofix hook) es1 (Returned (Some c)) -> only_error p w es2 ->
    printed (ELook F :: ELook F1 :: es1 ++ EWrite p c w :: es2) = [] /\
    exists F0 content0 F2 cfg0 es3 c0 w0 es4 acc,
     ELook F :: ELook F1 :: es1 ++ EWrite p c w :: es2 = ELook F0 :: ELook F2 :: es3 ++ EWrite p c0 w0 :: es4 /\
     f_file F0 p = Some content0 /\ c0 <> content0 /\ c0 <> [] /\
     generate_config (t_env T) F2 p None opts = Ok cfg0 /\
     run (fixit_bytes T p content0 cfg0 autofix hook) es3 (Returned (Some c0)) /\
     (forall x, In x (results es3) -> x_error x = None) /\
     acc = accepted autofix (given es3) /\ acc <> [] /\
     (exists F2, fixed_content T F2 p content0 cfg0 acc = Ok c0) /\
     written es3 = [] /\ only_error p w0 es4).
  { intros F content F1 cfg es1 c w es2 A1 A2 A3 A4 A5 A6.
    pose proof (C30_content _ _ _ _ _ _ _ _ A5) as A7. cbn zeta in A7. destruct A7 as (A7 & A8 & F2 & _ & A9).
    pose proof (bytes_run _ _ _ _ _ _ _ _ A5) as [Q _].
    split.
    - destruct A6 as (_ & X & _). cbn [printed]. rewrite printed_app. cbn [printed]. rewrite X, (quiet_printed _ Q). reflexivity.
    - exists F, content, F1, cfg, es1, c, w, es2, (accepted autofix (given es1)). repeat split; auto; eauto using quiet_written; apply A6. }
  destruct H as [[-> H]|[(r & -> & H)|(es1 & es2 & e & -> & H1 & H2)]].
  - split; [discriminate|]. destruct (B _ _ H) as [Q|(F & content & F1 & cfg & es1 & c & w & -> & A1 & A2 & A3 & A4 & A5 & A6)].
    + split; [now apply quiet_printed|left; now apply quiet_written].
    + destruct (W F content F1 cfg es1 c w []) as [W1 W2]; auto. { repeat split; auto. destruct w; auto. }
  - split; [discriminate|]. destruct (B _ _ H) as [Q|(F & content & F1 & cfg & es1 & c & w & -> & A1 & A2 & A3 & A4 & A5 & A6)].
    + split; [now apply quiet_printed|left; now apply quiet_written].
    + destruct (W F content F1 cfg es1 c w []) as [W1 W2]; auto. { repeat split; auto. destruct w; auto. }
  - destruct (handler_run _ _ _ _ H2) as [Ho He]. split; auto.
    destruct (B _ _ H1) as [Q|(F & content & F1 & cfg & es3 & c & w & -> & A1 & A2 & A3 & A4 & A5 & A6)].
    + assert (Q' : quiet (es1 ++ es2)) by (destruct He as [->|(a & ->)]; auto).
      split; [now apply quiet_printed|left; now apply quiet_written].
    + rewrite (A6 e eq_refl) in *. cbn [app]. rewrite <- app_assoc. cbn [app].
      destruct (W F content F1 cfg es3 c (Err e) es2) as [W1 W2]; auto.
      destruct He as [->|(a & ->)]; repeat split; eauto.
Qed.

(** No accepted violation, or an error result before: nothing is written. *)
Theorem C31_nothing : forall T p autofix opts hook es o,
  run (fixit_file T p autofix opts hook) es o ->
  accepted autofix (given es) = [] -> written es = [].
Proof.
  intros T p autofix opts hook es o H A. destruct (C31_writes _ _ _ _ _ _ _ H) as (_ & _ & [W|W]); auto.
  destruct W as (F & content & F1 & cfg & es1 & c & w & es2 & acc & -> & _ & _ & _ & _ & _ & _ & E & N & _).
  exfalso. apply N. subst acc. cbn [given] in A. rewrite given_app, accepted_app in A. now apply app_eq_nil in A.
Qed.

Theorem C31_lint_only : forall T p opts hook es o,
  run (fixit_file T p false opts hook) es o ->
  (forall x, ~ In (x, Some true) (given es)) -> written es = [].
Proof.
  intros T p opts hook es o H N. eapply C31_nothing; [exact H|].
  unfold accepted. induction (given es) as [|[x a] l IH]; [reflexivity|]. cbn [flat_map fst snd].
  rewrite IH by (intros y I; apply (N y); simpl; auto).
  destruct (x_violation x); [|reflexivity]. destruct a as [[|]|]; try reflexivity. exfalso. apply (N x). simpl. auto.
Qed.

(** ** C32: standard input *)

Theorem C32_stdin : forall T p autofix opts hook es o,
  run (fixit_stdin T p autofix opts hook) es o ->
  (forall e, o <> Raised e) /\ written es = [] /\
  (* nothing is printed without autofix, and nothing more than once *)
  (autofix = false -> printed es = []) /\
  match o with
  | Returned _ =>
      (printed es = [] /\ (autofix = false \/ exists x e, In x (results es) /\ x_error x = Some e)) \/
      exists content F cfg es1 c w es2,
        es = EIn (Ok content) :: ELook F :: es1 ++ EOut c w :: es2 /\
        generate_config (t_env T) F p None opts = Ok cfg /\
        printed es = [c] /\ only_error p w es2 /\
        let acc := accepted autofix (given es1) in
        (c = content \/
         (acc <> [] /\ exists F', fixed_content T F' p content cfg acc = Ok c)) /\
        (* the fixed content unless there is none *)
        (c = content -> acc = [] \/ (exists x e, In x (results es1) /\ x_error x = Some e) \/
                        exists F', fixed_content T F' p content cfg acc = Ok [] \/ fixed_content T F' p content cfg acc = Ok content)
  | _ => True
  end.
Proof.
  intros T p autofix opts hook es o H. unfold fixit_stdin in H. apply run_catch in H.
  assert (B : forall es o,
    run (Stdin (fun i => lift i (fun content =>
       Look (fun F =>
         lift (generate_config (t_env T) F p None opts) (fun cfg =>
           pbind (fixit_bytes T p content cfg autofix hook) (fun updated =>
             if autofix then
               Stdout (match updated with Some ((_ :: _) as c) => c | _ => content end)
                 (fun o => lift o (fun _ => Ret tt))
             else Ret tt)))))) es o ->
    (written es = [] /\ printed es = [] /\ (autofix = true -> forall r, o <> Returned r)) \/
    exists content F cfg es1 r w,
     autofix = true /\
     es = EIn (Ok content) :: ELook F :: es1 ++ [EOut (match r with Some ((_ :: _) as c) => c | _ => content end) w] /\
     generate_config (t_env T) F p None opts = Ok cfg /\
     run (fixit_bytes T p content cfg autofix hook) es1 (Returned r) /\
     (forall e, o = Raised e -> w = Err e)).
  { clear. intros es o H. inversion H as [| | | | | |? i es' ? H'| |]; subst; [left; repeat split; discriminate|].
    apply run_lift in H'. destruct i as [content|e];
      [|destruct H' as [-> [->| ->]]; left; repeat split; discriminate].
    inversion H' as [| | | |? F es1 ? H1| | | |]; subst; [left; repeat split; discriminate|].
    apply run_lift in H1. destruct (generate_config (t_env T) F p None opts) as [cfg|e] eqn:Eg;
      [|destruct H1 as [-> [->| ->]]; left; repeat split; discriminate].
    apply run_pbind in H1. destruct H1 as [[-> H1]|[(e & -> & H1)|(es2 & es3 & r & -> & H2 & H3)]].
    - left. apply bytes_run in H1. destruct H1 as [Q _]. cbn [written printed]. rewrite (quiet_written _ Q), (quiet_printed _ Q). repeat split; discriminate.
    - left. apply bytes_run in H1. destruct H1 as [Q _]. cbn [written printed]. rewrite (quiet_written _ Q), (quiet_printed _ Q). repeat split; discriminate.
    - pose proof (bytes_run _ _ _ _ _ _ _ _ H2) as [Q _]. destruct autofix.
      + inversion H3 as [| | | | | | |? ? w es4 ? H4|]; subst.
        { left. rewrite app_nil_r. cbn [written printed]. rewrite (quiet_written _ Q), (quiet_printed _ Q). repeat split; discriminate. }
        right. apply run_lift in H4. exists content, F, cfg, es2, r, w. repeat split; auto.
        * f_equal. f_equal. f_equal. f_equal. destruct w; [inversion H4; subst; auto|now destruct H4].
        * intros e ->. destruct w; [inversion H4|]. destruct H4 as [_ [X|X]]; congruence.
      + left. assert (es3 = []) as -> by (inversion H3; auto). rewrite app_nil_r. cbn [written printed].
        rewrite (quiet_written _ Q), (quiet_printed _ Q). repeat split; discriminate. }
  assert (W : forall content F cfg es1 r w es2, autofix = true -> generate_config (t_env T) F p None opts = Ok cfg ->
     run (fixit_bytes T p content cfg autofix hook) es1 (Returned r) -> only_error p w es2 ->
     let c := match r with Some ((_ :: _) as c) => c | _ => content end in
     let es := EIn (Ok content) :: ELook F :: es1 ++ EOut c w :: es2 in
     written es = [] /\
     exists content F cfg es1 c w es2,
        es = EIn (Ok content) :: ELook F :: es1 ++ EOut c w :: es2 /\
        generate_config (t_env T) F p None opts = Ok cfg /\
        printed es = [c] /\ only_error p w es2 /\
        let acc := accepted autofix (given es1) in
        (c = content \/
         (acc <> [] /\ exists F', fixed_content T F' p content cfg acc = Ok c)) /\
        (c = content -> acc = [] \/ (exists x e, In x (results es1) /\ x_error x = Some e) \/
                        exists F', fixed_content T F' p content cfg acc = Ok [] \/ fixed_content T F' p content cfg acc = Ok content)).
  { intros content F cfg es1 r w es2 Ha Hg Hr Ho c es0.
    pose proof (bytes_run _ _ _ _ _ _ _ _ Hr) as [Q _]. pose proof (C30_content _ _ _ _ _ _ _ _ Hr) as C. cbn zeta in C.
    destruct Ho as (O1 & O2 & O3). split.
    - unfold es0. cbn [written]. rewrite written_app. cbn [written]. rewrite (quiet_written _ Q), O1. reflexivity.
    - exists content, F, cfg, es1, c, w, es2. split; [reflexivity|]. split; auto. split.
      { unfold es0. cbn [printed]. rewrite printed_app. cbn [printed]. rewrite (quiet_printed _ Q), O2. reflexivity. }
      split; [repeat split; auto|]. cbn zeta. destruct r as [[|x0 c0]|].
      + destruct C as (C1 & C2 & F' & _ & C3). split; auto. intros _. right. right. exists F'. auto.
      + destruct C as (C1 & C2 & F' & _ & C3). split; eauto. intros <-. right. right. exists F'. auto.
      + split; auto. intros _. tauto. }
  destruct H as [[-> H]|[(r & -> & H)|(es1 & es2 & e & -> & H1 & H2)]].
  - split; [discriminate|]. destruct (B _ _ H) as [(Q1 & Q2 & _)|(content & F & cfg & es1 & r & w & Ha & -> & A1 & A2 & A3)]; auto.
    destruct (W content F cfg es1 r w [] Ha A1 A2) as [W1 _]; [repeat split; auto; destruct w; auto|].
    split; auto. split; auto. congruence.
  - split; [discriminate|]. destruct (B _ _ H) as [(Q1 & Q2 & Q3)|(content & F & cfg & es1 & r' & w & Ha & -> & A1 & A2 & A3)].
    + split; auto. split; auto. left. split; auto. destruct autofix; auto. now destruct (Q3 eq_refl r).
    + destruct (W content F cfg es1 r' w [] Ha A1 A2) as [W1 W2]; [repeat split; auto; destruct w; auto|].
      split; auto. split; [congruence|]. right. exact W2.
  - destruct (handler_run _ _ _ _ H2) as [Ho He]. split; auto.
    destruct (B _ _ H1) as [(Q1 & Q2 & Q3)|(content & F & cfg & es3 & r' & w & Ha & -> & A1 & A2 & A3)].
    + assert (written (es1 ++ es2) = [] /\ printed (es1 ++ es2) = []) as [X1 X2].
      { rewrite written_app, printed_app, Q1, Q2. destruct He as [->|(a & ->)]; auto. }
      split; auto. split; auto. destruct o; auto. left. split; auto. right.
      inversion H2 as [| | |? ? a es3 ? H3| | | | |]; subst. exists (error_result p e), e. split; auto.
      rewrite results_app. apply in_app_iff. right. simpl. auto.
    + rewrite (A3 e eq_refl) in *. cbn [app]. rewrite <- app_assoc. cbn [app].
      destruct (W content F cfg es3 r' (Err e) es2 Ha A1 A2) as [W1 W2].
      { destruct He as [->|(a & ->)]; repeat split; eauto. }
      split; auto. split; [congruence|]. destruct o; auto.
Qed.
Transparent fixit_bytes.

(** ** C34: path arguments *)

Definition named (a : arg) : list path := match a with Dash => [] | PathArg p => [p] end.

(** The first argument is "-": standard input, under the second argument's name; a third name is an error. *)
Theorem C34_stdin : forall walk default parallel rest,
  make_plan walk default parallel (Dash :: rest) =
  match rest with
  | [] => Ok (Some (Input default))
  | x :: more => match flat_map named more with
                 | [] => Ok (Some (Input (match x with PathArg p => p | Dash => default end)))
                 | _ => Err ValueError
                 end
  end.
Proof.
  intros walk default parallel rest. unfold make_plan. cbn [enumerate fold_res take_arg fst snd Nat.eqb bind a_files a_name].
  assert (M : forall more i name, 2 <= i ->
    fold_res (take_arg walk) (enumerate i more) (Args [] true name) =
    match flat_map named more with [] => Ok (Args [] true name) | _ => Err ValueError end).
  { induction more as [|[|q] more IH]; intros i name Hi; [reflexivity| |]; cbn [enumerate fold_res take_arg fst snd a_stdin a_files a_name].
    - destruct i as [|i]; [lia|]. cbn [Nat.eqb bind]. rewrite IH by lia. reflexivity.
    - destruct i as [|[|i]]; [lia|lia|]. reflexivity. }
  destruct rest as [|[|q] more]; [reflexivity| |]; cbn [enumerate fold_res take_arg fst snd Nat.eqb bind a_stdin a_files a_name].
  - rewrite M by lia. destruct (flat_map named more); reflexivity.
  - rewrite M by lia. destruct (flat_map named more); reflexivity.
Qed.

(** Otherwise every file found for every path, in order; later "-" are ignored. *)
Theorem C34_files : forall walk default parallel p rest,
  make_plan walk default parallel (PathArg p :: rest) =
  let! found := map_res walk (p :: flat_map named rest) in
  let files := concat found in
  Ok (Some (if Nat.eqb (List.length files) 1 || negb parallel then Serial files else Parallel files)).
Proof.
  intros walk default parallel p rest. unfold make_plan.
  assert (M : forall l i files, 1 <= i ->
    fold_res (take_arg walk) (enumerate i l) (Args files false default) =
    let! found := map_res walk (flat_map named l) in Ok (Args (files ++ concat found) false default)).
  { induction l as [|[|q] l IH]; intros i files Hi; cbn [enumerate fold_res take_arg fst snd a_stdin a_files a_name flat_map named app].
    - cbn. now rewrite app_nil_r.
    - destruct i as [|i]; [lia|]. cbn [Nat.eqb bind]. apply IH. lia.
    - cbn [map_res]. destruct (walk q) as [fq|e]; [|reflexivity]. cbn [bind]. rewrite IH by lia.
      destruct (map_res walk (flat_map named l)); [|reflexivity]. cbn [bind concat]. now rewrite app_assoc. }
  cbn [enumerate fold_res take_arg fst snd a_stdin a_files a_name app map_res].
  destruct (walk p) as [fp|e]; [|reflexivity]. cbn [bind]. rewrite M by lia.
  destruct (map_res walk (flat_map named rest)) as [found|e]; [|reflexivity]. reflexivity.
Qed.

(** One after the other, once per occurrence. *)
Theorem C34_serial : forall T ps autofix opts hook es,
  run (serial T ps autofix opts hook) es (Returned tt) ->
  exists ess, es = concat ess /\ Forall2 (fun p e => run (fixit_file T p autofix opts hook) e (Returned tt)) ps ess.
Proof.
  intros T ps autofix opts hook. induction ps as [|p ps IH]; intros es H; cbn [serial] in H.
  - inversion H; subst. exists []. auto.
  - apply run_pbind in H. destruct H as [[X _]|[(e & X & _)|(es1 & es2 & [] & -> & H1 & H2)]]; try discriminate.
    destruct (IH _ H2) as (ess & -> & K). exists (es1 :: ess). auto.
Qed.

(** ** Concrete cases *)

Definition ex_env (style : bool) : env :=
  Env (fun _ => if style then Ok [(u "tool", TTab [(u "fixit", TTab [(u "formatter", TStr (u "shout"))])])] else Ok [])
      (fun _ => true) (u "3.10") [u "shout"] (fun l => l).
Definition ex_file : path := [u "d"; u "a.py"].
Definition ex_fs (content : str) : fs :=
  FS (fun p => if path_eqb p ex_file then Some content
               else if path_eqb p [u "d"; u "fixit.toml"] then Some (u "x") else None)
     (fun p => path_eqb p [u "d"]).
(** Parsing gives the module of Engine's example, three violations are found. *)
Definition ex_tool (style : bool) (rules : list rule) : tool :=
  Tool (ex_env style) (fun _ _ => Ok [tt]) (fun s => Ok ex_module)
       (fun _ _ _ _ => Ok (rules, [])) (fun _ a b => b) (fun m => Ok (code m))
       (fun s => if str_eqb s (u "shout") then Some (fun _ b _ => Ok (b ++ u "!")) else None)
       (fun _ p => Ok [p]).

(** The first violation is rejected, the second accepted, the third has no fix: one change is written. *)
Example C31_example :
  let F := ex_fs (code ex_module) in
  let v i := nth i (yields (fst (collect_violations (fun a b => b) ex_module (Ok (ex_rules, [])) false))) v_none in
  let es := [ELook F; ELook F; ELook F; EGive (Result ex_file (Some (v 0)) None) (Some false);
             EGive (Result ex_file (Some (v 1)) None) (Some true); EGive (Result ex_file (Some (v 2)) None) None;
             ELook F; EWrite ex_file (u "import a" ++ nl ++ u "x = f(99, 2)" ++ nl) (Ok tt)] in
  run (fixit_file (ex_tool false ex_rules) ex_file false None false) es (Returned tt) /\
  accepted false (given es) = [v 1].
Proof.
  intros F v es. split; [|vm_compute; reflexivity].
  unfold es, F, v. vm_compute. repeat (constructor; vm_compute).
Qed.

(** A violation without a fix, accepted or with autofix, is enough to have the file reformatted:
    "nothing is written unless a fix was accepted" does not hold. *)
Theorem C31_reformat_refuted : ~ (forall T p autofix opts hook es o,
  run (fixit_file T p autofix opts hook) es o ->
  (forall v, In v (accepted autofix (given es)) -> autofixable v = false) -> written es = []).
Proof.
  intro H. pose (F := ex_fs (code ex_module)).
  pose (T := ex_tool true [RuleInst (u "B") None [v_none]]).
  pose (es := [ELook F; ELook F; ELook F; EGive (Result ex_file (Some v_none) None) None; ELook F;
               EWrite ex_file (code ex_module ++ u "!") (Ok tt)]).
  assert (R : run (fixit_file T ex_file true None false) es (Returned tt)).
  { unfold es, F, T. vm_compute. repeat (constructor; vm_compute). }
  specialize (H _ _ _ _ _ _ _ R). assert (X : written es = []).
  { apply H. intros v Hv. vm_compute in Hv. destruct Hv as [<-|[]]. reflexivity. }
  discriminate.
Qed.

(** A fix that leaves nothing is never written: "the file has the returned content afterwards" does
    not hold for empty content. *)
Theorem C31_emptied_refuted : ~ (forall T p content cfg opts hook F es c,
  f_file F p = Some content -> generate_config (t_env T) F p None opts = Ok cfg ->
  run (fixit_bytes T p content cfg true hook) es (Returned (Some c)) -> c <> content ->
  exists es', run (fixit_file T p true opts hook) (ELook F :: ELook F :: es ++ es') (Returned tt) /\ written es' = [(p, c)]).
Proof.
  intro H. pose (F := ex_fs (u "import a" ++ nl)).
  pose (md := Mod (Node 0 false [Body None [Node 1 true [Ind; Seq true [Node 2 false [Txt (u "import a")]]; Txt nl]]]) false nl).
  pose (T0 := ex_tool false [RuleInst (u "A") None [v_gone]]).
  pose (T := Tool (t_env T0) (t_collect T0) (fun _ => Ok md) (t_visit T0) (t_udiff T0) (t_bytes T0) (t_style T0) (t_walk T0)).
  pose (es := [ELook F; EGive (Result ex_file (Some (with_diff v_gone [])) None) None; ELook F]).
  destruct (generate_config (t_env T) F ex_file None None) as [cfg|e] eqn:G; [|vm_compute in G; discriminate].
  destruct (H T ex_file (u "import a" ++ nl) cfg None false F es []) as (es' & R & W).
  - reflexivity.
  - exact G.
  - unfold es, T, md, F. vm_compute in G. injection G as <-. vm_compute. repeat (constructor; vm_compute).
  - discriminate.
  - unfold es in R. vm_compute in R.
    inversion R as [| | | |? ? ? ? R1| | | |]; subst. clear R. vm_compute in R1.
    inversion R1 as [| | | |? ? ? ? R2| | | |]; subst. clear R1. vm_compute in R2.
    inversion R2 as [| | | |? ? ? ? R3| | | |]; subst. clear R2. vm_compute in R3.
    inversion R3 as [| | |? ? ? ? ? R4| | | | |]; subst. clear R3. vm_compute in R4.
    inversion R4 as [| | | |? ? ? ? R5| | | |]; subst. clear R4. vm_compute in R5.
    inversion R5; subst. discriminate.
Qed.

(** When the configuration is broken nothing is printed, not even the unchanged input. *)
Theorem C32_config_error_refuted : ~ (forall T p opts hook content es,
  run (fixit_stdin T p true opts hook) (EIn (Ok content) :: es) (Returned tt) -> printed es <> []).
Proof.
  intro H. pose (F := ex_fs []).
  pose (T0 := ex_tool false []).
  pose (T := Tool (Env (fun _ => Err TOMLDecodeError) (fun _ => true) [] [] (fun l => l)) (t_collect T0) (t_parse T0) (t_visit T0) (t_udiff T0) (t_bytes T0) (t_style T0) (t_walk T0)).
  destruct (generate_config (t_env T) F ex_file None None) as [cfg|e] eqn:G; [vm_compute in G; discriminate|].
  apply (H T ex_file None false (u "x") [ELook F; EGive (Result ex_file None (Some e)) None]); [|reflexivity].
  unfold T, F. vm_compute in G. injection G as <-. vm_compute. repeat (constructor; vm_compute).
Qed.

Example C32_example :
  let F := ex_fs [] in
  let v i := nth i (yields (fst (collect_violations (fun a b => b) ex_module (Ok (ex_rules, [])) false))) v_none in
  run (fixit_stdin (ex_tool false ex_rules) ex_file true None false)
    [EIn (Ok (code ex_module)); ELook F; ELook F; EGive (Result ex_file (Some (v 0)) None) None;
     EGive (Result ex_file (Some (v 1)) None) (Some false); EGive (Result ex_file (Some (v 2)) None) None;
     ELook F; EOut (u "x = f(99, 2)" ++ nl) (Ok tt)] (Returned tt).
Proof. intros F v. unfold F, v. vm_compute. repeat (constructor; vm_compute). Qed.

Example C34_example :
  make_plan (fun p => Ok [p; p ++ [u "x"]]) [u "stdin"] true [PathArg [u "a"]; Dash; PathArg [u "b"]] =
    Ok (Some (Parallel [[u "a"]; [u "a"; u "x"]; [u "b"]; [u "b"; u "x"]])) /\
  make_plan (fun p => Ok [p]) [u "stdin"] true [Dash; PathArg [u "b"]] = Ok (Some (Input [u "b"])) /\
  make_plan (fun p => Ok [p]) [u "stdin"] true [Dash; Dash; PathArg [u "b"]] = Err ValueError.
Proof. repeat split. Qed.
