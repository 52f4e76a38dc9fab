(** * C103: answering yes to every question *)
From Coq Require Import String List NArith ZArith Bool Arith Lia.
From Verif Require Import Base PyStr Ftypes Paths Config Suppress Cst Engine EngineProps Batch Api ApiSpec ApiFacts ApiProps ApiPaths System SystemSpec SystemSame
  Cli CliSpec CliFacts CliProps InputProps SeveralProps DiskSpec DiskProps SeveralFix.
Import ListNotations.

(** ** Specification *)

(** On a disk with the files [F] that only the command changes, it prints [ls], returns 0 and leaves [F']; no write fails, and the user answers yes to every question. *)
Definition all_yes (F : fs) (c : cmd N) (ls : list (stream * str)) (F' : fs) : Prop :=
  exists vs, crun c vs (Returned 0%N) /\ leads F (effects vs) F' /\ (forall q t w, In (VWrite q t w) vs -> w = Ok tt) /\ lines vs = ls /\
    (forall a, In a (asked vs) -> a = Some Yes).

(** The files are formatted already: formatting one that has not been changed gives what it holds. *)
Definition formatted_already (T : tool) (opts : options) (files : list path) (F : fs) : Prop :=
  forall G p content cfg md, In p files -> (forall q, f_file G q <> f_file F q -> In q files) -> f_file F p = Some content -> f_file G p = Some content ->
    generate_config (t_env T) G p None (Some opts) = Ok cfg -> t_parse T content = Ok md -> format_module T G md p cfg = Ok content.

(** ** Proofs *)

(** Two generators on the same disk: nobody answers the first, and the second is answered yes where there is a fix. The first may look once more. *)
Inductive agree {R} (Q : fs -> res R -> res R -> Prop) : fs -> prog R -> prog R -> Prop :=
| ag_ret : forall F r r', Q F (Ok r) (Ok r') -> agree Q F (Ret r) (Ret r')
| ag_raise : forall F e, Q F (Err e) (Err e) -> agree Q F (Raise e) (Raise e)
| ag_give : forall F x k k', agree Q F (k None) (k' (if is_fixable x then Some true else None)) -> agree Q F (Give x k) (Give x k')
| ag_look : forall F k k', agree Q F (k F) (k' F) -> agree Q F (Look k) (Look k')
| ag_again : forall F k g, agree Q F (k F) g -> agree Q F (Look k) g
| ag_write : forall F p c k k', agree Q (put F p (Some c)) (k (Ok tt)) (k' (Ok tt)) -> agree Q F (Write p c k) (Write p c k')
| ag_call : forall F m k k', agree Q F (k (Ok tt)) (k' (Ok tt)) -> agree Q F (Call m k) (Call m k').

Lemma agree_weak : forall R (Q Q' : fs -> res R -> res R -> Prop) F p q, agree Q F p q -> (forall G r r', Q G r r' -> Q' G r r') -> agree Q' F p q.
Proof. intros R Q Q' F p q H I. induction H; constructor; auto. Qed.
Lemma agree_lift : forall A R (Q : fs -> res R -> res R -> Prop) F (r : res A) f g, (forall a, r = Ok a -> agree Q F (f a) (g a)) -> (forall e, Q F (Err e) (Err e)) -> agree Q F (lift r f) (lift r g).
Proof. intros A R Q F [a|e] f g H He; cbn [lift]; [auto|constructor; auto]. Qed.
Lemma agree_catch : forall R (Q Q' : fs -> res R -> res R -> Prop) F p q h, agree Q F p q ->
  (forall G r r', Q G (Ok r) (Ok r') -> Q' G (Ok r) (Ok r')) -> (forall G e, Q G (Err e) (Err e) -> agree Q' G (h e) (h e)) -> agree Q' F (catch p h) (catch q h).
Proof. intros R Q Q' F p q h H Ho He. induction H; cbn [catch]; auto; constructor; auto. Qed.
Lemma agree_bind : forall A R (Q : fs -> res A -> res A -> Prop) (Q' : fs -> res R -> res R -> Prop) F p q f g, agree Q F p q ->
  (forall G a a', Q G (Ok a) (Ok a') -> agree Q' G (f a) (g a')) -> (forall G e, Q G (Err e) (Err e) -> Q' G (Err e) (Err e)) -> agree Q' F (pbind p f) (pbind q g).
Proof. intros A R Q Q' F p q f g H Ho He. induction H; cbn [pbind]; auto; constructor; auto. Qed.

Lemma replacements_fixable : forall vs, replacements vs = replacements (filter autofixable vs).
Proof.
  intro vs. unfold replacements. generalize (fun _ : N => @None repl). induction vs as [|v vs IH]; intro f; [reflexivity|]. cbn [fold_left filter].
  destruct (autofixable v) eqn:E; cbn [fold_left]; rewrite <- IH; [reflexivity|]. unfold set_repl. rewrite E. reflexivity.
Qed.

(** The outcome for a file's content: the same, or the content itself instead of nothing *)
Definition close (content : str) (F G : fs) (r r' : res (option str)) : Prop := G = F /\ (r = r' \/ (r = Ok (Some content) /\ r' = Ok None)).

Lemma finish_agree : forall T p cfg md pending content F, format_module T F md p cfg = Ok content ->
  agree (close content F) F (finish_fixes T p cfg md pending) (finish_fixes T p cfg md (filter autofixable pending)).
Proof.
  intros T p cfg md pending content F Tidy. unfold finish_fixes. destruct pending as [|v0 vs0] eqn:Ep; [constructor; split; auto|]. rewrite <- Ep.
  destruct (filter autofixable pending) as [|v1 vs1] eqn:Ef.
  - rewrite C26_nothing_accepted.
    + cbn [lift]. apply ag_again. rewrite Tidy. cbn [lift]. constructor. split; auto.
    + intros v I. destruct (autofixable v) eqn:E; [|reflexivity]. assert (X : In v (filter autofixable pending)) by (apply filter_In; auto). rewrite Ef in X. contradiction.
  - rewrite <- Ef. unfold apply_replacements. rewrite (replacements_fixable pending).
    apply agree_lift; [|intro e; split; auto]. intros [m|] _; [|constructor; split; auto]. constructor. apply agree_lift; [|intro e; split; auto]. intros c _. constructor. split; auto.
Qed.

Lemma loop_agree : forall T p cfg md content F, format_module T F md p cfg = Ok content -> forall evs r clean pending,
  let k clean pending := if clean : bool then Give (clean_result p) (fun _ => finish_fixes T p cfg md pending) else finish_fixes T p cfg md pending in
  agree (close content F) F (Api.lint_loop p true evs r clean pending k) (Api.lint_loop p false evs r clean (filter autofixable pending) k).
Proof.
  intros T p cfg md content F Tidy evs r. induction evs as [|[v|m] evs IH]; intros clean pending k; cbn [Api.lint_loop].
  - apply agree_lift; [|intro e; split; auto]. intros _ _. unfold k. destruct clean; [|now apply finish_agree]. constructor. cbn. now apply finish_agree.
  - constructor. rewrite orb_true_r. replace (is_fixable (violation_result p v)) with (autofixable v) by reflexivity.
    replace (if truthy_answer (if autofixable v then Some true else None) || false then filter autofixable pending ++ [v] else filter autofixable pending) with (filter autofixable (pending ++ [v])); [apply IH|].
    rewrite filter_app. cbn [filter]. destruct (autofixable v); cbn; [reflexivity|now rewrite app_nil_r].
  - constructor. cbn [lift]. apply IH.
Qed.

Transparent fixit_bytes.
Lemma bytes_agree : forall T p content cfg hook F, (forall md, t_parse T content = Ok md -> format_module T F md p cfg = Ok content) ->
  agree (close content F) F (fixit_bytes T p content cfg true hook) (fixit_bytes T p content cfg false hook).
Proof.
  intros T p content cfg hook F Tidy. unfold fixit_bytes. eapply agree_catch with (Q := close content F); [|auto|].
  - constructor. apply agree_lift; [|intro e; split; auto]. intros [|k ks] _; [repeat constructor; auto|]. apply agree_lift; [|intro e; split; auto]. intros md Em.
    destruct (collect_violations (t_udiff T p) md (t_visit T F cfg md (k :: ks)) hook) as [evs r]. apply (loop_agree T p cfg md content F (Tidy _ Em) evs r true []).
  - intros G e [-> _]. constructor. constructor. split; auto.
Qed.
Opaque fixit_bytes.

Definition one_file (p : path) (F G : fs) (r r' : res unit) : Prop := r = Ok tt /\ r' = Ok tt /\ (G = F \/ exists c, G = put F p (Some c)).

Lemma file_agree : forall T p opts hook F,
  (forall content cfg md, f_file F p = Some content -> generate_config (t_env T) F p None opts = Ok cfg -> t_parse T content = Ok md -> format_module T F md p cfg = Ok content) ->
  agree (one_file p F) F (fixit_file T p true opts hook) (fixit_file T p false opts hook).
Proof.
  intros T p opts hook F Tidy. unfold fixit_file.
  eapply agree_catch with (Q := fun G r r' => (r = Ok tt /\ r' = Ok tt /\ (G = F \/ exists c, G = put F p (Some c))) \/ (G = F /\ exists e, r = Err e /\ r' = Err e)).
  - constructor. destruct (f_file F p) as [content|] eqn:Ef; [|constructor; eauto 6]. constructor. apply agree_lift; [|intro e; eauto 6]. intros cfg Ec.
    eapply agree_bind with (Q := close content F); [apply bytes_agree; intros md Em; eapply Tidy; eauto| |].
    + intros G a a' [-> [E|[E1 E2]]].
      * injection E as <-. destruct a as [[|c0 c]|]; try (constructor; auto; fail). destruct (negb (str_eqb (c0 :: c) content)); [|constructor; auto].
        constructor. cbn [lift]. constructor. left. eauto 6.
      * injection E1 as ->. injection E2 as ->. destruct content as [|c0 c]; [constructor; auto|]. rewrite str_eqb_refl. cbn [negb]. constructor. auto.
    + intros G e [-> _]. right. eauto.
  - intros G r r' [H|(-> & e & X & _)]; [exact H|discriminate].
  - intros G e [(X & _)|(-> & _)]; [discriminate|]. constructor. constructor. split; [|split]; auto.
Qed.

Lemma serial_agree : forall T opts hook files F0, formatted_already T opts files F0 -> forall ps F, NoDup ps -> (forall p, In p ps -> In p files) ->
  (forall q, f_file F q <> f_file F0 q -> In q files) -> (forall p, In p ps -> f_file F p = f_file F0 p) ->
  agree (fun _ r r' => r = Ok tt /\ r' = Ok tt) F (serial T ps true (Some opts) hook) (serial T ps false (Some opts) hook).
Proof.
  intros T opts hook files F0 Tidy ps. induction ps as [|p ps IH]; intros F Nd Sub Dif Same; cbn [serial]; [constructor; auto|].
  apply NoDup_cons_iff in Nd. destruct Nd as [Np Nd].
  eapply agree_bind with (Q := one_file p F).
  - apply file_agree. intros content cfg md Ef Ec Em. apply (Tidy F p content cfg md); auto; [apply Sub; left; reflexivity|]. rewrite <- Same; [exact Ef|left; reflexivity].
  - intros G [] [] (_ & _ & D). destruct D as [->|(c & ->)].
    + apply IH; auto; intros q I; [apply Sub|apply Same]; right; exact I.
    + apply IH; auto.
      * intros q I. apply Sub. right. exact I.
      * intro q. cbn [put f_file]. destruct (path_eqb q p) eqn:E; [|apply Dif]. intros _. apply path_eqb_eq in E. subst q. apply Sub. left. reflexivity.
      * intros q I. cbn [put f_file]. destruct (path_eqb q p) eqn:E; [apply path_eqb_eq in E; subst q; contradiction|]. apply Same. right. exact I.
  - intros G e (X & _). discriminate.
Qed.

(** The loops of the commands *)
Definition okw (vs : list cev) : Prop := forall q t w, In (VWrite q t w) vs -> w = Ok tt.

Lemma end_facts : forall t vs c, crun (fix_end t) vs (Returned c) -> vs = [VPrint (fst (fix_last t)) (snd (fix_last t))] /\ c = l_exit t.
Proof. intros t vs c H. unfold fix_end in H. apply print_all_ends in H. destruct H as (vs2 & -> & H). inversion H; subst. split; reflexivity. Qed.
Lemma end_runs : forall t, crun (fix_end t) [VPrint (fst (fix_last t)) (snd (fix_last t))] (Returned (l_exit t)).
Proof. intro t. unfold fix_end. apply print_all_ends. eexists. split; [|constructor]. reflexivity. Qed.

Lemma printed_through : forall (ls : list (stream * str)) vs F F', leads F (effects (map (fun x => VPrint (fst x) (snd x)) ls ++ vs)) F' <-> leads F (effects vs) F'.
Proof. intros. rewrite effects_app, effects_printed. reflexivity. Qed.
Lemma lines_through : forall (ls : list (stream * str)) vs, lines (map (fun x => VPrint (fst x) (snd x)) ls ++ vs) = ls ++ lines vs.
Proof. induction ls as [|[s t] ls IH]; intro vs; [reflexivity|]. unfold lines in *. cbn [map app flat_map fst snd]. now rewrite IH. Qed.
Lemma asked_through : forall (ls : list (stream * str)) vs, asked (map (fun x => VPrint (fst x) (snd x)) ls ++ vs) = asked vs.
Proof. induction ls as [|[s t] ls IH]; intro vs; [reflexivity|]. unfold asked in *. cbn [map app flat_map]. apply IH. Qed.
Lemma okw_through : forall (ls : list (stream * str)) vs, okw (map (fun x => VPrint (fst x) (snd x)) ls ++ vs) <-> okw vs.
Proof.
  intros ls vs. unfold okw. split; intros H q t w I.
  - eapply H. apply in_or_app. right. exact I.
  - apply in_app_iff in I. destruct I as [I|I]; [apply in_map_iff in I; destruct I as (x & X & _); discriminate|eapply H; exact I].
Qed.
Lemma okw_cons : forall v vs, okw (v :: vs) <-> okw vs /\ match v with VWrite _ _ w => w = Ok tt | _ => True end.
Proof.
  intros v vs. unfold okw. split.
  - intro H. split; [intros q t w I; eapply H; right; exact I|]. destruct v; auto. eapply H. left. reflexivity.
  - intros [H V] q t w [->|I]; [exact V|eapply H; exact I].
Qed.

Lemma tally_yes : forall t x d, is_fixable x = true -> d = dirty x -> taken (offered (fix_tally false t x d)) = fix_tally true t x d.
Proof.
  intros t x d Fx ->. unfold is_fixable in Fx. unfold dirty, fix_tally. destruct (x_violation x) eqn:V; [|discriminate]. unfold is_fixable. rewrite V, Fx. reflexivity.
Qed.
Lemma tally_no : forall t x d, is_fixable x = false -> fix_tally false t x d = fix_tally true t x d.
Proof. intros t x d Fx. unfold fix_tally. rewrite Fx. reflexivity. Qed.

Lemma auto_to_yes : forall K dd cfg Q F (g g' : prog unit), agree Q F g g' -> forall t vs F' c,
  crun (fix_loop K false true false cfg g t) vs (Returned c) -> leads F (effects vs) F' -> okw vs ->
  exists vs', crun (fix_loop K true dd false cfg g' t) vs' (Returned c) /\ leads F (effects vs') F' /\ okw vs' /\ lines vs' = lines vs /\ (forall a, In a (asked vs') -> a = Some Yes).
Proof.
  intros K dd cfg Q F g g' H. induction H as [F r r' Hq|F e Hq|F x k k' H IH|F k k' H IH|F k g H IH|F p c0 k k' H IH|F m k k' H IH]; intros t vs F' c R L W; cbn [fix_loop] in *.
  - apply end_facts in R. destruct R as [-> ->]. eexists. split; [apply end_runs|]. repeat split; auto. intros a [].
  - inversion R.
  - cbn [orb andb negb] in *. destruct (print_result K x true false (c_format cfg) (c_template cfg)) as [[ls d]|e] eqn:E; [|inversion R].
    pose proof (printed_dirty _ _ _ _ _ _ _ _ E) as ->. apply print_all_ends in R. destruct R as (vs2 & -> & R).
    apply printed_through in L. apply okw_through in W. destruct (is_fixable x) eqn:Fx.
    + destruct (IH _ _ _ _ R L W) as (ws & R2 & L2 & W2 & E2 & A2). exists (map (fun x => VPrint (fst x) (snd x)) ls ++ VPrompt (Some Yes) :: ws). split; [|split; [|split; [|split]]].
      * apply print_all_ends. eexists. split; [reflexivity|]. constructor. rewrite (tally_yes t x (dirty x) Fx eq_refl). exact R2.
      * apply printed_through. exact L2.
      * apply okw_through. apply okw_cons. auto.
      * rewrite !lines_through. f_equal. exact E2.
      * intros a I. rewrite asked_through in I. destruct I as [<-|I]; auto.
    + destruct (IH _ _ _ _ R L W) as (ws & R2 & L2 & W2 & E2 & A2). exists (map (fun x => VPrint (fst x) (snd x)) ls ++ ws). split; [|split; [|split; [|split]]].
      * apply print_all_ends. eexists. split; [reflexivity|]. rewrite (tally_no t x (dirty x) Fx). exact R2.
      * apply printed_through. exact L2.
      * apply okw_through. auto.
      * rewrite !lines_through. f_equal. exact E2.
      * intros a I. rewrite asked_through in I. auto.
  - inversion R as [| | | | |? F1 vs1 ? R1| | |]; subst. change (leads F (ELook F1 :: effects vs1) F') in L. inversion L as [|? ? ? L1| | |? ? ? ? X]; subst; [|contradiction]. apply okw_cons in W. destruct W as [W _].
    destruct (IH _ _ _ _ R1 L1 W) as (ws & R2 & L2 & W2 & E2 & A2). exists (VLook F1 :: ws). split; [now constructor|]. split; [now apply ld_look|]. split; [now apply okw_cons|]. auto.
  - inversion R as [| | | | |? F1 vs1 ? R1| | |]; subst. change (leads F (ELook F1 :: effects vs1) F') in L. inversion L as [|? ? ? L1| | |? ? ? ? X]; subst; [|contradiction]. apply okw_cons in W. destruct W as [W _].
    destruct (IH _ _ _ _ R1 L1 W) as (ws & R2 & L2 & W2 & E2 & A2). exists ws. auto.
  - inversion R as [| | | | | |? ? ? w vs1 ? R1| |]; subst. apply okw_cons in W. destruct W as [W ->]. change (leads F (EWrite p c0 (Ok tt) :: effects vs1) F') in L.
    inversion L as [| |? ? ? ? ? L1| |? ? ? ? X]; subst; [|contradiction]. destruct (IH _ _ _ _ R1 L1 W) as (ws & R2 & L2 & W2 & E2 & A2).
    exists (VWrite p c0 (Ok tt) :: ws). split; [now constructor|]. split; [now apply ld_write|]. split; [now apply okw_cons|]. auto.
  - inversion R as [| | |? ? ? vs1 ? R1| | | | |]; subst. apply okw_cons in W. destruct W as [W _].
    destruct (IH _ _ _ _ R1 L W) as (ws & R2 & L2 & W2 & E2 & A2). eexists (VPrint _ _ :: ws). split; [now constructor|]. split; [exact L2|]. split; [now apply okw_cons|].
    split; [unfold lines in *; cbn [flat_map app]; now rewrite E2|exact A2].
Qed.

Lemma yes_to_auto : forall K dd cfg Q F (g g' : prog unit), agree Q F g g' -> forall t vs F' c,
  crun (fix_loop K true dd false cfg g' t) vs (Returned c) -> leads F (effects vs) F' -> okw vs -> (forall a, In a (asked vs) -> a = Some Yes) ->
  exists vs', crun (fix_loop K false true false cfg g t) vs' (Returned c) /\ leads F (effects vs') F' /\ okw vs' /\ lines vs' = lines vs.
Proof.
  intros K dd cfg Q F g g' H. induction H as [F r r' Hq|F e Hq|F x k k' H IH|F k k' H IH|F k g H IH|F p c0 k k' H IH|F m k k' H IH]; intros t vs F' c R L W A; cbn [fix_loop] in *.
  - apply end_facts in R. destruct R as [-> ->]. eexists. split; [apply end_runs|]. repeat split; auto.
  - inversion R.
  - cbn [orb andb negb] in *. destruct (print_result K x true false (c_format cfg) (c_template cfg)) as [[ls d]|e] eqn:E; [|inversion R].
    pose proof (printed_dirty _ _ _ _ _ _ _ _ E) as ->. apply print_all_ends in R. destruct R as (vs2 & -> & R).
    apply printed_through in L. apply okw_through in W. rewrite asked_through in A. destruct (is_fixable x) eqn:Fx.
    + inversion R as [| | | |? a vs3 ? R3| | | |]; subst. assert (a = Some Yes) as -> by (apply A; left; reflexivity). rewrite (tally_yes t x (dirty x) Fx eq_refl) in R3.
      apply okw_cons in W. destruct W as [W _].
      destruct (IH _ _ _ _ R3 L W) as (ws & R2 & L2 & W2 & E2); [intros a I; apply A; right; exact I|]. exists (map (fun x => VPrint (fst x) (snd x)) ls ++ ws). split; [|split; [|split]].
      * apply print_all_ends. eexists. split; [reflexivity|]. exact R2.
      * apply printed_through. exact L2.
      * apply okw_through. auto.
      * rewrite !lines_through. f_equal. exact E2.
    + rewrite (tally_no t x (dirty x) Fx) in R.
      destruct (IH _ _ _ _ R L W) as (ws & R2 & L2 & W2 & E2); [auto|]. exists (map (fun x => VPrint (fst x) (snd x)) ls ++ ws). split; [|split; [|split]].
      * apply print_all_ends. eexists. split; [reflexivity|]. exact R2.
      * apply printed_through. exact L2.
      * apply okw_through. auto.
      * rewrite !lines_through. f_equal. exact E2.
  - inversion R as [| | | | |? F1 vs1 ? R1| | |]; subst. change (leads F (ELook F1 :: effects vs1) F') in L. inversion L as [|? ? ? L1| | |? ? ? ? X]; subst; [|contradiction]. apply okw_cons in W. destruct W as [W _].
    destruct (IH _ _ _ _ R1 L1 W A) as (ws & R2 & L2 & W2 & E2). exists (VLook F1 :: ws). split; [now constructor|]. split; [now apply ld_look|]. split; [now apply okw_cons|]. auto.
  - destruct (IH _ _ _ _ R L W A) as (ws & R2 & L2 & W2 & E2). exists (VLook F :: ws). split; [now constructor|]. split; [now apply ld_look|]. split; [now apply okw_cons|]. auto.
  - inversion R as [| | | | | |? ? ? w vs1 ? R1| |]; subst. apply okw_cons in W. destruct W as [W ->]. change (leads F (EWrite p c0 (Ok tt) :: effects vs1) F') in L.
    inversion L as [| |? ? ? ? ? L1| |? ? ? ? X]; subst; [|contradiction]. destruct (IH _ _ _ _ R1 L1 W A) as (ws & R2 & L2 & W2 & E2).
    exists (VWrite p c0 (Ok tt) :: ws). split; [now constructor|]. split; [now apply ld_write|]. split; [now apply okw_cons|]. auto.
  - inversion R as [| | |? ? ? vs1 ? R1| | | | |]; subst. apply okw_cons in W. destruct W as [W _].
    destruct (IH _ _ _ _ R1 L W A) as (ws & R2 & L2 & W2 & E2). eexists (VPrint _ _ :: ws). split; [now constructor|]. split; [exact L2|]. split; [now apply okw_cons|].
    unfold lines in *; cbn [flat_map app]; now rewrite E2.
Qed.

Opaque make_plan.

Lemma looked : forall K T d opts m inter diff p ps found F ls F', map_res (t_walk T F) (p :: ps) = Ok found ->
  (all_yes F (fix_ K T d opts m inter diff (map PathArg (p :: ps))) ls F' <->
   exists cfg vs, generate_config (t_env T) F (k_cwd K) None (Some opts) = Ok cfg /\
     crun (fix_loop K inter diff false cfg (serial T (concat found) (negb inter) (Some opts) m) no_tally) vs (Returned 0%N) /\
     leads F (effects vs) F' /\ okw vs /\ lines vs = ls /\ (forall a, In a (asked vs) -> a = Some Yes)).
Proof.
  intros K T d opts m inter diff p ps found F ls F' Wk. unfold all_yes, fix_. cbn [map or_cwd first_is_dash negb]. rewrite (andb_true_r inter).
  assert (Nm : flat_map named (map PathArg ps) = ps) by (clear; induction ps as [|q ps IH]; [reflexivity|]; cbn [map flat_map named app]; now rewrite IH).
  split.
  - intros (vs & H & L & W & Li & A). inversion H as [| | | | |? F0 vs0 ? H0| | |]; subst.
    change (effects (VLook F0 :: vs0)) with (ELook F0 :: effects vs0) in L. inversion L as [|? ? ? L1| | |? ? ? ? X]; subst; [|contradiction].
    destruct (generate_config (t_env T) F0 (k_cwd K) None (Some opts)) as [cfg|e] eqn:G; [|inversion H0].
    unfold fixit_paths_serial in H0. cbn [fix_loop] in H0. inversion H0 as [| | | | |? F1 vs1 ? H1| | |]; subst.
    change (effects (VLook F1 :: vs1)) with (ELook F1 :: effects vs1) in L1. inversion L1 as [|? ? ? L2| | |? ? ? ? X]; subst; [|contradiction].
    rewrite C34_files, Nm, Wk in H1. cbn [bind lift negb] in H1. rewrite orb_true_r in H1.
    exists cfg, vs1. split; [reflexivity|]. split; [exact H1|]. split; [exact L2|]. split; [intros q t w I; eapply W; right; right; exact I|]. split; [reflexivity|exact A].
  - intros (cfg & vs & G & H & L & W & Li & A). exists (VLook F :: VLook F :: vs). split; [|split; [|split; [|split]]].
    + constructor. rewrite G. unfold fixit_paths_serial. cbn [fix_loop]. constructor. rewrite C34_files, Nm, Wk. cbn [bind lift negb]. rewrite orb_true_r. exact H.
    + change (leads F (ELook F :: ELook F :: effects vs) F'). now do 2 constructor.
    + intros q t w [X|[X|I]]; try discriminate. eapply W; exact I.
    + exact Li.
    + exact A.
Qed.

Lemma unasked : forall K cfg g t vs c, crun (fix_loop K false true false cfg g t) vs (Returned c) -> asked vs = [].
Proof.
  intros K cfg g. induction g as [r|e|x k IH|k IH|p c0 k IH|k IH|c0 k IH|m k IH]; intros t vs c R; cbn [fix_loop] in R.
  - apply end_facts in R. destruct R as [-> _]. reflexivity.
  - inversion R.
  - cbn [orb andb negb] in R. destruct (print_result K x true false (c_format cfg) (c_template cfg)) as [[ls d]|e]; [|inversion R].
    apply print_all_ends in R. destruct R as (vs2 & -> & R). rewrite asked_through. eapply IH. exact R.
  - inversion R; subst. cbn. eapply IH; eauto.
  - inversion R; subst. cbn. eapply IH; eauto.
  - inversion R; subst. cbn. eapply IH; eauto.
  - inversion R; subst. cbn. eapply IH; eauto.
  - inversion R; subst. cbn. eapply IH; eauto.
Qed.

(** ** C103 *)

(** Answering yes to every question of [fixit fix] leaves the files that [fixit fix --automatic] leaves, and prints what this prints with --diff,
    if the files are formatted already. *)
Theorem C103_yes : forall K T d opts m diff p ps found F ls F',
  map_res (t_walk T F) (p :: ps) = Ok found -> NoDup (concat found) -> formatted_already T opts (concat found) F ->
  (all_yes F (fix_ K T d opts m true diff (map PathArg (p :: ps))) ls F' <-> all_yes F (fix_ K T d opts m false true (map PathArg (p :: ps))) ls F').
Proof.
  intros K T d opts m diff p ps found F ls F' Wk Nd Tidy.
  assert (Ag : agree (fun _ r r' => r = Ok tt /\ r' = Ok tt) F (serial T (concat found) true (Some opts) m) (serial T (concat found) false (Some opts) m)).
  { eapply serial_agree; [exact Tidy|exact Nd|auto| |auto]. intros q X. now contradiction X. }
  rewrite (looked K T d opts m true diff p ps found F ls F' Wk), (looked K T d opts m false true p ps found F ls F' Wk). cbn [negb]. split.
  - intros (cfg & vs & G & H & L & W & Li & A). destruct (yes_to_auto _ _ _ _ _ _ _ Ag _ _ _ _ H L W A) as (ws & R & L2 & W2 & E).
    exists cfg, ws. repeat split; auto; [congruence|]. rewrite (unasked _ _ _ _ _ _ R). intros a [].
  - intros (cfg & vs & G & H & L & W & Li & _). destruct (auto_to_yes K diff _ _ _ _ _ Ag _ _ _ _ H L W) as (ws & R & L2 & W2 & E & A).
    exists cfg, ws. repeat split; auto. congruence.
Qed.

(** So for a parser that loses nothing and files for which no formatter is configured. *)
Theorem C103_unformatted : forall K T d opts m diff p ps found F ls F',
  map_res (t_walk T F) (p :: ps) = Ok found -> NoDup (concat found) ->
  (forall content md, t_parse T content = Ok md -> t_bytes T md = Ok content) ->
  (forall G q cfg, In q (concat found) -> generate_config (t_env T) G q None (Some opts) = Ok cfg -> c_formatter cfg = None) ->
  (all_yes F (fix_ K T d opts m true diff (map PathArg (p :: ps))) ls F' <-> all_yes F (fix_ K T d opts m false true (map PathArg (p :: ps))) ls F').
Proof.
  intros K T d opts m diff p ps found F ls F' Wk Nd Lossless Plain. apply (C103_yes K T d opts m diff p ps found F ls F' Wk Nd).
  intros G q content cfg md I _ _ _ Ec Em. unfold format_module. rewrite (Plain _ _ _ I Ec). now apply Lossless.
Qed.

Transparent make_plan fixit_bytes.
Lemma consented : forall (c : cmd N) F ans vs F', live c F ans = (vs, Returned 0%N, F') ->
  forallb (fun v => match v with VWrite _ _ (Err _) => false | _ => true end) vs = true ->
  forallb (fun a => match a with Some Yes => true | _ => false end) (asked vs) = true -> all_yes F c (lines vs) F'.
Proof.
  intros c F ans vs F' H W A. destruct (live_run _ _ _ _ _ _ _ H) as [R L]. exists vs. repeat split; auto.
  - intros q t w I. rewrite forallb_forall in W. apply W in I. destruct w as [[]|]; [reflexivity|discriminate].
  - intros a I. rewrite forallb_forall in A. apply A in I. destruct a as [[]|]; try discriminate. reflexivity.
Qed.

Lemma ex_plain : forall G q cfg, generate_config (ex_env false) G q None (Some ex_opts) = Ok cfg -> c_formatter cfg = None.
Proof.
  intros G q cfg H. unfold generate_config in H. cbn [ex_opts o_config_file] in H. apply bind_ok in H. destruct H as (paths & _ & H). apply bind_ok in H. destruct H as (raws & R & H).
  assert (raws = []) as ->.
  { clear H. revert raws R. induction paths as [|p ps IH]; intros raws R; cbn [read_configs] in R; [now injection R as <-|].
    destruct (f_file G (resolve p)); [|discriminate]. cbn in R. auto. }
  apply bind_ok in H. destruct H as ([c w] & M & H). injection H as <-. cbn in M. injection M as <- _. reflexivity.
Qed.

Definition ex_both (interactive diff : bool) : cmd N :=
  fix_ ex_cli ex_fix_tool [u "d"; u "stdin"] ex_opts false interactive diff (map PathArg (ex_file :: [ex_other])).

(** Two files, two questions each: they are fixed, and what is printed is what [--automatic --diff] prints. *)
Example C103_example : exists ls F',
  map_res (t_walk ex_fix_tool ex_F2) [ex_file; ex_other] = Ok [[ex_file]; [ex_other]] /\ NoDup (concat [[ex_file]; [ex_other]]) /\
  formatted_already ex_fix_tool ex_opts (concat [[ex_file]; [ex_other]]) ex_F2 /\
  all_yes ex_F2 (ex_both true false) ls F' /\ all_yes ex_F2 (ex_both false true) ls F' /\
  List.length (asked (fst (fst (live (ex_both true false) ex_F2 [Yes; Yes; Yes; Yes])))) = 4 /\
  f_file F' ex_file = Some (u "x = f(99, 2)" ++ nl) /\ f_file F' ex_other = Some (u "x = f(99, 2)" ++ nl).
Proof.
  pose (r1 := live (ex_both true false) ex_F2 [Yes; Yes; Yes; Yes]).
  assert (T1 : formatted_already ex_fix_tool ex_opts (concat [[ex_file]; [ex_other]]) ex_F2).
  { intros G q content cfg md I _ Ef _ Ec Em. unfold format_module. rewrite (ex_plain _ _ _ Ec). injection Em as <-.
    destruct I as [<-|[<-|[]]]; vm_compute in Ef; injection Ef as <-; reflexivity. }
  assert (Nd : NoDup (concat [[ex_file]; [ex_other]])) by (repeat constructor; cbn; intuition discriminate).
  assert (A : all_yes ex_F2 (ex_both true false) (lines (fst (fst r1))) (snd r1)).
  { destruct r1 as [[vs o] F1] eqn:E. assert (o = Returned 0%N) as -> by (apply (f_equal (fun x => snd (fst x))) in E; vm_compute in E; congruence).
    eapply consented; [exact E|..]; apply (f_equal (fun x => fst (fst x))) in E; cbn [fst] in E; subst vs; vm_compute; reflexivity. }
  exists (lines (fst (fst r1))), (snd r1). split; [reflexivity|]. split; [exact Nd|]. split; [exact T1|]. split; [exact A|]. split; [|vm_compute; repeat split].
  generalize (lines (fst (fst r1))) (snd r1) A. clear A r1. intros ls F' A.
  assert (P := C103_yes ex_cli ex_fix_tool [u "d"; u "stdin"] ex_opts false false ex_file [ex_other] [[ex_file]; [ex_other]] ex_F2 ls F').
  assert (Wk : map_res (t_walk ex_fix_tool ex_F2) [ex_file; ex_other] = Ok [[ex_file]; [ex_other]]) by reflexivity.
  specialize (P Wk). specialize (P Nd T1). destruct P as [P _]. unfold ex_both in A |- *. exact (P A).
Qed.

(** With a formatter they differ: [--automatic] also reformats a file none of whose violations has a fix, and no question is asked about such a file. *)
Theorem C103_formatter_refuted : ~ (forall K T d opts m diff p ps found F ls F1 ls' F2,
  map_res (t_walk T F) (p :: ps) = Ok found -> NoDup (concat found) ->
  (forall content md, f_file F p = Some content -> t_parse T content = Ok md -> t_bytes T md = Ok content) ->
  all_yes F (fix_ K T d opts m true diff (map PathArg (p :: ps))) ls F1 -> all_yes F (fix_ K T d opts m false true (map PathArg (p :: ps))) ls' F2 ->
  forall q, f_file F1 q = f_file F2 q).
Proof.
  intro H. pose (T := ex_tool true [RuleInst (u "B") None [v_none]]). pose (c := fun inter => fix_ ex_cli T [u "d"; u "stdin"] ex_opts false inter true (map PathArg (ex_file :: []))).
  assert (A : forall b, all_yes ex_F (c b) (lines (fst (fst (live (c b) ex_F [])))) (snd (live (c b) ex_F []))).
  { intro b. destruct (live (c b) ex_F []) as [[vs o] F1] eqn:E. assert (o = Returned 0%N) as -> by (apply (f_equal (fun x => snd (fst x))) in E; destruct b; vm_compute in E; congruence).
    eapply consented; [exact E|..]; apply (f_equal (fun x => fst (fst x))) in E; cbn [fst] in E; subst vs; destruct b; vm_compute; reflexivity. }
  assert (X : f_file (snd (live (c true) ex_F [])) ex_file = f_file (snd (live (c false) ex_F [])) ex_file).
  { refine (H ex_cli T [u "d"; u "stdin"] ex_opts false true ex_file [] [[ex_file]] ex_F _ _ _ _ eq_refl _ _ (A true) (A false) ex_file); [repeat constructor; cbn; tauto|].
    intros content md Ef Em. injection Em as <-. vm_compute in Ef. injection Ef as <-. reflexivity. }
  vm_compute in X. discriminate X.
Qed.
