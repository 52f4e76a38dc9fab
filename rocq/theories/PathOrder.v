(** * C111: the order of the paths *)
From Coq Require Import String List NArith ZArith Bool Arith Lia Permutation.
From Verif Require Import Base PyStr Ftypes Paths Config Suppress Cst Engine EngineProps Batch Api ApiSpec ApiFacts ApiProps ApiPaths System SystemSpec SystemSame
  Cli CliSpec CliFacts CliProps InputProps SeveralProps DiskSpec DiskProps SeveralFix SummaryProps.
Import ListNotations.

(** ** Specification *)

(** While nobody changes a file in [F], a command prints [ls], then [s], and returns [code]. *)
Definition outputs (F : fs) (c : cmd N) (ls : list (stream * str)) (s : stream * str) (code : N) : Prop :=
  exists vs, crun c vs (Returned code) /\ (forall F', In (VLook F') vs -> F' = F) /\ lines vs = ls ++ [s].

(** ** Proofs *)

Lemma steps_reorder : forall K diff cfg T autofix opts hook ps qs, Permutation ps qs -> forall vs xs, steps K diff cfg (serial T ps autofix opts hook) vs xs ->
  exists vs' xs', steps K diff cfg (serial T qs autofix opts hook) vs' xs' /\ Permutation vs vs' /\ Permutation xs xs'.
Proof.
  intros K diff cfg T autofix opts hook ps qs P. induction P as [|p ps qs P IH|p q ps|ps qs rs P1 IH1 P2 IH2]; intros vs xs H.
  - exists vs, xs. auto.
  - cbn [serial] in *. apply steps_bind in H. destruct H as (v1 & x1 & v2 & x2 & H1 & H2 & -> & ->). destruct (IH _ _ H2) as (v3 & x3 & H3 & Pv & Px).
    exists (v1 ++ v3), (x1 ++ x3). split; [apply steps_bind; eauto 8|]. split; now apply Permutation_app_head.
  - cbn [serial] in *. apply steps_bind in H. destruct H as (v1 & x1 & v2 & x2 & H1 & H2 & -> & ->).
    apply steps_bind in H2. destruct H2 as (v3 & x3 & v4 & x4 & H3 & H4 & -> & ->).
    exists (v3 ++ v1 ++ v4), (x3 ++ x1 ++ x4). split.
    + apply steps_bind. exists v3, x3, (v1 ++ v4), (x1 ++ x4). repeat split; auto. apply steps_bind. eauto 8.
    + split; rewrite !app_assoc; apply Permutation_app_tail; apply Permutation_app_comm.
  - destruct (IH1 _ _ H) as (v1 & x1 & H1 & A & B). destruct (IH2 _ _ H1) as (v2 & x2 & H2 & C & D). exists v2, x2. split; [exact H2|]. split; etransitivity; eauto.
Qed.

Lemma walks_reorder : forall (W : path -> res (list path)) ps qs, Permutation ps qs -> forall found, map_res W ps = Ok found ->
  exists found', map_res W qs = Ok found' /\ Permutation found found'.
Proof.
  intros W ps qs P. induction P as [|p ps qs P IH|p q ps|ps qs rs P1 IH1 P2 IH2]; intros found H.
  - exists found. auto.
  - apply map_res_cons in H. destruct H as (f1 & f2 & H1 & H2 & ->). destruct (IH _ H2) as (f3 & H3 & P3). exists (f1 :: f3). split; [|now constructor].
    apply map_res_cons. eauto.
  - apply map_res_cons in H. destruct H as (f1 & f2 & H1 & H2 & ->). apply map_res_cons in H2. destruct H2 as (f3 & f4 & H3 & H4 & ->).
    exists (f3 :: f1 :: f4). split; [|constructor]. apply map_res_cons. exists f3, (f1 :: f4). repeat split; auto. apply map_res_cons. eauto.
  - destruct (IH1 _ H) as (f1 & H1 & A). destruct (IH2 _ H1) as (f2 & H2 & B). exists f2. split; [exact H2|]. etransitivity; eauto.
Qed.

Lemma concat_reorder : forall (a b : list (list path)), Permutation a b -> Permutation (concat a) (concat b).
Proof.
  intros a b P. induction P as [|x a b P IH|x y a|a b c P1 IH1 P2 IH2]; cbn [concat].
  - constructor.
  - now apply Permutation_app_head.
  - rewrite !app_assoc. apply Permutation_app_tail. apply Permutation_app_comm.
  - etransitivity; eauto.
Qed.

Lemma set_reorder : forall f xs ys, Permutation xs ys -> List.length (set_of f xs) = List.length (set_of f ys).
Proof.
  intros f xs ys P. destruct (set_of_distinct f xs) as [N1 S1], (set_of_distinct f ys) as [N2 S2]. apply Permutation_length. apply NoDup_Permutation; auto.
  intro p. rewrite S1, S2. split; intros (x & I & A & B); exists x; split; auto; [apply (Permutation_in _ P)|apply (Permutation_in _ (Permutation_sym P))]; exact I.
Qed.

Lemma number_reorder : forall f xs ys, Permutation xs ys -> number f xs = number f ys.
Proof.
  intros f xs ys P. unfold number. induction P as [|x xs ys P IH|x y xs|xs ys zs P1 IH1 P2 IH2]; cbn [filter]; auto.
  - destruct (f x); cbn [List.length]; congruence.
  - destruct (f x), (f y); reflexivity.
  - congruence.
Qed.

Lemma summed_reorder : forall xs ys, Permutation xs ys -> summed xs = summed ys /\ l_exit (lint_state xs) = l_exit (lint_state ys).
Proof.
  intros xs ys P. destruct (lint_state_spec xs) as (A1 & B1 & C1 & D1 & E1 & F1), (lint_state_spec ys) as (A2 & B2 & C2 & D2 & E2 & F2). split.
  - destruct (summed_tells xs) as (-> & _), (summed_tells ys) as (-> & _). unfold counted. cbn [n_checked n_errors n_available].
    now rewrite (set_reorder any xs ys), (set_reorder dirty xs ys), (number_reorder fixable xs ys).
  - assert (Ex : forall (p : result -> Prop), (exists x, In x xs /\ p x) <-> exists x, In x ys /\ p x).
    { intro p. split; intros (x & I & Px); exists x; split; auto; [apply (Permutation_in _ P)|apply (Permutation_in _ (Permutation_sym P))]; exact I. }
    apply N.bits_inj. intro n. destruct (N.lt_ge_cases n 2) as [L|L].
    + assert (n = 0%N \/ n = 1%N) as [-> | ->] by lia.
      * apply eq_true_iff_eq. now rewrite E1, E2, Ex.
      * apply eq_true_iff_eq. now rewrite F1, F2, Ex.
    + assert (Hi : forall a, (a < 4)%N -> N.testbit a n = false).
      { intros a La. destruct (N.eq_dec a 0) as [->|Na]; [apply N.bits_0|]. apply N.bits_above_log2. apply N.log2_lt_pow2; [lia|].
        apply N.lt_le_trans with 4%N; [exact La|]. change 4%N with (2 ^ 2)%N. apply N.pow_le_mono_r; lia. }
      now rewrite !Hi.
Qed.

Opaque make_plan.
Lemma lint_outputs : forall K T d opts m diff F p ps ls s c, outputs F (lint K T d opts m diff (map PathArg (p :: ps))) ls s c <->
  exists cfg found vs xs, generate_config (t_env T) F (k_cwd K) None (Some opts) = Ok cfg /\ map_res (t_walk T F) (p :: ps) = Ok found /\
    steps K diff cfg (serial T (concat found) false (Some opts) m) vs xs /\ (forall F', In (VLook F') vs -> F' = F) /\ ls = lines vs /\ s = summed xs /\ c = l_exit (lint_state xs).
Proof.
  intros K T d opts m diff F p ps ls s c. unfold outputs, lint, lint_with. cbn [map or_cwd].
  assert (Nm : flat_map named (map PathArg ps) = ps) by (induction ps as [|q ps IH]; [reflexivity|]; cbn [map flat_map named app]; now rewrite IH).
  split.
  - intros (vs & H & Fr & L). inversion H as [| | | | |? F0 vs0 ? H0| | |]; subst. assert (F0 = F) as -> by (apply Fr; left; reflexivity).
    destruct (generate_config (t_env T) F (k_cwd K) None (Some opts)) as [cfg|e]; [|inversion H0].
    change no_tally with (lint_state []) in H0. apply (loop_steps K diff cfg (fixit_paths_serial T d (PathArg p :: map PathArg ps) false (Some opts) m) []) in H0. destruct H0 as (vs1 & xs & H1 & -> & ->). unfold fixit_paths_serial in H1.
    inversion H1 as [| |? F1 vs2 ? H2| | | |]; subst. assert (F1 = F) as -> by (apply Fr; right; left; reflexivity). rewrite C34_files, Nm in H2.
    destruct (map_res (t_walk T F) (p :: ps)) as [found|e]; cbn [bind lift] in H2; [|inversion H2].
    exists cfg, found, vs2, xs. cbn [negb] in H2. rewrite orb_true_r in H2.
    change (lines ((VLook F :: VLook F :: vs2) ++ [VPrint (fst (summed ([] ++ xs))) (snd (summed ([] ++ xs)))]) = ls ++ [s]) in L.
    rewrite lines_app in L. cbn [lines flat_map app] in L. apply app_inj_tail in L. destruct L as [<- <-].
    repeat split; auto.
    + intros F' I. apply Fr. right. right. apply in_or_app. auto.
    + destruct (summed xs). reflexivity.
  - intros (cfg & found & vs & xs & G & W & H & Fr & -> & -> & ->).
    exists (VLook F :: VLook F :: vs ++ [VPrint (fst (summed xs)) (snd (summed xs))]). split; [|split].
    + constructor. rewrite G. change no_tally with (lint_state []). apply (loop_steps K diff cfg (fixit_paths_serial T d (PathArg p :: map PathArg ps) false (Some opts) m) []). exists (VLook F :: vs), xs. split; [|auto].
      unfold fixit_paths_serial. constructor. rewrite C34_files, Nm, W. cbn [bind lift negb]. rewrite orb_true_r. exact H.
    + intros F' [E|[E|I]]; [congruence..|]. apply in_app_iff in I. destruct I as [I|[X|[]]]; [auto|discriminate].
    + change (lines ((VLook F :: VLook F :: vs) ++ [VPrint (fst (summed xs)) (snd (summed xs))]) = lines vs ++ [summed xs]).
      rewrite lines_app. f_equal. cbn. destruct (summed xs). reflexivity.
Qed.

Lemma lines_reorder : forall a b, Permutation a b -> Permutation (lines a) (lines b).
Proof.
  intros a b P. unfold lines. induction P as [|x a b P IH|x y a|a b c P1 IH1 P2 IH2]; cbn [flat_map].
  - constructor.
  - now apply Permutation_app_head.
  - rewrite !app_assoc. apply Permutation_app_tail. apply Permutation_app_comm.
  - etransitivity; eauto.
Qed.

(** Linting the same paths in another order prints the same lines in another order, the same summary, and returns the same. *)
Theorem C111_order : forall K T d opts m diff F ps qs ls s code, Permutation ps qs -> ps <> [] ->
  outputs F (lint K T d opts m diff (map PathArg ps)) ls s code ->
  exists ls', outputs F (lint K T d opts m diff (map PathArg qs)) ls' s code /\ Permutation ls ls'.
Proof.
  intros K T d opts m diff F ps qs ls s code P Ne H. destruct ps as [|p ps]; [congruence|].
  destruct qs as [|q qs]; [apply Permutation_sym, Permutation_nil in P; discriminate|].
  apply lint_outputs in H. destruct H as (cfg & found & vs & xs & G & W & H & Fr & -> & -> & ->).
  destruct (walks_reorder _ _ _ P _ W) as (found' & W' & Pf). destruct (steps_reorder _ _ _ _ _ _ _ _ _ (concat_reorder _ _ Pf) _ _ H) as (vs' & xs' & H' & Pv & Px).
  exists (lines vs'). split; [|now apply lines_reorder]. destruct (summed_reorder _ _ Px) as [-> ->].
  apply lint_outputs. exists cfg, found', vs', xs'. repeat split; auto. intros F' I. apply Fr. apply (Permutation_in _ (Permutation_sym Pv)). exact I.
Qed.

(** ** The claim is not vacuous *)

Transparent make_plan fixit_bytes.
Lemma performed_outputs : forall F (c : cmd N) vs s code ls, perform c F [] [] false = (vs, Returned code) -> lines vs = ls ++ [s] -> outputs F c ls s code.
Proof.
  intros F c vs s code ls H L. exists vs. pose proof (perform_run _ c F [] [] false) as R. rewrite H in R. split; [exact R|]. split; [|exact L].
  clear - H. intros F' I. revert vs code H I. induction c as [r|e|s t k IH|k IH|k IH|p c k IH|k IH|c k IH]; intros vs code H I; cbn [perform] in H.
  - injection H as <- _. contradiction.
  - discriminate.
  - destruct (perform k F [] [] false) as [vs1 o1] eqn:E. injection H as <- ->. destruct I as [I|I]; [discriminate|]. eauto.
  - cbn [tl] in H; destruct (perform (k None) F [] [] false) as [vs1 o1] eqn:E. injection H as <- ->. destruct I as [I|I]; [discriminate|]. eauto.
  - destruct (perform (k F) F [] [] false) as [vs1 o1] eqn:E. injection H as <- ->. destruct I as [I|I]; [now injection I|]. eauto.
  - destruct (perform (k (Ok tt)) F [] [] false) as [vs1 o1] eqn:E. injection H as <- ->. destruct I as [I|I]; [discriminate|]. eauto.
  - match type of H with (let (_, _) := ?e in _) = _ => destruct e as [vs1 o1] eqn:E end. injection H as <- ->. destruct I as [I|I]; [discriminate|]. eauto.
  - destruct (perform (k (Ok tt)) F [] [] false) as [vs1 o1] eqn:E. injection H as <- ->. destruct I as [I|I]; [discriminate|]. eauto.
Qed.

Example C111_example : exists l1 l2 l3 s,
  outputs ex_F (ex_lint (map PathArg two_paths)) (l1 ++ l2 ++ l3) s 3 /\ outputs ex_F (ex_lint (map PathArg (rev two_paths))) (l3 ++ l1 ++ l2) s 3 /\
  Permutation two_paths (rev two_paths) /\ List.length l1 = 1 /\ List.length l2 = 2 /\ List.length l3 = 2 /\ l1 ++ l2 ++ l3 <> l3 ++ l1 ++ l2.
Proof.
  pose (l := lines (fst (perform (ex_lint (map PathArg two_paths)) ex_F [] [] false))).
  exists (firstn 1 l), (firstn 2 (skipn 1 l)), (firstn 2 (skipn 3 l)), (last l (Diag, [])).
  split; [|split; [|split; [|split; [|split; [|split]]]]].
  - eapply performed_outputs; vm_compute; reflexivity.
  - eapply performed_outputs; vm_compute; reflexivity.
  - apply Permutation_rev.
  - vm_compute. reflexivity.
  - vm_compute. reflexivity.
  - vm_compute. reflexivity.
  - vm_compute. discriminate.
Qed.
