(** * C109: the summary of several paths *)
From Coq Require Import String List NArith ZArith Bool Arith Lia Permutation.
From Verif Require Import Base PyStr Ftypes Paths Config Suppress Cst Engine EngineProps Batch Api ApiSpec ApiFacts ApiProps ApiPaths System SystemSpec SystemSame
  Cli CliSpec CliFacts CliProps InputProps SeveralProps DiskSpec DiskProps SeveralFix.
Import ListNotations.

(** ** Specification *)

(** While nobody changes a file in [F], a command that ends prints [s] as its last line. *)
Definition last_says (F : fs) (c : cmd N) (s : stream * str) : Prop :=
  exists vs ls code, crun c vs (Returned code) /\ (forall F', In (VLook F') vs -> F' = F) /\ lines vs = ls ++ [s].

(** Files checked, files with errors, auto-fixes available *)
Record counts := Counts { n_checked : nat; n_errors : nat; n_available : nat }.
Definition plus_counts (a b : counts) : counts := Counts (n_checked a + n_checked b) (n_errors a + n_errors b) (n_available a + n_available b).
(** The line "🧼 3 files clean 🧼" or "🛠️  3 files checked, 2 files with errors, 4 auto-fixes available 🛠️"; no more files have errors than are checked, and without errors
    there is nothing to fix. *)
Definition tells_counts (s : stream * str) (n : counts) : Prop :=
  s = (Diag, summary (n_checked n) (n_errors n) (n_available n) 0) /\ n_errors n <= n_checked n /\ (n_errors n = 0 -> n_available n = 0).

(** ** Proofs *)

Lemma steps_results : forall K diff cfg g vs xs, steps K diff cfg g vs xs -> exists es, run g es (Returned tt) /\ results es = xs.
Proof.
  intros K diff cfg g vs xs H. induction H as [r|x k ls d vs xs E H IH|k F vs xs H IH|p c k w vs xs H IH|k i vs xs H IH|c k w vs xs H IH|m k vs xs H IH]; try (destruct IH as (es & R & Rs)).
  - exists []. destruct r. split; [constructor|reflexivity].
  - exists (EGive x None :: es). split; [now constructor|]. cbn. now f_equal.
  - exists (ELook F :: es). split; [now constructor|exact Rs].
  - exists (EWrite p c w :: es). split; [now constructor|exact Rs].
  - exists (EIn i :: es). split; [now constructor|exact Rs].
  - exists (EOut c w :: es). split; [now constructor|exact Rs].
  - exists (ECall m (Ok tt) :: es). split; [now constructor|exact Rs].
Qed.

Lemma serial_paths : forall K diff cfg T autofix opts hook ps vs xs, steps K diff cfg (serial T ps autofix opts hook) vs xs -> forall x, In x xs -> In (x_path x) ps.
Proof.
  intros K diff cfg T autofix opts hook ps. induction ps as [|p ps IH]; intros vs xs H x I; cbn [serial] in H.
  - inversion H; subst. exact I.
  - apply steps_bind in H. destruct H as (vs1 & xs1 & vs2 & xs2 & H1 & H2 & -> & ->). apply in_app_iff in I. destruct I as [I|I]; [left|right; eapply IH; eauto].
    destruct (steps_results _ _ _ _ _ _ H1) as (es & R & <-). destruct (C29_about T p [] cfg autofix opts hook) as (_ & Ab & _). specialize (Ab _ _ R). rewrite Forall_forall in Ab.
    symmetry. apply (Ab x I).
Qed.

Definition counted (xs : list result) : counts := Counts (List.length (set_of any xs)) (List.length (set_of dirty xs)) (number fixable xs).

Lemma set_app : forall f xs ys, (forall x y, In x xs -> In y ys -> x_path x <> x_path y) -> List.length (set_of f (xs ++ ys)) = List.length (set_of f xs) + List.length (set_of f ys).
Proof.
  intros f xs ys D. destruct (set_of_distinct f xs) as [N1 S1], (set_of_distinct f ys) as [N2 S2], (set_of_distinct f (xs ++ ys)) as [N S].
  rewrite <- app_length. apply Permutation_length. apply NoDup_Permutation; [exact N| |].
  - assert (Dj : forall p, In p (set_of f xs) -> ~ In p (set_of f ys)).
    { intros p I J. apply S1 in I. apply S2 in J. destruct I as (x & I & _ & Ex), J as (y & J & _ & Ey). apply (D x y I J). congruence. }
    clear - N1 N2 Dj. induction N1 as [|p l Np N1 IH]; cbn [app]; [exact N2|]. constructor.
    + intro I. apply in_app_iff in I. destruct I as [I|I]; [auto|]. apply (Dj p); simpl; auto.
    + apply IH. intros q I. apply Dj. right. exact I.
  - intro p. rewrite in_app_iff, S, S1, S2. split.
    + intros (x & I & A & B). apply in_app_iff in I. destruct I; [left|right]; eauto.
    + intros [(x & I & A & B)|(x & I & A & B)]; exists x; rewrite in_app_iff; auto.
Qed.

Lemma counted_app : forall xs ys, (forall x y, In x xs -> In y ys -> x_path x <> x_path y) -> counted (xs ++ ys) = plus_counts (counted xs) (counted ys).
Proof.
  intros xs ys D. unfold counted, plus_counts. cbn [n_checked n_errors n_available]. rewrite !set_app by exact D. f_equal. unfold number. now rewrite filter_app, app_length.
Qed.

Lemma summed_tells : forall xs, tells_counts (summed xs) (counted xs).
Proof.
  intro xs. unfold summed. destruct (lint_state_spec xs) as (A & B & C & _). rewrite splash_summary, A, B, C. split; [reflexivity|]. cbn [counted n_checked n_errors n_available].
  destruct (set_of_distinct any xs) as [N1 S1], (set_of_distinct dirty xs) as [N2 S2]. split.
  - apply NoDup_incl_length; [exact N2|]. intros p I. apply S2 in I. destruct I as (x & I & _ & E). apply S1. exists x. auto.
  - intro Z. apply length_zero_iff_nil in Z. unfold number. destruct (filter fixable xs) as [|x l] eqn:Fl; [reflexivity|]. exfalso.
    assert (I : In x (filter fixable xs)) by (rewrite Fl; left; reflexivity). apply filter_In in I. destruct I as [I Fx].
    assert (J : In (x_path x) (set_of dirty xs)). { apply S2. exists x. split; [exact I|]. split; [|reflexivity]. unfold fixable in Fx. unfold dirty. destruct (x_violation x); [reflexivity|discriminate]. }
    rewrite Z in J. exact J.
Qed.

Opaque make_plan.
Lemma lint_says : forall K T d opts m diff F p ps s, last_says F (lint K T d opts m diff (map PathArg (p :: ps))) s <->
  exists cfg found vs xs, generate_config (t_env T) F (k_cwd K) None (Some opts) = Ok cfg /\ map_res (t_walk T F) (p :: ps) = Ok found /\
    steps K diff cfg (serial T (concat found) false (Some opts) m) vs xs /\ (forall F', In (VLook F') vs -> F' = F) /\ s = summed xs.
Proof.
  intros K T d opts m diff F p ps s. unfold last_says, lint, lint_with. cbn [map or_cwd].
  assert (Nm : flat_map named (map PathArg ps) = ps) by (induction ps as [|q ps IH]; [reflexivity|]; cbn [map flat_map named app]; now rewrite IH).
  split.
  - intros (vs & ls & c & H & Fr & L). inversion H as [| | | | |? F0 vs0 ? H0| | |]; subst. assert (F0 = F) as -> by (apply Fr; left; reflexivity).
    destruct (generate_config (t_env T) F (k_cwd K) None (Some opts)) as [cfg|e]; [|inversion H0].
    change no_tally with (lint_state []) in H0. apply (loop_steps K diff cfg (fixit_paths_serial T d (PathArg p :: map PathArg ps) false (Some opts) m) []) in H0. destruct H0 as (vs1 & xs & H1 & -> & ->). unfold fixit_paths_serial in H1.
    inversion H1 as [| |? F1 vs2 ? H2| | | |]; subst. assert (F1 = F) as -> by (apply Fr; right; left; reflexivity). rewrite C34_files, Nm in H2.
    destruct (map_res (t_walk T F) (p :: ps)) as [found|e]; cbn [bind lift] in H2; [|inversion H2].
    exists cfg, found, vs2, xs. cbn [negb] in H2. rewrite orb_true_r in H2. repeat split; auto.
    + intros F' I. apply Fr. right. right. apply in_or_app. auto.
    + change (lines ((VLook F :: VLook F :: vs2) ++ [VPrint (fst (summed ([] ++ xs))) (snd (summed ([] ++ xs)))]) = ls ++ [s]) in L.
      rewrite lines_app in L. cbn [lines flat_map app] in L. apply app_inj_tail in L. destruct L as [_ <-]. destruct (summed xs). reflexivity.
  - intros (cfg & found & vs & xs & G & W & H & Fr & ->).
    exists (VLook F :: VLook F :: vs ++ [VPrint (fst (summed xs)) (snd (summed xs))]), (lines vs), (l_exit (lint_state xs)). split; [|split].
    + constructor. rewrite G. change no_tally with (lint_state []). apply (loop_steps K diff cfg (fixit_paths_serial T d (PathArg p :: map PathArg ps) false (Some opts) m) []). exists (VLook F :: vs), xs. split; [|auto].
      unfold fixit_paths_serial. constructor. rewrite C34_files, Nm, W. cbn [bind lift negb]. rewrite orb_true_r. exact H.
    + intros F' [E|[E|I]]; [congruence..|]. apply in_app_iff in I. destruct I as [I|[X|[]]]; [auto|discriminate].
    + change (lines ((VLook F :: VLook F :: vs) ++ [VPrint (fst (summed xs)) (snd (summed xs))]) = lines vs ++ [summed xs]).
      rewrite lines_app. f_equal. cbn. destruct (summed xs). reflexivity.
Qed.

(** If no file is found in two of the paths, the numbers in the summary of [lint path1 path2 …] are the sums of those in the summaries of [lint path1], [lint path2], … *)
Theorem C109_lint : forall K T d opts m diff F ps found each s, ps <> [] ->
  map_res (t_walk T F) ps = Ok found -> NoDup (concat found) ->
  Forall2 (fun p s => last_says F (lint K T d opts m diff [PathArg p]) s) ps each ->
  last_says F (lint K T d opts m diff (map PathArg ps)) s ->
  exists ns, Forall2 tells_counts each ns /\ tells_counts s (fold_right plus_counts (Counts 0 0 0) ns).
Proof.
  intros K T d opts m diff F ps found each s Ne Wk Nd Ea Al.
  assert (exists cfg vs xs, generate_config (t_env T) F (k_cwd K) None (Some opts) = Ok cfg /\ steps K diff cfg (serial T (concat found) false (Some opts) m) vs xs /\
    (forall F', In (VLook F') vs -> F' = F) /\ s = summed xs) as (cfg & vs & xs & G & St & Fr & ->).
  { destruct ps as [|p ps]; [congruence|]. apply lint_says in Al. destruct Al as (cfg & fd & vs & xs & G & W & H & Fr & ->). assert (fd = found) as -> by congruence. eauto 8. }
  clear Ne Al.
  assert (Gen : exists ns, Forall2 tells_counts each ns /\ counted xs = fold_right plus_counts (Counts 0 0 0) ns).
  { revert found vs xs Wk Nd St Fr. induction Ea as [|p s ps each H Ea IH]; intros found vs xs Wk Nd St Fr.
    - injection Wk as <-. inversion St; subst. exists []. split; [constructor|reflexivity].
    - apply map_res_cons in Wk. destruct Wk as (f1 & f2 & W1 & W2 & ->). cbn [concat] in St, Nd.
      apply steps_serial in St. destruct St as (vs1 & xs1 & vs2 & xs2 & H1 & H2 & -> & ->).
      assert (Fr1 : forall F', In (VLook F') vs1 -> F' = F) by (intros; apply Fr; apply in_or_app; auto).
      assert (Fr2 : forall F', In (VLook F') vs2 -> F' = F) by (intros; apply Fr; apply in_or_app; auto).
      assert (N2 : NoDup (concat f2) /\ forall p, In p f1 -> ~ In p (concat f2)).
      { clear - Nd. induction f1 as [|q f1 IH]; [split; [exact Nd|intros p []]|]. cbn [app] in Nd. inversion Nd as [|? ? Nq N']; subst. destruct (IH N') as [A B]. split; [exact A|].
        intros p [<-|I]; [|auto]. intro J. apply Nq. apply in_or_app. auto. }
      destruct (IH _ _ _ W2 (proj1 N2) H2 Fr2) as (ns & Fa & Eq).
      apply (lint_says K T d opts m diff F p []) in H. destruct H as (cfg' & fd & vs' & xs' & G' & W' & H' & Fr' & ->).
      assert (cfg' = cfg) as -> by congruence. apply map_res_cons in W'. destruct W' as (g1 & g0 & X1 & X0 & ->). injection X0 as <-. assert (g1 = f1) as -> by congruence.
      cbn [concat] in H'. rewrite app_nil_r in H'. destruct (steps_unique _ _ _ _ _ (serial_ends _ _ _ _) _ _ _ _ H1 H' Fr1 Fr') as [-> ->].
      exists (counted xs' :: ns). split; [constructor; [apply summed_tells|exact Fa]|]. cbn [fold_right]. rewrite <- Eq. apply counted_app.
      intros x y I J E. apply (serial_paths _ _ _ _ _ _ _ _ _ _ H1) in I. apply (serial_paths _ _ _ _ _ _ _ _ _ _ H2) in J. rewrite E in I. exact (proj2 N2 _ I J). }
  destruct Gen as (ns & Fa & Eq). exists ns. split; [exact Fa|]. rewrite <- Eq. apply summed_tells.
Qed.

Transparent make_plan fixit_bytes.
Lemma performed_says : forall F (c : cmd N) vs s code ls, perform c F [] [] false = (vs, Returned code) -> lines vs = ls ++ [s] -> last_says F c s.
Proof.
  intros F c vs s code ls H L. exists vs, ls, code. pose proof (perform_run _ c F [] [] false) as R. rewrite H in R. split; [exact R|]. split; [|exact L].
  clear - H. intros F' I. revert vs code H I. induction c as [r|e|s t k IH|k IH|k IH|p c k IH|k IH|c k IH]; intros vs code H I; cbn [perform] in H.
  - injection H as <- _. contradiction.
  - discriminate.
  - destruct (perform k F [] [] false) as [vs1 o1] eqn:E. injection H as <- ->. destruct I as [I|I]; [discriminate|]. eauto.
  - cbn [tl] in H; destruct (perform (k None) F [] [] false) as [vs1 o1] eqn:E. injection H as <- ->. destruct I as [I|I]; [discriminate|]. eauto.
  - destruct (perform (k F) F [] [] false) as [vs1 o1] eqn:E. injection H as <- ->. destruct I as [I|I]; [now injection I|]. eauto.
  - destruct (perform (k (Ok tt)) F [] [] false) as [vs1 o1] eqn:E. injection H as <- ->. destruct I as [I|I]; [discriminate|]. eauto.
  - match type of H with (let (_, _) := ?e in _) = _ => destruct e as [vs1 o1] eqn:E end. injection H as <- ->. destruct I as [I|I]; [discriminate|]. eauto.
  - destruct (perform (k (Ok tt)) F [] [] false) as [vs1 o1] eqn:E. injection H as <- ->. destruct I as [I|I]; [discriminate|]. eauto.
Qed.

Example C109_example : exists s1 s2 s,
  NoDup (concat [[ex_file]; [[u "d"; u "b.py"]]]) /\ map_res (t_walk (ex_tool false ex_rules) ex_F) two_paths = Ok [[ex_file]; [[u "d"; u "b.py"]]] /\
  last_says ex_F (ex_lint [PathArg ex_file]) s1 /\ last_says ex_F (ex_lint [PathArg [u "d"; u "b.py"]]) s2 /\ last_says ex_F (ex_lint (map PathArg two_paths)) s /\
  tells_counts s1 (Counts 1 1 2) /\ tells_counts s2 (Counts 1 1 0) /\ tells_counts s (Counts 2 2 2).
Proof.
  pose (r1 := perform (ex_lint [PathArg ex_file]) ex_F [] [] false). pose (r2 := perform (ex_lint [PathArg [u "d"; u "b.py"]]) ex_F [] [] false).
  pose (r := perform (ex_lint (map PathArg two_paths)) ex_F [] [] false).
  exists (last (lines (fst r1)) (Diag, [])), (last (lines (fst r2)) (Diag, [])), (last (lines (fst r)) (Diag, [])).
  split; [|split; [|split; [|split; [|split; [|split; [|split]]]]]].
  - repeat constructor; vm_compute; intuition congruence.
  - vm_compute. reflexivity.
  - eapply performed_says with (ls := removelast (lines (fst r1))); vm_compute; reflexivity.
  - eapply performed_says with (ls := removelast (lines (fst r2))); vm_compute; reflexivity.
  - eapply performed_says with (ls := removelast (lines (fst r))); vm_compute; reflexivity.
  - split; [vm_compute; reflexivity|cbn; lia].
  - split; [vm_compute; reflexivity|cbn; lia].
  - split; [vm_compute; reflexivity|cbn; lia].
Qed.
