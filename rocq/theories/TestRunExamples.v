(** * An example for C90: RewriteToLiteral with three cases, tested, then run on a file *)
From Coq Require Import String List NArith ZArith Bool Arith Lia Permutation.
From Verif Require Import Base PyStr Ftypes Paths Config Collect CollectSpec CollectProps Suppress Cst Engine EngineProps Batch BatchProps
  Api ApiSpec ApiFacts ApiProps System SystemSpec SystemProps SystemSame Testing TestingSpec TestingProps TestRun TestRunSpec TestRunProps
  Session SessionSpec SessionProps CliProps CommandsProps VisitorsExamples MeaningExamples.
Import ListNotations.

Definition line11 (s : string) : str := u s ++ nl.
Definition invalid11 : invalid := Invalid (nl ++ line11 "f(tuple((a, b)))") None (Some (u "Unnecessary call")) (Some (nl ++ line11 "f((a, b))")).
Definition harness11 (order : list (tcase * nat) -> list (tcase * nat)) : harness :=
  Harness (fun s => s) Ok Ok (fun _ _ => Some [VStr (line11 "f((a, b))")])
    (fun _ _ => Some [ICase invalid11; IStr (line11 "f(tuple(tuple((a, b))))")]) order [u "w"].
Definition h11 : harness := harness11 (fun l => l).

(** The tests run with /a on sys.path; a different clock. *)
Definition system11 : system :=
  MkSystem (y_env system10) (y_unicode system10) (y_world system10) (PyState [u "/a"] [] 0) (y_code system10) (y_parse system10) (y_wrap system10) (fun n => n)
    (y_udiff system10) (y_bytes system10) (y_style system10) (y_walk system10).

Definition run11 (D : fs) (autofix : bool) (n m : nat) : list ev * ApiSpec.outcome unit :=
  play (fixit_file (tool_of system10) x_py autofix (Some ex_opts) false) (repeat (IFiles D) 3 ++ repeat (IAnswer None) n ++ repeat (IFiles D) m ++ [IDone (Ok tt)]).

Definition runs11 : list (fs * bool * nat * nat) := [(disk3, true, 1, 0); (disk2, false, 1, 0); (disk2, true, 1, 1)].
Definition text11 (D : fs) : str := match f_file D x_py with Some s => s | None => [] end.
Ltac all11 I := destruct I as [I|[I|[I|[]]]]; injection I as <- <- <- <-.

Lemma linted11 : forall D autofix n m, In (D, autofix, n, m) runs11 -> exists cfg, c_formatter cfg = None /\
  linted system10 x_py autofix (Some ex_opts) false (fst (run11 D autofix n m)) (text11 D) cfg D [(1%N, None)].
Proof.
  intros D autofix n m I.
  assert (Ec : exists cfg, generate_config (y_env system10) D x_py None (Some ex_opts) = Ok cfg /\ c_formatter cfg = None /\
    fst (collect_rules (y_world system10 D) cfg (y_py system10)) = Ok ([(1%N, None)], [])).
  { all11 I; (eexists; split; [vm_compute; reflexivity|split; [reflexivity|vm_compute; reflexivity]]). }
  assert (En : snd (run11 D autofix n m) = Returned tt) by (all11 I; vm_compute; reflexivity).
  assert (S3 : fst (run11 D autofix n m) = ELook D :: ELook D :: ELook D :: skipn 3 (fst (run11 D autofix n m))) by (all11 I; vm_compute; reflexivity).
  assert (Nc : forallb (fun e => match e with ECall _ _ => false | _ => true end) (fst (run11 D autofix n m)) = true) by (all11 I; vm_compute; reflexivity).
  assert (Ef : f_file D x_py = Some (text11 D)) by (all11 I; vm_compute; reflexivity).
  destruct (run11 D autofix n m) as [es o] eqn:Er. cbn [fst snd] in *. subst o. destruct Ec as (cfg & Eg & Fo & Co). exists cfg. split; [exact Fo|].
  split; [exact (play_run _ _ _ _ _ Er)|]. split; [exists D, D, (skipn 3 es); auto|]. split.
  - destruct (collect_rules _ _ _) as [r s] eqn:K. cbn [fst] in Co. subst r. eexists _, s. exact K.
  - intros m' e H. rewrite forallb_forall in Nc. apply Nc in H. discriminate.
Qed.

Lemma tested11 : test_of system11 h11 disk1 [u "rules"] = 0%Z /\ under_test system11 h11 disk1 [u "rules"] (1%N, None).
Proof.
  split; [vm_compute; reflexivity|]. eexists. split; [vm_compute; reflexivity|].
  destruct (collect_rules (y_world system11 disk1) (test_config (h_cwd h11) [QRule (u "rules") None None None]) (y_py system11)) as [r s] eqn:K.
  assert (r = Ok ([(1%N, None)], [])) as -> by (vm_compute in K; injection K as <- _; reflexivity).
  apply (selected_in system11 _ _ _ _ _ (system10_fair disk1) K). simpl. auto.
Qed.

(** The tests pass; then "f((a, b))" is clean, and "f(tuple((a, b)))" is reported and fixed to "f((a, b))". *)
Example C90_example :
  test_of system11 h11 disk1 [u "rules"] = 0%Z /\ under_test system11 h11 disk1 [u "rules"] (1%N, None) /\ same_language system11 system10 /\
  (forall l, Permutation (h_order h11 l) l) /\
  text11 disk3 = line11 "f((a, b))" /\ results (fst (run11 disk3 true 1 0)) = [Result x_py None None] /\
  text11 disk2 = line11 "f(tuple((a, b)))" /\ violations (results (fst (run11 disk2 false 1 0))) <> [] /\
  written (fst (run11 disk2 true 1 1)) = [(x_py, line11 "f((a, b))")].
Proof.
  assert (T := proj1 tested11). assert (U := proj2 tested11). assert (Sl : same_language system11 system10) by (repeat split).
  assert (Or : forall l, Permutation (h_order h11 l) l) by (intro; apply Permutation_refl).
  split; [exact T|]. split; [exact U|]. split; [exact Sl|]. split; [exact Or|]. split; [vm_compute; reflexivity|]. split; [|split; [vm_compute; reflexivity|split]].
  - destruct (linted11 disk3 true 1 0) as (cfg & _ & L); [cbn; auto|].
    apply (C90_valid system11 system10 h11 disk1 [u "rules"] (1%N, None) (line11 "f((a, b))") _ _ _ _ _ _ _ _ _ Or system10_fair Sl T U) in L; [exact (proj1 L)| | |reflexivity].
    + left. eexists _, (VStr (line11 "f((a, b))")). split; [reflexivity|]. split; [left; reflexivity|reflexivity].
    + exists (line11 "f((a, b))"). split; [|vm_compute; reflexivity]. right. split; [intros s X; vm_compute in X; discriminate|reflexivity].
  - destruct (linted11 disk2 false 1 0) as (cfg & _ & L); [cbn; auto|].
    apply (C90_invalid system11 system10 h11 disk1 [u "rules"] (1%N, None) invalid11 _ _ _ _ _ _ _ _ _ Or system10_fair Sl T U) in L; [| | |reflexivity].
    + destruct L as (vs & Ne & _ & -> & _). exact Ne.
    + right. eexists _, (ICase invalid11). split; [reflexivity|]. split; [left; reflexivity|reflexivity].
    + exists (line11 "f(tuple((a, b)))"). split; [|vm_compute; reflexivity]. left. eexists. split; reflexivity.
  - destruct (linted11 disk2 true 1 1) as (cfg & Fo & L); [cbn; auto|].
    apply (C90_fix system11 system10 h11 disk1 [u "rules"] (1%N, None) invalid11 (nl ++ line11 "f((a, b))") _ _ _ _ _ _ _ _ _ Or system10_fair Sl T U) in L;
      [| | |reflexivity|discriminate|reflexivity|exact Fo|left; reflexivity].
    + destruct L as (b & text & Ed & Wr & St & _). injection Ed as ->. assert (text = line11 "f((a, b))") as ->.
      { destruct Wr as [(s & X & ->)|(X & _)]; [injection X as <-; reflexivity|exfalso; eapply X; reflexivity]. }
      destruct St as [(_ & _ & W)|([X|X] & _)]; [exact W|vm_compute in X; discriminate|vm_compute in X; discriminate].
    + right. eexists _, (ICase invalid11). split; [reflexivity|]. split; [left; reflexivity|reflexivity].
    + exists (line11 "f(tuple((a, b)))"). split; [|vm_compute; reflexivity]. left. eexists. split; reflexivity.
Qed.

(** "fixit test" with a name that cannot be imported succeeds: exit status 0 does not say that anything was tested. *)
Theorem C90_nothing_refuted : ~ (forall Y H F names, (forall l, Permutation (h_order H l) l) -> names <> [] -> test_of Y H F names = 0%Z ->
  exists k, under_test Y H F names k).
Proof.
  intro H. destruct (H system11 h11 disk1 [u "rulse"]) as (k & qs & Eq & Se); [intro; apply Permutation_refl|discriminate|vm_compute; reflexivity|].
  vm_compute in Eq. injection Eq as <-.
  destruct (collect_rules (y_world system11 disk1) (test_config (h_cwd h11) [QRule (u "rulse") None None None]) (y_py system11)) as [r s] eqn:K.
  assert (r = Ok ([], [])) as -> by (vm_compute in K; injection K as <- _; reflexivity).
  apply (selected_in system11 _ _ _ _ _ (system10_fair disk1) K) in Se. contradiction.
Qed.
