(** * C105: answering no to every question *)
From Coq Require Import String List NArith ZArith Bool Arith Lia.
From Verif Require Import Base PyStr Ftypes Paths Config Suppress Cst Engine EngineProps Batch Api ApiSpec ApiFacts ApiProps ApiPaths System SystemSpec SystemSame
  Cli CliSpec CliFacts CliProps InputProps SeveralProps Session Commands DiskSpec DiskProps SeveralFix ConsentProps.
Import ListNotations.

(** ** Specification *)

(** What happens apart from the questions *)
Definition quiet (vs : list cev) : list cev := filter (fun v => match v with VPrompt _ => false | _ => true end) vs.

(** Fixing ends like linting: with an exception if linting does, with 0 if linting returns. *)
Definition ends_like (fixing linting : outcome N) : Prop :=
  match linting with Returned _ => fixing = Returned 0%N | Raised e => fixing = Raised e | Stopped => fixing = Stopped end.

Definition all_no (vs : list cev) : Prop := forall a, In a (asked vs) -> a = Some No.

(** ** Proofs *)

(** The two tallies *)
Definition level (t t' : tally) : Prop := l_visited t = l_visited t' /\ l_dirty t = l_dirty t' /\ l_autofixes t = l_autofixes t' /\ l_fixed t = 0 /\ l_exit t = 0%N.

Lemma level_step : forall t t' x, level t t' -> level (if is_fixable x then offered (fix_tally false t x (dirty x)) else fix_tally false t x (dirty x)) (lint_tally t' x (dirty x)).
Proof.
  intros t t' x (A & B & C & D & E). unfold level, lint_tally, fix_tally. cbn [andb].
  destruct (is_fixable x) eqn:Fx.
  - assert (dirty x = true) as -> by (unfold is_fixable in Fx; unfold dirty; destruct (x_violation x); [reflexivity|discriminate]).
    cbn. rewrite A, B, C. auto.
  - destruct (dirty x); cbn; rewrite A, ?B; auto.
Qed.

Lemma all_no_cons : forall v vs, all_no (v :: vs) <-> (match v with VPrompt a => a = Some No | _ => True end) /\ all_no vs.
Proof.
  intros v vs. unfold all_no. destruct v; cbn [asked flat_map app]; try (split; [intro H; split; [exact Logic.I|exact H]|intros [_ H]; exact H]).
  split.
  - intro H. split; [apply H; left; reflexivity|intros b I; apply H; right; exact I].
  - intros [-> H] b [<-|I]; auto.
Qed.

Lemma printed_on : forall (ls : list (stream * str)) (k k' : cmd N),
  (forall vs o, crun k vs o -> all_no vs -> exists o', crun k' (quiet vs) o' /\ ends_like o o') ->
  forall vs o, crun (print_all ls k) vs o -> all_no vs -> exists o', crun (print_all ls k') (quiet vs) o' /\ ends_like o o'.
Proof.
  induction ls as [|[s t] ls IH]; intros k k' H vs o R A; cbn [print_all] in *; [auto|].
  inversion R as [| | |? ? ? vs1 ? R1| | | | |]; subst; [exists Stopped; split; [constructor|reflexivity]|].
  apply all_no_cons in A. destruct A as [_ A]. destruct (IH _ _ H _ _ R1 A) as (o' & R2 & E). exists o'. split; [now constructor|exact E].
Qed.

Lemma printed_back : forall (ls : list (stream * str)) (k k' : cmd N),
  (forall vs o', crun k' vs o' -> exists ws o, crun k ws o /\ all_no ws /\ quiet ws = vs /\ ends_like o o') ->
  forall vs o', crun (print_all ls k') vs o' -> exists ws o, crun (print_all ls k) ws o /\ all_no ws /\ quiet ws = vs /\ ends_like o o'.
Proof.
  induction ls as [|[s t] ls IH]; intros k k' H vs o' R; cbn [print_all] in *; [auto|].
  inversion R as [| | |? ? ? vs1 ? R1| | | | |]; subst; [exists [], Stopped; repeat split; [constructor|intros a []]|].
  destruct (IH _ _ H _ _ R1) as (ws & o & R2 & A & Q & E). exists (VPrint s t :: ws), o. split; [now constructor|]. split; [now apply all_no_cons|]. split; [exact (f_equal (cons _) Q)|exact E].
Qed.

Ltac stopped := exists Stopped; split; [constructor|reflexivity].
Ltac stopped2 := exists [], Stopped; split; [constructor|split; [intros a []|split; reflexivity]].

Lemma refuse_loop : forall K diff cfg g t t', level t t' -> forall vs o, crun (fix_loop K true diff false cfg g t) vs o -> all_no vs ->
  exists o', crun (lint_loop K true cfg g t') (quiet vs) o' /\ ends_like o o'.
Proof.
  intros K diff cfg g. induction g as [r|e|x k IH|k IH|q c0 k IH|k IH|c0 k IH|m k IH]; intros t t' Lv vs o R A; cbn [fix_loop lint_loop orb negb andb] in *.
  - destruct Lv as (A1 & A2 & A3 & A4 & A5). unfold fix_end in R. rewrite A1, A2, A3, A4, A5 in R. revert R A. apply printed_on. intros ws o2 R A. inversion R; subst; [stopped|]. exists (Returned (l_exit t')). split; [constructor|reflexivity].
  - inversion R; subst; [stopped|]. exists (Raised e). split; [constructor|reflexivity].
  - destruct (print_result K x true false (c_format cfg) (c_template cfg)) as [[ls d]|e] eqn:E.
    + pose proof (printed_dirty _ _ _ _ _ _ _ _ E) as ->. pose proof (level_step _ _ x Lv) as Lv2. revert R A. apply printed_on. intros ws o2 R A. destruct (is_fixable x).
      * inversion R as [| | | |? a vs1 ? R1| | | |]; subst; [stopped|]. apply all_no_cons in A. destruct A as [-> A]. cbn [quiet filter]. eapply IH; eauto.
      * eapply IH; eauto.
    + inversion R; subst; [stopped|]. exists (Raised e). split; [constructor|reflexivity].
  - inversion R as [| | | | |? F vs1 ? R1| | |]; subst; [stopped|]. apply all_no_cons in A. destruct (IH F _ _ Lv _ _ R1 (proj2 A)) as (o' & R2 & E). exists o'. split; [now constructor|exact E].
  - inversion R as [| | | | | |? ? ? w vs1 ? R1| |]; subst; [stopped|]. apply all_no_cons in A. destruct (IH w _ _ Lv _ _ R1 (proj2 A)) as (o' & R2 & E). exists o'. split; [now constructor|exact E].
  - inversion R as [| | | | | | |? i vs1 ? R1|]; subst; [stopped|]. apply all_no_cons in A. destruct (IH i _ _ Lv _ _ R1 (proj2 A)) as (o' & R2 & E). exists o'. split; [now constructor|exact E].
  - inversion R as [| | | | | | | |? ? w vs1 ? R1]; subst; [stopped|]. apply all_no_cons in A. destruct (IH w _ _ Lv _ _ R1 (proj2 A)) as (o' & R2 & E). exists o'. split; [now constructor|exact E].
  - inversion R as [| | |? ? ? vs1 ? R1| | | | |]; subst; [stopped|]. apply all_no_cons in A. destruct (IH (Ok tt) _ _ Lv _ _ R1 (proj2 A)) as (o' & R2 & E). exists o'. split; [now constructor|exact E].
Qed.

Lemma answer_loop : forall K diff cfg g t t', level t t' -> forall vs o', crun (lint_loop K true cfg g t') vs o' ->
  exists ws o, crun (fix_loop K true diff false cfg g t) ws o /\ all_no ws /\ quiet ws = vs /\ ends_like o o'.
Proof.
  intros K diff cfg g. induction g as [r|e|x k IH|k IH|q c0 k IH|k IH|c0 k IH|m k IH]; intros t t' Lv vs o' R; cbn [fix_loop lint_loop orb negb andb] in *.
  - destruct Lv as (A1 & A2 & A3 & A4 & A5). unfold fix_end. rewrite A1, A2, A3, A4, A5. revert R. apply printed_back. intros ws o2 R. inversion R; subst; [stopped2|].
    exists [], (Returned 0%N). split; [constructor|]. split; [intros a []|split; reflexivity].
  - inversion R; subst; [stopped2|]. exists [], (Raised e). split; [constructor|]. split; [intros a []|split; reflexivity].
  - destruct (print_result K x true false (c_format cfg) (c_template cfg)) as [[ls d]|e] eqn:E.
    + pose proof (printed_dirty _ _ _ _ _ _ _ _ E) as ->. pose proof (level_step _ _ x Lv) as Lv2. revert R. apply printed_back. intros ws o2 R. destruct (is_fixable x).
      * destruct (IH None _ _ Lv2 _ _ R) as (us & o & R2 & A & Q & En). exists (VPrompt (Some No) :: us), o. split; [constructor; exact R2|]. split; [apply all_no_cons; auto|]. split; [exact Q|exact En].
      * eapply IH; eauto.
    + inversion R; subst; [stopped2|]. exists [], (Raised e). split; [constructor|]. split; [intros a []|split; reflexivity].
  - inversion R as [| | | | |? F vs1 ? R1| | |]; subst; [stopped2|]. destruct (IH F _ _ Lv _ _ R1) as (us & o & R2 & A & Q & En). eexists (_ :: us), o. split; [constructor; exact R2|]. split; [now apply all_no_cons|]. split; [exact (f_equal (cons _) Q)|exact En].
  - inversion R as [| | | | | |? ? ? w vs1 ? R1| |]; subst; [stopped2|]. destruct (IH w _ _ Lv _ _ R1) as (us & o & R2 & A & Q & En). eexists (_ :: us), o. split; [constructor; exact R2|]. split; [now apply all_no_cons|]. split; [exact (f_equal (cons _) Q)|exact En].
  - inversion R as [| | | | | | |? i vs1 ? R1|]; subst; [stopped2|]. destruct (IH i _ _ Lv _ _ R1) as (us & o & R2 & A & Q & En). eexists (_ :: us), o. split; [constructor; exact R2|]. split; [now apply all_no_cons|]. split; [exact (f_equal (cons _) Q)|exact En].
  - inversion R as [| | | | | | | |? ? w vs1 ? R1]; subst; [stopped2|]. destruct (IH w _ _ Lv _ _ R1) as (us & o & R2 & A & Q & En). eexists (_ :: us), o. split; [constructor; exact R2|]. split; [now apply all_no_cons|]. split; [exact (f_equal (cons _) Q)|exact En].
  - inversion R as [| | |? ? ? vs1 ? R1| | | | |]; subst; [stopped2|]. destruct (IH (Ok tt) _ _ Lv _ _ R1) as (us & o & R2 & A & Q & En). eexists (_ :: us), o. split; [constructor; exact R2|]. split; [now apply all_no_cons|]. split; [exact (f_equal (cons _) Q)|exact En].
Qed.

Lemma level_start : level no_tally no_tally.
Proof. repeat split. Qed.

(** ** C105 *)

(** Fixing with questions that are all answered no does what linting with --diff does: apart from the questions the events are the same, in the same order,
    so nothing is written, and the same lines are printed. Only the status is always 0. *)
Theorem C105_refuse : forall K T d opts m diff paths vs o, first_is_dash paths = false ->
  crun (fix_ K T d opts m true diff paths) vs o -> all_no vs ->
  exists o', crun (lint K T d opts m true paths) (quiet vs) o' /\ ends_like o o'.
Proof.
  intros K T d opts m diff paths vs o Fd R A.
  assert (Fd2 : first_is_dash (or_cwd K paths) = false) by (destruct paths; [reflexivity|exact Fd]).
  unfold fix_ in R. rewrite Fd2 in R. cbn [andb negb] in R. unfold lint, lint_with.
  inversion R as [| | | | |? F vs1 ? R1| | |]; subst; [stopped|]. apply all_no_cons in A. destruct A as [_ A].
  assert (X : exists o', crun (match generate_config (t_env T) F (k_cwd K) None (Some opts) with Err e => CFail e | Ok cfg =>
    lint_loop K true cfg (fixit_paths_serial T d (or_cwd K paths) false (Some opts) m) no_tally end) (quiet vs1) o' /\ ends_like o o').
  { destruct (generate_config (t_env T) F (k_cwd K) None (Some opts)) as [cfg|e]; [exact (refuse_loop K diff cfg (fixit_paths_serial T d (or_cwd K paths) false (Some opts) m) _ _ level_start _ _ R1 A)|].
    inversion R1; subst; [stopped|]. exists (Raised e). split; [constructor|reflexivity]. }
  destruct X as (o' & R2 & E). exists o'. split; [now constructor|exact E].
Qed.

(** And every way that linting can go is a way that fixing goes, with answers no. *)
Theorem C105_answer : forall K T d opts m diff paths vs o', first_is_dash paths = false ->
  crun (lint K T d opts m true paths) vs o' ->
  exists ws o, crun (fix_ K T d opts m true diff paths) ws o /\ all_no ws /\ quiet ws = vs /\ ends_like o o'.
Proof.
  intros K T d opts m diff paths vs o' Fd R.
  assert (Fd2 : first_is_dash (or_cwd K paths) = false) by (destruct paths; [reflexivity|exact Fd]).
  unfold lint, lint_with in R. unfold fix_. rewrite Fd2. cbn [andb negb].
  inversion R as [| | | | |? F vs1 ? R1| | |]; subst; [stopped2|].
  assert (X : exists ws o, crun (match generate_config (t_env T) F (k_cwd K) None (Some opts) with Err e => CFail e | Ok cfg =>
    fix_loop K true diff false cfg (fixit_paths_serial T d (or_cwd K paths) false (Some opts) m) no_tally end) ws o /\ all_no ws /\ quiet ws = vs1 /\ ends_like o o').
  { destruct (generate_config (t_env T) F (k_cwd K) None (Some opts)) as [cfg|e]; [exact (answer_loop K diff cfg (fixit_paths_serial T d (or_cwd K paths) false (Some opts) m) _ _ level_start _ _ R1)|].
    inversion R1; subst; [exists [], Stopped|exists [], (Raised e)]; (split; [constructor|split; [intros a []|split; reflexivity]]). }
  destruct X as (ws & o & R2 & A & Q & E). exists (VLook F :: ws), o. split; [now constructor|]. split; [now apply all_no_cons|]. split; [exact (f_equal (cons _) Q)|exact E].
Qed.

Lemma quiet_saved : forall vs, saved (quiet vs) = saved vs.
Proof. induction vs as [|v vs IH]; [reflexivity|]. unfold saved, quiet in *. destruct v; cbn [filter flat_map app]; rewrite ?IH; reflexivity. Qed.

(** So no file is written. *)
Theorem C105_unwritten : forall K T d opts m diff paths vs o, first_is_dash paths = false ->
  crun (fix_ K T d opts m true diff paths) vs o -> all_no vs -> saved vs = [].
Proof.
  intros K T d opts m diff paths vs o Fd R A. destruct (C105_refuse _ _ _ _ _ _ _ _ _ Fd R A) as (o' & R2 & _).
  apply C35_readonly in R2. rewrite <- quiet_saved. apply R2.
Qed.

(** The same with all of the implementation below: configuration, collecting the rules (with the state of the interpreter), running them, directives. *)
Theorem C105_whole_refuse : forall K Y d opts m diff paths z vs o, first_is_dash paths = false ->
  crun (whole_fix K Y d opts m true diff paths z) vs o -> all_no vs ->
  exists o', crun (whole_lint K Y d opts m true paths z) (quiet vs) o' /\ ends_like o o'.
Proof.
  intros K Y d opts m diff paths z vs o Fd R A.
  assert (Fd2 : first_is_dash (or_cwd K paths) = false) by (destruct paths; [reflexivity|exact Fd]).
  unfold whole_fix in R. cbv zeta in R. rewrite Fd2 in R. cbn [andb negb] in R. unfold whole_lint, lint_with.
  inversion R as [| | | | |? F vs1 ? R1| | |]; subst; [stopped|]. apply all_no_cons in A. destruct A as [_ A].
  assert (X : exists o', crun (match generate_config (y_env Y) F (k_cwd K) None (Some opts) with Err e => CFail e | Ok cfg =>
    lint_loop K true cfg (whole_paths Y d (or_cwd K paths) false (Some opts) m z) no_tally end) (quiet vs1) o' /\ ends_like o o').
  { destruct (generate_config (y_env Y) F (k_cwd K) None (Some opts)) as [cfg|e];
      [exact (refuse_loop K diff cfg (whole_paths Y d (or_cwd K paths) false (Some opts) m z) _ _ level_start _ _ R1 A)|].
    inversion R1; subst; [stopped|]. exists (Raised e). split; [constructor|reflexivity]. }
  destruct X as (o' & R2 & E). exists o'. split; [now constructor|exact E].
Qed.

Theorem C105_whole_answer : forall K Y d opts m diff paths z vs o', first_is_dash paths = false ->
  crun (whole_lint K Y d opts m true paths z) vs o' ->
  exists ws o, crun (whole_fix K Y d opts m true diff paths z) ws o /\ all_no ws /\ quiet ws = vs /\ ends_like o o'.
Proof.
  intros K Y d opts m diff paths z vs o' Fd R.
  assert (Fd2 : first_is_dash (or_cwd K paths) = false) by (destruct paths; [reflexivity|exact Fd]).
  unfold whole_lint, lint_with in R. unfold whole_fix. cbv zeta. rewrite Fd2. cbn [andb negb].
  inversion R as [| | | | |? F vs1 ? R1| | |]; subst; [stopped2|].
  assert (X : exists ws o, crun (match generate_config (y_env Y) F (k_cwd K) None (Some opts) with Err e => CFail e | Ok cfg =>
    fix_loop K true diff false cfg (whole_paths Y d (or_cwd K paths) false (Some opts) m z) no_tally end) ws o /\ all_no ws /\ quiet ws = vs1 /\ ends_like o o').
  { destruct (generate_config (y_env Y) F (k_cwd K) None (Some opts)) as [cfg|e];
      [exact (answer_loop K diff cfg (whole_paths Y d (or_cwd K paths) false (Some opts) m z) _ _ level_start _ _ R1)|].
    inversion R1; subst; [stopped2|]. exists [], (Raised e). split; [constructor|split; [intros a []|split; reflexivity]]. }
  destruct X as (ws & o & R2 & A & Q & E). exists (VLook F :: ws), o. split; [now constructor|]. split; [now apply all_no_cons|]. split; [exact (f_equal (cons _) Q)|exact E].
Qed.

(** Two files with two fixable violations each: four times no. *)
Example C105_example :
  let '(vs, o, F') := live (ex_both true false) ex_F2 [No; No; No; No] in
  let '(ws, o', _) := live (lint ex_cli ex_fix_tool [u "d"; u "stdin"] ex_opts false true (map PathArg [ex_file; ex_other])) ex_F2 [] in
  lines vs = lines ws /\ List.length (lines vs) = 11 /\ asked vs = [Some No; Some No; Some No; Some No] /\ saved vs = [] /\ o = Returned 0%N /\ o' = Returned 1%N.
Proof. vm_compute. repeat split. Qed.
