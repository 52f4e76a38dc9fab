(** * C29, C34: which file a result is about *)
From Coq Require Import String List NArith Bool Arith Lia.
From Verif Require Import Base Ftypes Config Suppress Cst Engine EngineProps Api ApiSpec ApiFacts ApiProps.
Import ListNotations.

(** What a result about a file may be: a violation, an error or neither. *)
Definition about (p : path) (x : result) : Prop := x_path x = p /\ (x_violation x = None \/ x_error x = None).

Fixpoint labelled {R} (p : path) (g : prog R) : Prop :=
  match g with
  | Ret _ | Raise _ => True
  | Give x k => about p x /\ forall a, labelled p (k a)
  | Look k => forall F, labelled p (k F)
  | Write _ _ k => forall o, labelled p (k o)
  | Stdin k => forall o, labelled p (k o)
  | Stdout _ k => forall o, labelled p (k o)
  | Call _ k => forall o, labelled p (k o)
  end.

Lemma labelled_run : forall R p (g : prog R) es o, run g es o -> labelled p g -> Forall (about p) (results es).
Proof.
  intros R p g es o H. induction H; intro L; cbn [labelled] in L; unfold results; cbn [given map]; auto.
  destruct L as [A L]. constructor; [exact A|]. apply IHrun, L.
Qed.

Lemma labelled_pbind : forall A B p (g : prog A) (f : A -> prog B), labelled p g -> (forall r, labelled p (f r)) -> labelled p (pbind g f).
Proof. intros A B p g f. induction g; cbn [pbind labelled]; intuition. Qed.

Lemma labelled_catch : forall A p (g : prog A) h, labelled p g -> (forall e, labelled p (h e)) -> labelled p (catch g h).
Proof. intros A p g h. induction g; cbn [catch labelled]; intuition. Qed.

Lemma labelled_lift : forall A B p (r : res A) (f : A -> prog B), (forall a, labelled p (f a)) -> labelled p (lift r f).
Proof. intros A B p [a|e] f H; cbn [lift labelled]; auto. Qed.

Lemma labelled_loop : forall p autofix r k, (forall c l, labelled p (k c l)) -> forall evs clean pending,
  labelled p (lint_loop p autofix evs r clean pending k).
Proof.
  intros p autofix r k H. induction evs as [|[v|m] evs IH]; intros clean pending; cbn [lint_loop labelled].
  - apply labelled_lift. auto.
  - split; [split; cbn; auto|auto].
  - intro o. apply labelled_lift. auto.
Qed.

Lemma labelled_fixes : forall T p q cfg md pending, labelled q (finish_fixes T p cfg md pending).
Proof.
  intros T p q cfg md pending. unfold finish_fixes. destruct pending; [exact I|]. apply labelled_lift. intros [m|]; [|exact I].
  cbn [labelled]. intro F. apply labelled_lift. intro c. exact I.
Qed.

Lemma labelled_bytes : forall T p content cfg autofix hook, labelled p (fixit_bytes T p content cfg autofix hook).
Proof.
  intros T p content cfg autofix hook. unfold fixit_bytes. apply labelled_catch.
  - cbn [labelled]. intro F. apply labelled_lift. intros [|k ks]; [cbn; split; [split; auto|auto]|].
    apply labelled_lift. intro md. destruct (collect_violations _ _ _ _) as [evs r]. apply labelled_loop.
    intros [|] l; cbn [labelled]; [split; [split; cbn; auto|]; intro|]; apply labelled_fixes.
  - intro e. cbn. split; [split; auto|auto].
Qed.

Lemma labelled_file : forall T p autofix opts hook, labelled p (fixit_file T p autofix opts hook).
Proof.
  intros T p autofix opts hook. unfold fixit_file. apply labelled_catch.
  - cbn [labelled]. intro F. destruct (f_file F p) as [content|]; [|exact I]. cbn [labelled]. intro F1. apply labelled_lift. intro cfg.
    apply labelled_pbind; [apply labelled_bytes|]. intros [[|c l]|]; try exact I. destruct (negb _); [|exact I]. cbn [labelled]. intro o.
    apply labelled_lift. intro. exact I.
  - intro e. cbn. split; [split; auto|auto].
Qed.

Lemma labelled_stdin : forall T p autofix opts hook, labelled p (fixit_stdin T p autofix opts hook).
Proof.
  intros T p autofix opts hook. unfold fixit_stdin. apply labelled_catch.
  - cbn [labelled]. intro i. apply labelled_lift. intro content. cbn [labelled]. intro F. apply labelled_lift. intro cfg.
    apply labelled_pbind; [apply labelled_bytes|]. intro r. destruct autofix; [|exact I]. cbn [labelled]. intro o. apply labelled_lift. intro. exact I.
  - intro e. cbn. split; [split; auto|auto].
Qed.

(** Every result of linting a file or standard input, in every execution, is about that file, and is a violation, an error or neither. *)
Theorem C29_about : forall T p content cfg autofix opts hook,
  (forall es o, run (fixit_bytes T p content cfg autofix hook) es o -> Forall (about p) (results es)) /\
  (forall es o, run (fixit_file T p autofix opts hook) es o -> Forall (about p) (results es)) /\
  (forall es o, run (fixit_stdin T p autofix opts hook) es o -> Forall (about p) (results es)).
Proof.
  intros. split; [|split]; intros es o H; (eapply labelled_run; [exact H|]);
    [apply labelled_bytes|apply labelled_file|apply labelled_stdin].
Qed.

Lemma bytes_some : forall T p content cfg autofix hook es r,
  run (fixit_bytes T p content cfg autofix hook) es (Returned r) -> results es <> [].
Proof.
  intros T p content cfg autofix hook es r R. apply bytes_run in R. destruct R as [_ [[_ X]|(F2 & es' & _ & R)]]; [discriminate|].
  destruct (lint_of T F2 p content cfg) as [vs err]. cbv zeta in R. destruct R as (err' & -> & _). unfold report_of.
  destruct err', vs; cbn; discriminate.
Qed.

Opaque fixit_bytes.
(** A file is never passed over in silence, and linting it never raises. *)
Theorem C29_some : forall T p autofix opts hook es o,
  run (fixit_file T p autofix opts hook) es o ->
  match o with Returned _ => results es <> [] | Raised _ => False | Stopped => True end.
Proof.
  intros T p autofix opts hook es o H. unfold fixit_file in H. apply run_catch in H.
  destruct H as [[-> _]|[([] & -> & H)|(es1 & es2 & e & -> & _ & H)]]; auto.
  - inversion H as [| | | |? F' es' ? H'| | | |]; subst. destruct (f_file F' p) as [content|]; [|inversion H'].
    inversion H' as [| | | |? F1' es1 ? H1| | | |]; subst. apply run_lift in H1.
    destruct (generate_config (t_env T) F1' p None opts) as [cfg|e]; [|destruct H1 as [_ [X|X]]; discriminate].
    apply run_pbind in H1. destruct H1 as [[X _]|[(e & X & _)|(es2 & es3 & r & -> & H2 & H3)]]; try discriminate.
    apply bytes_some in H2. unfold results in *. cbn [given]. rewrite given_app, map_app. intro X. apply app_eq_nil in X. tauto.
  - inversion H as [| | |? ? a es3 ? H3| | | | |]; subst; [exact I|]. inversion H3; subst; [exact I|].
    rewrite results_app. intro X. apply app_eq_nil in X. destruct X as [_ X]. discriminate.
Qed.

(** After an error result nothing follows, also when it is the writing of the file that fails. (Standard input: the text is still
    printed after an error, and that can fail too.) *)
Theorem C29_error_last : forall T p autofix opts hook es o before x after,
  run (fixit_file T p autofix opts hook) es o -> results es = before ++ x :: after -> x_error x <> None -> after = [].
Proof.
  intros T p autofix opts hook es o before x after H E Ex.
  assert (Pf : forall (xs : list result) vs err, (exists rest, report_of p vs err = xs ++ rest) -> forall b y a, xs = b ++ y :: a -> x_error y <> None -> a = []).
  { clear. intros xs vs err (rest & E) b y a -> Ey. destruct a as [|z a]; auto. exfalso. unfold report_of in E.
    assert (I : In y (map (fun v => Result p (Some v) None) vs)).
    { clear - E. revert b E. induction vs as [|v vs IH]; intros b E.
      - destruct err; cbn [map app] in E; destruct b as [|b0 b]; cbn [app] in E; try discriminate; injection E as _ E; destruct b; discriminate.
      - cbn [map app] in E. destruct b as [|b0 b]; cbn [app] in E; injection E as E0 E; [left; auto|right].
        assert (E' : (map (fun v => Result p (Some v) None) vs ++ match err with Some e => [Result p None (Some e)] | None => [] end) = (b ++ y :: z :: a) ++ rest) by (rewrite <- E; destruct err; auto).
        destruct vs as [|v1 vs].
        + destruct err; cbn [map app] in E'; destruct b as [|b1 b]; cbn [app] in E'; try discriminate; injection E' as _ E'; destruct b; discriminate.
        + apply (IH b). destruct err; exact E'. }
    apply in_map_iff in I. destruct I as (v & <- & _). now apply Ey. }
  assert (Br : forall content cfg es1 o1, run (fixit_bytes T p content cfg autofix hook) es1 o1 -> exists vs err rest, report_of p vs err = results es1 ++ rest).
  { intros content cfg es1 o1 R. apply bytes_run in R. destruct R as [_ [[-> _]|(F & es' & -> & R)]]; [exists [], None, (report_of p [] None); reflexivity|].
    destruct (lint_of T F p content cfg) as [vs err]. destruct o1 as [r|e|]; [|contradiction|].
    - cbv zeta in R. destruct R as (err' & -> & _). exists vs, err', []. now rewrite app_nil_r.
    - destruct R as (err' & rest & R). exists vs, err', rest. now symmetry. }
  assert (Nw : forall content cfg es1 r, run (fixit_bytes T p content cfg autofix hook) es1 (Returned (Some r)) -> forall y, In y (results es1) -> x_error y = None).
  { intros content cfg es1 r R. apply C30_content in R. cbv zeta in R. tauto. }
  unfold fixit_file in H. apply run_catch in H.
  set (B := Look _) in H.
  assert (Bo : forall es1 o1, run B es1 o1 -> (forall b y a, results es1 = b ++ y :: a -> x_error y <> None -> a = []) /\ (forall e, o1 = Raised e -> forall y, In y (results es1) -> x_error y = None)).
  { clear - Pf Br Nw. subst B. intros es1 o1 H. inversion H as [| | | |? F es' ? H'| | | |]; subst; [split; [intros [|] ? ? X; discriminate|discriminate]|].
    change (results (ELook F :: es')) with (results es'). destruct (f_file F p) as [content|]; [|inversion H'; subst; (split; [intros [|] ? ? X; discriminate|intros ? _ ? []])].
    inversion H' as [| | | |? F1 es2 ? H1| | | |]; subst; [split; [intros [|] ? ? X; discriminate|discriminate]|]. change (results (ELook F1 :: es2)) with (results es2).
    apply run_lift in H1. destruct (generate_config (t_env T) F1 p None opts) as [cfg|e]; [|destruct H1 as [-> _]; split; [intros [|] ? ? X; discriminate|intros ? _ ? []]].
    apply run_pbind in H1. destruct H1 as [[-> R]|[(e & -> & R)|(es3 & es4 & r & -> & R & H4)]].
    - destruct (Br _ _ _ _ R) as (vs & err & rest & E). split; [|discriminate]. eapply Pf. eauto.
    - exfalso. apply C29_never_raises in R. exact R.
    - destruct (Br _ _ _ _ R) as (vs & err & rest & E).
      assert (E4 : results es4 = []).
      { destruct r as [[|c r]|]; try (inversion H4; subst; reflexivity). destruct (negb (str_eqb (c :: r) content)); [|inversion H4; subst; reflexivity].
        inversion H4 as [| | | | |? ? ? w es5 ? H5| | |]; subst; [reflexivity|]. apply run_lift in H5. destruct w; [inversion H5; subst; reflexivity|]. destruct H5 as [-> _]. reflexivity. }
      rewrite results_app, E4, app_nil_r. split; [eapply Pf; eauto|]. intros e ->. destruct r as [r|]; [eapply Nw; eauto|inversion H4]. }
  destruct H as [[-> H]|[(r & -> & H)|(es1 & es2 & e & -> & H1 & H2)]].
  - eapply (proj1 (Bo _ _ H)); eauto.
  - eapply (proj1 (Bo _ _ H)); eauto.
  - assert (E2 : results es2 = [] \/ exists y, results es2 = [y]).
    { inversion H2 as [| | |? ? a es3 ? H3| | | | |]; subst; [auto|]. inversion H3; subst; right; eexists; reflexivity. }
    rewrite results_app in E. destruct E2 as [E2|(y & E2)]; rewrite E2 in E.
    + rewrite app_nil_r in E. eapply (proj1 (Bo _ _ H1)); eauto.
    + destruct after as [|z after]; auto. exfalso. assert (I : In x (results es1)).
      { clear - E. revert before E. induction (results es1) as [|r rs IH]; intros b E; destruct b as [|b0 b]; cbn [app] in E; injection E as E0 E.
        - discriminate.
        - destruct b; discriminate.
        - left. auto.
        - right. eapply IH; eauto. }
      apply Ex. eapply (proj2 (Bo _ _ H1)); eauto.
Qed.

(** With autofix, once standard input and the configuration are read, something is printed whatever happens to linting. *)
Theorem C32_always : forall T p opts hook content F es cfg,
  run (fixit_stdin T p true opts hook) (EIn (Ok content) :: ELook F :: es) (Returned tt) -> generate_config (t_env T) F p None opts = Ok cfg ->
  exists c, printed es = [c].
Proof.
  intros T p opts hook content F es cfg H Eg. unfold fixit_stdin in H. apply run_catch in H.
  set (B := Stdin _) in H.
  assert (Bo : forall es1 o1, run B (EIn (Ok content) :: ELook F :: es1) o1 -> o1 <> Stopped -> exists c, printed es1 = [c]).
  { clear - Eg. subst B. intros es1 o1 H So. inversion H as [| | | | | |? i es' ? H'| |]; subst. cbn [lift] in H'. inversion H' as [| | | |? F1 es2 ? H1| | | |]; subst.
    apply run_lift in H1. rewrite Eg in H1. apply run_pbind in H1. destruct H1 as [[-> _]|[(e & -> & R)|(es3 & es4 & r & -> & R & H4)]]; [contradiction| |].
    - exfalso. apply C29_never_raises in R. exact R.
    - apply bytes_run in R. destruct R as [Q _]. cbn [andb] in H4. inversion H4 as [| | | | | | |? ? w es5 ? H5|]; subst; [contradiction|]. apply run_lift in H5.
      assert (es5 = []) as -> by (destruct w; [inversion H5; auto|now destruct H5]). rewrite printed_app, (quiet_printed _ Q). cbn. eauto. }
  destruct H as [[X _]|[([] & _ & H)|(es1 & es2 & e & E & H1 & H2)]]; [discriminate| |].
  - eapply Bo; eauto. discriminate.
  - destruct es1 as [|e0 es1]; [inversion H1|]. cbn [app] in E. injection E as <- E. destruct es1 as [|e1 es1].
    + exfalso. subst B. inversion H1 as [| | | | | |? i es' ? H'| |]; subst. cbn [lift] in H'. inversion H'.
    + cbn [app] in E. injection E as <- ->. destruct (Bo _ _ H1) as (c & Ec); [discriminate|]. exists c. rewrite printed_app, Ec.
      inversion H2 as [| | |? ? a es3 ? H3| | | | |]; subst. inversion H3; subst. reflexivity.
Qed.

(** When a file is gone through without an error: it is written iff fixes were accepted and applying and formatting them gives
    something else than before that is not empty, and what is written is that. *)
Theorem C31_done : forall T p autofix opts hook es,
  run (fixit_file T p autofix opts hook) es (Returned tt) -> (forall x, In x (results es) -> x_error x = None) ->
  exists F content F1 cfg F2 rest,
    es = ELook F :: ELook F1 :: ELook F2 :: rest /\ f_file F p = Some content /\ generate_config (t_env T) F1 p None opts = Ok cfg /\
    (accepted autofix (given es) = [] /\ written es = [] \/
     accepted autofix (given es) <> [] /\ exists F3 c,
       In (ELook F3) rest /\ fixed_content T F3 p content cfg (accepted autofix (given es)) = Ok c /\
       ((c = content \/ c = []) /\ written es = [] \/
        c <> content /\ c <> [] /\ written es = [(p, c)] /\ In (EWrite p c (Ok tt)) es)).
Proof.
  intros T p autofix opts hook es H Ne. unfold fixit_file in H. apply run_catch in H.
  destruct H as [[X _]|[([] & _ & H)|(es1 & es2 & e & -> & _ & H2)]]; [discriminate| |].
  2: { exfalso. inversion H2 as [| | |? ? a es3 ? H3| | | | |]; subst. inversion H3; subst.
       enough (x_error (error_result p e) = None) by discriminate. apply Ne. rewrite results_app. apply in_or_app. right. simpl. auto. }
  inversion H as [| | | |? F es' ? H'| | | |]; subst. destruct (f_file F p) as [content|] eqn:Ef; [|inversion H'].
  inversion H' as [| | | |? F1 es1 ? H1| | | |]; subst. apply run_lift in H1.
  destruct (generate_config (t_env T) F1 p None opts) as [cfg|e] eqn:Eg; [|destruct H1 as [_ [X|X]]; discriminate].
  apply run_pbind in H1. destruct H1 as [[X _]|[(e & X & _)|(es2 & es3 & r & -> & H2 & H3)]]; try discriminate.
  pose proof (bytes_run _ _ _ _ _ _ _ _ H2) as [Q B]. destruct B as [[_ X]|(F2 & es' & E & B)]; [discriminate|].
  exists F, content, F1, cfg, F2, (es' ++ es3). split; [now rewrite E|]. split; [auto|]. split; [auto|].
  cbn [given written]. rewrite given_app, written_app, accepted_app, (quiet_written _ Q).
  destruct (lint_of T F2 p content cfg) as [vs err]. cbv zeta in B. destruct B as (err' & Rr & B).
  destruct err' as [e|].
  { exfalso. enough (x_error (Result p None (Some e)) = None) by discriminate. apply Ne.
    change (results (ELook F :: ELook F1 :: es2 ++ es3)) with (results (es2 ++ es3)). rewrite results_app. apply in_or_app. left. rewrite Rr.
    unfold report_of. apply in_or_app. right. simpl. auto. }
  destruct B as [_ B]. destruct (accepted autofix (given es2)) as [|v acc] eqn:Ea.
  - subst r. inversion H3; subst. left. auto.
  - destruct B as (F3 & c & I3 & Fx & ->).
    assert (A3 : accepted autofix (given es3) = [] /\ ((c = content \/ c = []) /\ written es3 = [] \/ c <> content /\ c <> [] /\ written es3 = [(p, c)] /\ In (EWrite p c (Ok tt)) es3)).
    { destruct c as [|x c]; [inversion H3; subst; auto|]. destruct (str_eqb (x :: c) content) eqn:Es; cbn [negb] in H3.
      - apply str_eqb_eq in Es. inversion H3; subst; auto.
      - apply str_eqb_neq in Es. inversion H3 as [| | | | |? ? ? w es4 ? H4| | |]; subst. apply run_lift in H4. destruct w as [[]|e]; [|destruct H4 as [_ [X|X]]; discriminate].
        inversion H4; subst. split; auto. right. repeat split; auto; [discriminate|simpl; auto]. }
    destruct A3 as (-> & A3). rewrite app_nil_r. right. split; [discriminate|]. exists F3, c.
    split; [apply in_or_app; auto|]. split; auto. cbn [app]. destruct A3 as [A3|(A & B & C & D)]; auto.
    right. repeat split; auto. simpl. right. right. apply in_or_app. auto.
Qed.
Transparent fixit_bytes.

(** The results for several files, one process: those of each file together, at least one, in the order of the files. *)
Theorem C34_grouped : forall T ps autofix opts hook es,
  run (serial T ps autofix opts hook) es (Returned tt) ->
  exists groups, results es = concat groups /\ Forall2 (fun p xs => xs <> [] /\ Forall (about p) xs) ps groups.
Proof.
  intros T ps autofix opts hook es H. apply C34_serial in H. destruct H as (ess & -> & H). exists (map results ess). split.
  - clear H. induction ess as [|e ess IH]; [reflexivity|]. cbn [concat map]. now rewrite results_app, IH.
  - induction H as [|p e ps ess H _ IH]; cbn [map]; constructor; auto. split; [exact (C29_some _ _ _ _ _ _ _ H)|].
    eapply labelled_run; [exact H|]. apply labelled_file.
Qed.

(** Abandoned or not, a file before the last one with results has been gone through. *)
Theorem C34_order : forall T ps autofix opts hook es o,
  run (serial T ps autofix opts hook) es o ->
  exists groups rest, results es = concat groups ++ rest /\
    exists done todo, ps = done ++ todo /\ Forall2 (fun p xs => xs <> [] /\ Forall (about p) xs) done groups /\
      match todo with [] => rest = [] | p :: _ => Forall (about p) rest end.
Proof.
  intros T ps autofix opts hook. induction ps as [|p ps IH]; intros es o H; cbn [serial] in H.
  - exists [], []. split; [inversion H; reflexivity|]. exists [], []. auto.
  - apply run_pbind in H. destruct H as [[-> H]|[(e & -> & H)|(es1 & es2 & [] & -> & H1 & H2)]].
    + exists [], (results es). split; auto. exists [], (p :: ps). split; auto. split; auto. eapply labelled_run; [exact H|]. apply labelled_file.
    + destruct (C29_some _ _ _ _ _ _ _ H).
    + destruct (IH _ _ H2) as (groups & rest & E & done & todo & -> & A & B). exists (results es1 :: groups), rest.
      split; [rewrite results_app, E; cbn [concat]; now rewrite app_assoc|]. exists (p :: done), todo. split; auto. split; auto.
      constructor; auto. split; [exact (C29_some _ _ _ _ _ _ _ H1)|]. eapply labelled_run; [exact H1|]. apply labelled_file.
Qed.

(** A file with three violations, then one that cannot be read. *)
Example C34_grouped_example :
  let F := ex_fs (code ex_module) in
  let other := [u "d"; u "b.py"] in
  let v i := nth i (yields (fst (collect_violations (fun a b => b) ex_module (Ok (ex_rules, [])) false))) v_none in
  let es := [ELook F; ELook F; ELook F; EGive (Result ex_file (Some (v 0)) None) None;
             EGive (Result ex_file (Some (v 1)) None) None; EGive (Result ex_file (Some (v 2)) None) None;
             ELook F; EGive (Result other None (Some OSError)) None] in
  run (serial (ex_tool false ex_rules) [ex_file; other] false None false) es (Returned tt) /\
  map (@x_path) (results es) = [ex_file; ex_file; ex_file; other].
Proof. intros F other v es. split; [|vm_compute; reflexivity]. unfold es, F, v. vm_compute. repeat (constructor; vm_compute). Qed.
