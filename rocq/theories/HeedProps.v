(** * C106: which answers matter to the library *)
From Coq Require Import String List NArith ZArith Bool Arith Lia.
From Verif Require Import Base PyStr Ftypes Paths Config Suppress Cst Engine EngineProps Batch Api ApiSpec ApiFacts ApiProps ApiPaths System SystemSpec SystemSame Session Commands.
Import ListNotations.

(** ** Specification *)

(** The same history, up to the answers that a caller sends for the results: these are related by [R]. *)
Inductive same_but (R : option bool -> option bool -> Prop) : list ev -> list ev -> Prop :=
| sb_nil : same_but R [] []
| sb_give : forall x a a' es es', R a a' -> same_but R es es' -> same_but R (EGive x a :: es) (EGive x a' :: es')
| sb_other : forall e es es', match e with EGive _ _ => False | _ => True end -> same_but R es es' -> same_but R (e :: es) (e :: es').

Definition any_answers (a a' : option bool) : Prop := True.

(** Both say yes or neither does. (No answer and the answer False are not yes.) *)
Definition as_much_a_yes (a a' : option bool) : Prop := a = Some true <-> a' = Some true.

(** The possible histories of [p] are closed under changing answers so. *)
Definition heeds_only {A} (R : option bool -> option bool -> Prop) (p : prog A) : Prop :=
  forall es o es', run p es o -> same_but R es es' -> run p es' o.

(** ** Proofs *)

Section Heed.
  Context (R : option bool -> option bool -> Prop).

  Fixpoint deaf {A} (p : prog A) : Prop :=
    match p with
    | Ret _ | Raise _ => True
    | Give x k => (forall a a', R a a' -> k a = k a') /\ forall a, deaf (k a)
    | Look k => forall F, deaf (k F)
    | Write _ _ k => forall o, deaf (k o)
    | Stdin k => forall i, deaf (k i)
    | Stdout _ k => forall o, deaf (k o)
    | Call _ k => forall o, deaf (k o)
    end.

  Lemma deaf_heeds : forall A (p : prog A), deaf p -> heeds_only R p.
  Proof.
    intros A p D es o es' H. revert D es'. induction H as [p|r|e|x k a es o H IH|k F es o H IH|p c k w es o H IH|k i es o H IH|c k w es o H IH|m k w es o H IH]; intros D es' Q; cbn [deaf] in D.
    - inversion Q; subst. constructor.
    - inversion Q; subst. constructor.
    - inversion Q; subst. constructor.
    - inversion Q as [|? ? a' ? es2 Ra Q2|? ? ? X]; subst; [|contradiction]. constructor. destruct D as [D1 D2]. rewrite <- (D1 a a' Ra). apply IH; auto.
    - inversion Q as [| |? ? es2 X Q2]; subst. constructor. apply IH; auto.
    - inversion Q as [| |? ? es2 X Q2]; subst. constructor. apply IH; auto.
    - inversion Q as [| |? ? es2 X Q2]; subst. constructor. apply IH; auto.
    - inversion Q as [| |? ? es2 X Q2]; subst. constructor. apply IH; auto.
    - inversion Q as [| |? ? es2 X Q2]; subst. constructor. apply IH; auto.
  Qed.

  Lemma deaf_catch : forall A (p : prog A) h, deaf p -> (forall e, deaf (h e)) -> deaf (catch p h).
  Proof.
    intros A p h D H. induction p as [r|e|x k IH|k IH|q c k IH|k IH|c k IH|m k IH]; cbn [catch deaf] in *; auto.
    destruct D as [D1 D2]. split; [|auto]. intros a a' Ra. now rewrite (D1 a a' Ra).
  Qed.
  Lemma deaf_pbind : forall A B (p : prog A) (f : A -> prog B), deaf p -> (forall r, deaf (f r)) -> deaf (pbind p f).
  Proof.
    intros A B p f D H. induction p as [r|e|x k IH|k IH|q c k IH|k IH|c k IH|m k IH]; cbn [pbind deaf] in *; auto.
    destruct D as [D1 D2]. split; [|auto]. intros a a' Ra. now rewrite (D1 a a' Ra).
  Qed.
  Lemma deaf_lift : forall A B (r : res A) (f : A -> prog B), (forall a, deaf (f a)) -> deaf (lift r f).
  Proof. intros A B [a|e] f H; cbn [lift]; [apply H|exact Logic.I]. Qed.
  Lemma deaf_track : forall A (p : prog A) seen, deaf p -> deaf (track p seen).
  Proof.
    intros A p. induction p as [r|e|x k IH|k IH|q c k IH|k IH|c k IH|m k IH]; intros seen D; cbn [track deaf] in *; auto.
    destruct D as [D1 D2]. split; [|auto]. intros a a' Ra. now rewrite (D1 a a' Ra).
  Qed.

  Context (autofix : bool) (Same : forall a a', R a a' -> truthy_answer a || autofix = truthy_answer a' || autofix).

  Lemma deaf_loop : forall p evs r clean pending k, (forall c vs, deaf (k c vs)) -> deaf (Api.lint_loop p autofix evs r clean pending k).
  Proof.
    intros p evs r. induction evs as [|[v|m] evs IH]; intros clean pending k D; cbn [Api.lint_loop].
    - apply deaf_lift. auto.
    - cbn [deaf]. split; [|auto]. intros a a' Ra. now rewrite (Same a a' Ra).
    - cbn [deaf]. intro o. apply deaf_lift. auto.
  Qed.

  Lemma deaf_finish : forall T p cfg md pending, deaf (finish_fixes T p cfg md pending).
  Proof.
    intros T p cfg md pending. unfold finish_fixes. destruct pending; [exact Logic.I|]. apply deaf_lift. intros [m|]; [|exact Logic.I]. intro F. apply deaf_lift. intro c. exact Logic.I.
  Qed.

  Lemma deaf_bytes : forall T p content cfg hook, deaf (fixit_bytes T p content cfg autofix hook).
  Proof.
    intros T p content cfg hook. unfold fixit_bytes. apply deaf_catch.
    - intro F. apply deaf_lift. intros [|k ks]; [split; [reflexivity|intro a; exact Logic.I]|]. apply deaf_lift. intro md.
      destruct (collect_violations (t_udiff T p) md (t_visit T F cfg md (k :: ks)) hook) as [evs r]. apply deaf_loop. intros [|] vs; [split; [reflexivity|intro a; apply deaf_finish]|apply deaf_finish].
    - intro e. split; [reflexivity|intro a; exact Logic.I].
  Qed.

  Lemma deaf_file : forall T p opts hook, deaf (fixit_file T p autofix opts hook).
  Proof.
    intros T p opts hook. unfold fixit_file. apply deaf_catch.
    - intro F. destruct (f_file F p) as [content|]; [|exact Logic.I]. intro G. apply deaf_lift. intro cfg. apply deaf_pbind; [apply deaf_bytes|]. intros [[|c0 c]|]; try exact Logic.I.
      destruct (negb (str_eqb (c0 :: c) content)); [|exact Logic.I]. intro o. apply deaf_lift. intro x. exact Logic.I.
    - intro e. split; [reflexivity|intro a; exact Logic.I].
  Qed.

  Lemma deaf_stdin : forall T p opts hook, deaf (fixit_stdin T p autofix opts hook).
  Proof.
    intros T p opts hook. unfold fixit_stdin. apply deaf_catch.
    - intro i. apply deaf_lift. intro content. intro G. apply deaf_lift. intro cfg. apply deaf_pbind; [apply deaf_bytes|]. intro updated. destruct autofix; [|exact Logic.I].
      intro o. apply deaf_lift. intro x. exact Logic.I.
    - intro e. split; [reflexivity|intro a; exact Logic.I].
  Qed.

  Lemma deaf_session : forall Y opts hook ps z, deaf (in_session Y ps autofix opts hook z).
  Proof.
    intros Y opts hook ps. induction ps as [|p ps IH]; intro z; cbn [in_session]; [exact Logic.I|]. apply deaf_pbind; [apply deaf_track, deaf_file|auto].
  Qed.

  Lemma deaf_serial : forall T opts hook ps, deaf (serial T ps autofix opts hook).
  Proof.
    intros T opts hook ps. induction ps as [|p ps IH]; cbn [serial]; [exact Logic.I|]. apply deaf_pbind; [apply deaf_file|auto].
  Qed.

  Lemma deaf_paths : forall T d paths opts hook, deaf (fixit_paths_serial T d paths autofix opts hook).
  Proof.
    intros T d paths opts hook F. apply deaf_lift. intros [[p|ps|ps]|]; [apply deaf_stdin|apply deaf_serial|apply deaf_serial|exact Logic.I].
  Qed.

  Lemma deaf_whole : forall Y d paths opts hook z, deaf (whole_paths Y d paths autofix opts hook z).
  Proof.
    intros Y d paths opts hook z F. apply deaf_lift. intros [[p|ps|ps]|]; [apply deaf_stdin| | |exact Logic.I]; (apply deaf_pbind; [apply deaf_session|intro r; exact Logic.I]).
  Qed.
End Heed.

Lemma automatic : forall a a', any_answers a a' -> truthy_answer a || true = truthy_answer a' || true.
Proof. intros a a' _. now rewrite !orb_true_r. Qed.
Lemma by_hand : forall a a', as_much_a_yes a a' -> truthy_answer a || false = truthy_answer a' || false.
Proof.
  unfold as_much_a_yes. intros [[|]|] [[|]|] [H1 H2]; try reflexivity; try (specialize (H1 eq_refl); discriminate); specialize (H2 eq_refl); discriminate.
Qed.

(** ** C106 *)

(** With autofix, what callers answer has no effect: whatever they answer instead, the results, the files read and written and the outcome can be the same -
    for a text, for a file, for standard input and for any paths. *)
Theorem C106_automatic : forall T opts hook,
  (forall p content cfg, heeds_only any_answers (fixit_bytes T p content cfg true hook)) /\
  (forall p, heeds_only any_answers (fixit_file T p true opts hook)) /\
  (forall p, heeds_only any_answers (fixit_stdin T p true opts hook)) /\
  (forall d paths, heeds_only any_answers (fixit_paths_serial T d paths true opts hook)).
Proof.
  intros T opts hook. repeat split; intros; apply deaf_heeds;
    [apply deaf_bytes|apply deaf_file|apply deaf_stdin|apply deaf_paths]; exact automatic.
Qed.

(** Without, only yes counts: not to answer and to answer False is the same. *)
Theorem C106_by_hand : forall T opts hook,
  (forall p content cfg, heeds_only as_much_a_yes (fixit_bytes T p content cfg false hook)) /\
  (forall p, heeds_only as_much_a_yes (fixit_file T p false opts hook)) /\
  (forall p, heeds_only as_much_a_yes (fixit_stdin T p false opts hook)) /\
  (forall d paths, heeds_only as_much_a_yes (fixit_paths_serial T d paths false opts hook)).
Proof.
  intros T opts hook. repeat split; intros; apply deaf_heeds;
    [apply deaf_bytes|apply deaf_file|apply deaf_stdin|apply deaf_paths]; exact by_hand.
Qed.

(** The same with all of the implementation below, and the state of the interpreter. *)
Theorem C106_whole : forall Y d paths opts hook z,
  heeds_only any_answers (whole_paths Y d paths true opts hook z) /\ heeds_only as_much_a_yes (whole_paths Y d paths false opts hook z).
Proof. intros Y d paths opts hook z. split; apply deaf_heeds; apply deaf_whole; [exact automatic|exact by_hand]. Qed.

(** The history of C31_example, told three times: with no answer instead of False and of False instead of none nothing changes; without the yes nothing would have been written. *)
Definition ex_told (a b c : option bool) : list ev :=
  let F := ex_fs (code ex_module) in
  let v i := nth i (yields (fst (collect_violations (fun a b => b) ex_module (Ok (ex_rules, [])) false))) v_none in
  [ELook F; ELook F; ELook F; EGive (Result ex_file (Some (v 0)) None) a;
   EGive (Result ex_file (Some (v 1)) None) b; EGive (Result ex_file (Some (v 2)) None) c;
   ELook F; EWrite ex_file (u "import a" ++ nl ++ u "x = f(99, 2)" ++ nl) (Ok tt)].
Definition ex_run (es : list ev) : Prop := run (fixit_file (ex_tool false ex_rules) ex_file false None false) es (Returned tt).

Example C106_example : ex_run (ex_told (Some false) (Some true) None) /\ ex_run (ex_told None (Some true) (Some false)) /\ ~ ex_run (ex_told None None None).
Proof.
  assert (A : ex_run (ex_told (Some false) (Some true) None)) by apply C31_example. split; [exact A|]. split.
  - apply (proj1 (proj2 (C106_by_hand (ex_tool false ex_rules) None false)) ex_file _ _ _ A).
    repeat first [apply sb_nil|apply sb_give; [split; congruence|]|apply sb_other; [exact Logic.I|]].
  - intro H. apply C31_lint_only in H; [discriminate|]. intros x I. vm_compute in I. intuition congruence.
Qed.
