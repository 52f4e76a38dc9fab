(** * C112: the order of the paths to fix *)
From Coq Require Import String List NArith ZArith Bool Arith Lia Permutation.
From Verif Require Import Base PyStr Ftypes Paths Config Suppress Cst Engine EngineProps Batch Api ApiSpec ApiFacts ApiProps ApiPaths System SystemSpec SessionSpec
  Cli CliSpec CliFacts CliProps InputProps SeveralProps DiskSpec DiskProps SeveralFix SummaryProps FixSummary PathOrder.
Import ListNotations.

(** ** Specification *)

(** On a disk with the files [F] that only the command changes, it succeeds, prints [ls] and then [s], and leaves [F']; no write fails. *)
Definition succeeds (F : fs) (c : cmd N) (ls : list (stream * str)) (s : stream * str) (F' : fs) : Prop :=
  exists vs, crun c vs (Returned 0%N) /\ leads F (effects vs) F' /\ (forall q t w, In (VWrite q t w) vs -> w = Ok tt) /\ lines vs = ls ++ [s].

(** What rules and formatters are given besides the file they work on does not depend on what is in the files [qs]. *)
Definition blind (T : tool) (qs : list path) : Prop := forall F G,
  (forall q, f_isdir G q = f_isdir F q) -> (forall q, f_file G q <> f_file F q -> In q qs) -> (forall q, f_file G q = None <-> f_file F q = None) ->
  (forall cfg, t_collect T G cfg = t_collect T F cfg) /\ (forall cfg md rs, t_visit T G cfg md rs = t_visit T F cfg md rs) /\
  (forall s fmt, t_style T s = Some fmt -> forall b p, fmt G b p = fmt F b p).

Definition same_files (F G : fs) : Prop := (forall q, f_file G q = f_file F q) /\ forall q, f_isdir G q = f_isdir F q.

(** ** Proofs *)

(** [h] does with the files [G] what [g] does with [F]. *)
Inductive same (F G : fs) {R} : prog R -> prog R -> Prop :=
| sm_ret : forall r, same F G (Ret r) (Ret r)
| sm_raise : forall e, same F G (Raise e) (Raise e)
| sm_give : forall x k k', (forall a, same F G (k a) (k' a)) -> same F G (Give x k) (Give x k')
| sm_look : forall k k', same F G (k F) (k' G) -> same F G (Look k) (Look k')
| sm_write : forall p c k k', (forall o, same F G (k o) (k' o)) -> same F G (Write p c k) (Write p c k')
| sm_stdin : forall k k', (forall i, same F G (k i) (k' i)) -> same F G (Stdin k) (Stdin k')
| sm_stdout : forall c k k', (forall o, same F G (k o) (k' o)) -> same F G (Stdout c k) (Stdout c k')
| sm_call : forall m k k', (forall o, same F G (k o) (k' o)) -> same F G (Call m k) (Call m k').

Lemma same_pbind : forall F G A B (p q : prog A) (f g : A -> prog B), same F G p q -> (forall a, same F G (f a) (g a)) -> same F G (pbind p f) (pbind q g).
Proof. intros F G A B p q f g H Hf. induction H; cbn [pbind]; auto; constructor; auto. Qed.
Lemma same_catch : forall F G A (p q : prog A) (h i : exn -> prog A), same F G p q -> (forall e, same F G (h e) (i e)) -> same F G (catch p h) (catch q i).
Proof. intros F G A p q h i H Hf. induction H; cbn [catch]; auto; constructor; auto. Qed.
Lemma same_lift : forall F G A B (r : res A) (f g : A -> prog B), (forall a, same F G (f a) (g a)) -> same F G (lift r f) (lift r g).
Proof. intros F G A B [a|e] f g H; cbn [lift]; auto. constructor. Qed.
Lemma same_loop : forall F G p autofix evs r clean pending k k', (forall c l, same F G (k c l) (k' c l)) ->
  same F G (Api.lint_loop p autofix evs r clean pending k) (Api.lint_loop p autofix evs r clean pending k').
Proof.
  intros F G p autofix evs r clean pending k k' H. revert clean pending. induction evs as [|[v|m] evs IH]; intros clean pending; cbn [Api.lint_loop].
  - apply same_lift. auto.
  - constructor. auto.
  - constructor. intro o. apply same_lift. auto.
Qed.

Lemma same_file : forall T F G qs p autofix opts hook, blind T qs -> alike qs F G -> (forall q, In q qs -> ~ is_config opts q) -> f_file G p = f_file F p ->
  same F G (fixit_file T p autofix opts hook) (fixit_file T p autofix opts hook).
Proof.
  intros T F G qs p autofix opts hook B Al Nc Ep. destruct (B F G (proj1 Al) (proj1 (proj2 Al)) (proj2 (proj2 Al))) as (Bc & Bv & Bs).
  assert (Fi : forall cfg md pending, same F G (finish_fixes T p cfg md pending) (finish_fixes T p cfg md pending)).
  { intros cfg md [|v l]; cbn [finish_fixes]; [constructor|]. apply same_lift. intros [m0|]; [|constructor]. constructor.
    assert (format_module T G m0 p cfg = format_module T F m0 p cfg) as ->.
    { unfold format_module. destruct (c_formatter cfg) as [s|]; auto. destruct (t_style T s) as [fmt|] eqn:E; auto. destruct (t_bytes T m0); cbn [bind]; auto. now rewrite (Bs s fmt E). }
    apply same_lift. intro. constructor. }
  unfold fixit_file. apply same_catch; [|intro e; constructor; intro; constructor]. constructor. rewrite Ep. destruct (f_file F p) as [content|]; [|constructor].
  constructor. rewrite (alike_config (t_env T) qs F G p opts Al Nc). apply same_lift. intro cfg. apply same_pbind.
  - unfold fixit_bytes. apply same_catch; [|intro e; constructor; intro; constructor]. constructor. rewrite Bc. apply same_lift. intros [|r rs]; [constructor; intro; constructor|].
    apply same_lift. intro md. rewrite Bv. destruct (collect_violations (t_udiff T p) md (t_visit T F cfg md (r :: rs)) hook) as [evs r0]. apply same_loop. intros [|] l; [constructor; intro; apply Fi|apply Fi].
  - intros [[|c t]|]; try constructor. destruct (negb (str_eqb (c :: t) content)); [|constructor]. constructor. intro o. apply same_lift. intro. constructor.
Qed.

Definition still (vs : list cev) : list cev := filter (fun v => match v with VLook _ => false | _ => true end) vs.

Lemma still_app : forall a b, still (a ++ b) = still a ++ still b.
Proof. intros. apply filter_app. Qed.
Lemma still_lines : forall vs, lines (still vs) = lines vs.
Proof. induction vs as [|v vs IH]; [reflexivity|]. destruct v; cbn [still filter lines flat_map app] in *; auto. now f_equal. Qed.
Lemma still_in : forall v vs, (forall F, v <> VLook F) -> (In v (still vs) <-> In v vs).
Proof. intros v vs N. unfold still. rewrite filter_In. split; [tauto|]. intro I. split; auto. destruct v; auto. now destruct (N F). Qed.

Lemma same_steps : forall K diff cfg F G g vs xs, steps K diff cfg g vs xs -> forall h, same F G g h -> (forall H, In (VLook H) vs -> H = F) ->
  exists vs', steps K diff cfg h vs' xs /\ still vs' = still vs /\ forall H, In (VLook H) vs' -> H = G.
Proof.
  intros K diff cfg F G g vs xs H. induction H as [r|x k ls d vs xs E H IH|k F0 vs xs H IH|p c k w vs xs H IH|k i vs xs H IH|c k w vs xs H IH|m k vs xs H IH]; intros h Sm Lk; inversion Sm; subst.
  - exists []. split; [constructor|]. split; [reflexivity|intros H []].
  - destruct (IH (k' None)) as (vs' & S & St & Lk'); auto. { intros F1 I. apply Lk. apply in_or_app. auto. }
    eexists. split; [econstructor; eauto|]. split; [now rewrite !still_app, St|]. intros F1 I. apply in_app_iff in I. destruct I as [I|I]; [|auto]. apply in_map_iff in I. destruct I as (y & X & _). discriminate.
  - assert (F0 = F) as -> by (apply Lk; left; reflexivity). destruct (IH (k' G)) as (vs' & S & St & Lk'); auto. { intros F1 I. apply Lk. right. exact I. }
    exists (VLook G :: vs'). split; [now constructor|]. split; [exact St|]. intros F1 [I|I]; [congruence|auto].
  - destruct (IH (k' w)) as (vs' & S & St & Lk'); auto. { intros F1 I. apply Lk. right. exact I. }
    exists (VWrite p c w :: vs'). split; [now constructor|]. split; [exact (f_equal (cons _) St)|]. intros F1 [I|I]; [discriminate|auto].
  - destruct (IH (k' i)) as (vs' & S & St & Lk'); auto. { intros F1 I. apply Lk. right. exact I. }
    exists (VIn i :: vs'). split; [now constructor|]. split; [exact (f_equal (cons _) St)|]. intros F1 [I|I]; [discriminate|auto].
  - destruct (IH (k' w)) as (vs' & S & St & Lk'); auto. { intros F1 I. apply Lk. right. exact I. }
    exists (VOut c w :: vs'). split; [now constructor|]. split; [exact (f_equal (cons _) St)|]. intros F1 [I|I]; [discriminate|auto].
  - destruct (IH (k' (Ok tt))) as (vs' & S & St & Lk'); auto. { intros F1 I. apply Lk. right. exact I. }
    exists (VPrint Std (k_metrics K m) :: vs'). split; [now constructor|]. split; [exact (f_equal (cons _) St)|]. intros F1 [I|I]; [discriminate|auto].
Qed.

Lemma still_written : forall vs, written (effects (still vs)) = written (effects vs).
Proof. unfold effects. induction vs as [|v vs IH]; [reflexivity|]. destruct v; cbn [still filter flat_map app written] in *; auto. now f_equal. Qed.
Lemma api_written : forall es, written (api_effects es) = written es.
Proof. induction es as [|e es IH]; [reflexivity|]. destruct e; cbn [api_effects filter written] in *; auto. now f_equal. Qed.
Lemma leads_looking : forall F es, written es = [] -> (forall G, In G (SessionSpec.looks es) -> G = F) -> leads F es F.
Proof.
  intros F es. induction es as [|e es IH]; intros W Lk; [constructor|]. destruct e; cbn [written] in W; try discriminate; try (apply ld_other; [exact Logic.I|]; apply IH; [exact W|exact Lk]).
  assert (F0 = F) as -> by (apply Lk; left; reflexivity). constructor. apply IH; [exact W|]. intros G I. apply Lk. right. exact I.
Qed.
Lemma looked : forall vs es F, effects vs = api_effects es -> (In (VLook F) vs <-> In F (SessionSpec.looks es)).
Proof.
  intros vs es F E. assert (A : In (VLook F) vs <-> In (ELook F) (effects vs)).
  { clear. unfold effects. rewrite in_flat_map. split; [intro I; exists (VLook F); simpl; auto|]. intros (v & I & J). destruct v; cbn in J; try contradiction; destruct J as [J|[]]; try discriminate. congruence. }
  rewrite A, E. clear. unfold SessionSpec.looks, api_effects. rewrite filter_In, in_flat_map. split.
  - intros [I _]. exists (ELook F). simpl. auto.
  - intros (e & I & J). destruct e; cbn in J; try contradiction. destruct J as [->|[]]. auto.
Qed.
Lemma writes_in : forall vs es q t w, effects vs = api_effects es -> In (VWrite q t w) vs <-> In (EWrite q t w) es.
Proof.
  intros vs es q t w E. assert (A : In (VWrite q t w) vs <-> In (EWrite q t w) (effects vs)).
  { clear. unfold effects. rewrite in_flat_map. split; [intro I; exists (VWrite q t w); simpl; auto|]. intros (v & I & J). destruct v; cbn in J; try contradiction; destruct J as [J|[]]; try discriminate. congruence. }
  rewrite A, E. clear. unfold api_effects. rewrite filter_In. split; [tauto|auto].
Qed.

(** The same file on another disk *)
Lemma elsewhere : forall K diff cfg T p autofix opts hook qs F G F' vs xs, blind T qs -> (forall q, In q qs -> ~ is_config opts q) -> alike qs F G -> f_file G p = f_file F p ->
  steps K diff cfg (fixit_file T p autofix opts hook) vs xs -> leads F (effects vs) F' -> (forall q t w, In (VWrite q t w) vs -> w = Ok tt) ->
  exists vs' G', steps K diff cfg (fixit_file T p autofix opts hook) vs' xs /\ leads G (effects vs') G' /\ (forall q t w, In (VWrite q t w) vs' -> w = Ok tt) /\ lines vs' = lines vs /\
    (F' = F /\ G' = G \/ exists c, F' = put F p (Some c) /\ G' = put G p (Some c)).
Proof.
  intros K diff cfg T p autofix opts hook qs F G F' vs xs B Nc Al Ep H L W.
  destruct (steps_run _ _ _ _ _ _ H) as (es & R & Ef). pose proof L as L0. rewrite Ef in L0. apply (proj1 (leads_effects _ _ _)) in L0.
  destruct (file_leads _ _ _ _ _ _ _ _ _ R L0) as [Lk Or].
  destruct (same_steps _ _ _ F G _ _ _ H (fixit_file T p autofix opts hook)) as (vs' & H' & St & Lk').
  { eapply same_file; eauto. }
  { intros X I. apply Lk. apply (looked vs es X Ef). exact I. }
  destruct (steps_run _ _ _ _ _ _ H') as (es' & R' & Ef').
  assert (Wr : written es' = written es) by (rewrite <- (api_written es'), <- (api_written es), <- Ef, <- Ef', <- (still_written vs'), St; apply still_written).
  assert (W' : forall q t w, In (VWrite q t w) vs' -> w = Ok tt).
  { intros q t w I. apply (W q t). apply still_in; [discriminate|]. rewrite <- St. apply still_in; [discriminate|exact I]. }
  assert (Li : lines vs' = lines vs) by (rewrite <- (still_lines vs'), St; apply still_lines).
  assert (LkE : forall X, In X (SessionSpec.looks es') -> X = G) by (intros X I; apply Lk'; apply (looked vs' es' X Ef'); exact I).
  exists vs'. destruct (C31_writes _ _ _ _ _ _ _ R') as (_ & _ & [W0|W0]).
  - exists G. split; [exact H'|]. split; [rewrite Ef'; apply (proj2 (leads_effects _ _ _)); now apply leads_looking|]. split; [exact W'|]. split; [exact Li|]. left.
    destruct Or as [[_ ->]|(c & w & X & _)]; [auto|]. rewrite <- Wr, W0 in X. discriminate.
  - destruct W0 as (Fa & content & F1 & cf & es1 & c & w & es2 & acc & Es & _ & _ & _ & _ & _ & _ & _ & _ & _ & W1 & Oe).
    assert (w = Ok tt) as ->. { apply (W' p c). apply (writes_in vs' es' p c w Ef'). rewrite Es. right. right. apply in_or_app. right. left. reflexivity. }
    destruct Oe as (_ & _ & ->). exists (put G p (Some c)). split; [exact H'|].
    assert (E2 : es' = (ELook Fa :: ELook F1 :: es1) ++ [EWrite p c (Ok tt)]) by exact Es.
    split; [|split; [exact W'|split; [exact Li|right; exists c; split; [|reflexivity]]]].
    + rewrite Ef'. apply (proj2 (leads_effects _ _ _)). rewrite E2. apply leads_app. exists G. split; [|constructor; constructor].
      apply leads_looking; [exact W1|]. intros X I. apply LkE. rewrite E2, looks_app. apply in_or_app. auto.
    + destruct Or as [[X _]|(c' & w & X & Y & Z)].
      * rewrite <- Wr, E2, written_app in X. apply app_eq_nil in X. destruct X as [_ X]. discriminate.
      * assert (c' = c) as ->.
        { rewrite <- Wr, E2, written_app in X. cbn [written] in X. rewrite W1 in X. cbn [app] in X. congruence. }
        assert (w = Ok tt) as ->.
        { assert (I : exists q t, In (EWrite q t w) es).
          { assert (J : In (p, c) (written es)) by (rewrite X; left; reflexivity). clear - J Y. revert J. assert (Q : forall l, (forall e, In e l -> In e es) -> In (p, c) (written l) -> exists q t, In (EWrite q t w) es).
            { induction l as [|e l IH]; intros Sub J; [contradiction|]. destruct e; cbn [written] in J; try (apply IH; [intros e0 I; apply Sub; right; exact I|exact J]).
              exists p0, c0. assert (I : In (EWrite p0 c0 o) es) by (apply Sub; left; reflexivity). rewrite <- (Y _ _ _ I). exact I. }
            intro J. destruct (Q es (fun e I => I) J) as (q & t & I). exists q, t. exact I. }
          destruct I as (q & t & I). apply (W q t). apply (writes_in vs es q t w Ef). exact I. }
        destruct Z as [[_ Z]|(e & x & Z & _)]; [exact Z|discriminate].
Qed.

Lemma same_alike : forall qs F G, same_files F G -> alike qs F G.
Proof. intros qs F G [A B]. split; [exact B|]. split; [intros q N; now destruct N|intro q; now rewrite A]. Qed.
Lemma alike_back : forall qs F G, alike qs F G -> alike qs G F.
Proof. intros qs F G (A & B & C). split; [intro; symmetry; apply A|]. split; [intros q N; apply B; congruence|intro q; symmetry; apply C]. Qed.
Lemma same_trans : forall F G H, same_files F G -> same_files G H -> same_files F H.
Proof. intros F G H [A B] [C D]. split; intro q; [now rewrite C|now rewrite D]. Qed.
Lemma text_dec : forall a b : option str, {a = b} + {a <> b}.
Proof. decide equality. apply (list_eq_dec N.eq_dec). Qed.
Lemma alike_one : forall p q F G, alike [p] F G -> p <> q -> f_file G q = f_file F q.
Proof. intros p q F G (_ & A & _) N. destruct (text_dec (f_file G q) (f_file F q)) as [E|E]; [exact E|]. apply A in E. destruct E as [E|[]]. congruence. Qed.

Lemma moved : forall K diff cfg T autofix opts hook all, blind T all -> (forall q, In q all -> ~ is_config opts q) ->
  forall ps F G F' vs xs, same_files F G -> steps K diff cfg (serial T ps autofix opts hook) vs xs -> leads F (effects vs) F' -> (forall q t w, In (VWrite q t w) vs -> w = Ok tt) ->
  exists vs' G', steps K diff cfg (serial T ps autofix opts hook) vs' xs /\ leads G (effects vs') G' /\ (forall q t w, In (VWrite q t w) vs' -> w = Ok tt) /\ lines vs' = lines vs /\ same_files F' G'.
Proof.
  intros K diff cfg T autofix opts hook all B Nc. induction ps as [|p ps IH]; intros F G F' vs xs Sf H L W; cbn [serial] in H.
  - inversion H; subst. inversion L; subst. exists [], G. split; [constructor|]. split; [constructor|]. split; [intros q t w []|]. auto.
  - apply steps_bind in H. destruct H as (v1 & x1 & v2 & x2 & H1 & H2 & -> & ->). rewrite effects_app in L. apply leads_app in L. destruct L as (F1 & L1 & L2).
    destruct (elsewhere _ _ _ _ _ _ _ _ all F G F1 _ _ B Nc (same_alike _ _ _ Sf) (proj1 Sf p) H1 L1) as (v1' & G1 & H1' & L1' & W1' & Li1 & Or).
    { intros q t w I. apply (W q t). apply in_or_app. auto. }
    assert (S1 : same_files F1 G1).
    { destruct Or as [[-> ->]|(c & -> & ->)]; [exact Sf|]. destruct Sf as [A A']. split; [|exact A']. intro q. cbn [put f_file]. destruct (path_eqb q p); auto. }
    destruct (IH F1 G1 F' v2 x2 S1 H2 L2) as (v2' & G' & H2' & L2' & W2' & Li2 & S2).
    { intros q t w I. apply (W q t). apply in_or_app. auto. }
    exists (v1' ++ v2'), G'. rewrite effects_app, !lines_app, Li1, Li2. split; [cbn [serial]; apply steps_bind; eauto 8|]. split; [apply leads_app; eauto|]. split; [|auto].
    intros q t w I. apply in_app_iff in I. destruct I as [I|I]; [eapply W1'|eapply W2']; exact I.
Qed.

Lemma fixes_reorder : forall K diff cfg T autofix opts hook all, blind T all -> (forall q, In q all -> ~ is_config opts q) ->
  forall ps qs, Permutation ps qs -> NoDup ps -> incl ps all -> forall F G F' vs xs, same_files F G ->
  steps K diff cfg (serial T ps autofix opts hook) vs xs -> leads F (effects vs) F' -> (forall q t w, In (VWrite q t w) vs -> w = Ok tt) ->
  exists vs' xs' G', steps K diff cfg (serial T qs autofix opts hook) vs' xs' /\ leads G (effects vs') G' /\ (forall q t w, In (VWrite q t w) vs' -> w = Ok tt) /\
    Permutation (lines vs) (lines vs') /\ Permutation xs xs' /\ same_files F' G'.
Proof.
  intros K diff cfg T autofix opts hook all B Nc ps qs P. induction P as [|p ps qs P IH|p q ps|ps qs rs P1 IH1 P2 IH2]; intros Nd In_ F G F' vs xs Sf H L W.
  - destruct (moved _ _ _ _ _ _ _ all B Nc _ _ _ _ _ _ Sf H L W) as (vs' & G' & H' & L' & W' & Li & S'). exists vs', xs, G'. rewrite Li. auto 8.
  - cbn [serial] in H. apply steps_bind in H. destruct H as (v1 & x1 & v2 & x2 & H1 & H2 & -> & ->). rewrite effects_app in L. apply leads_app in L. destruct L as (F1 & L1 & L2).
    destruct (elsewhere _ _ _ _ _ _ _ _ all F G F1 _ _ B Nc (same_alike _ _ _ Sf) (proj1 Sf p) H1 L1) as (v1' & G1 & H1' & L1' & W1' & Li1 & Or).
    { intros r t w I. apply (W r t). apply in_or_app. auto. }
    assert (S1 : same_files F1 G1).
    { destruct Or as [[-> ->]|(c & -> & ->)]; [exact Sf|]. destruct Sf as [A A']. split; [|exact A']. intro r. cbn [put f_file]. destruct (path_eqb r p); auto. }
    inversion Nd; subst. destruct (IH ltac:(assumption) (fun r I => In_ r (or_intror I)) F1 G1 F' v2 x2 S1 H2 L2) as (v2' & x2' & G' & H2' & L2' & W2' & Pl & Px & S2).
    { intros r t w I. apply (W r t). apply in_or_app. auto. }
    exists (v1' ++ v2'), (x1 ++ x2'), G'. rewrite effects_app, !lines_app, Li1. split; [cbn [serial]; apply steps_bind; eauto 8|]. split; [apply leads_app; eauto|].
    split; [|split; [now apply Permutation_app_head|split; [now apply Permutation_app_head|exact S2]]].
    intros r t w I. apply in_app_iff in I. destruct I as [I|I]; [eapply W1'|eapply W2']; exact I.
  - cbn [serial] in H. apply steps_bind in H. destruct H as (v1 & x1 & v2 & x2 & H1 & H2 & -> & ->). apply steps_bind in H2. destruct H2 as (v3 & x3 & v4 & x4 & H3 & H4 & -> & ->).
    rewrite !effects_app in L. apply leads_app in L. destruct L as (F1 & L1 & L2). apply leads_app in L2. destruct L2 as (F2 & L3 & L4).
    assert (V1 : forall r t w, In (VWrite r t w) v1 -> w = Ok tt) by (intros r t w I; apply (W r t); apply in_or_app; auto).
    assert (V3 : forall r t w, In (VWrite r t w) v3 -> w = Ok tt) by (intros r t w I; apply (W r t); apply in_or_app; right; apply in_or_app; auto).
    assert (V4 : forall r t w, In (VWrite r t w) v4 -> w = Ok tt) by (intros r t w I; apply (W r t); apply in_or_app; right; apply in_or_app; auto).
    assert (Npq : q <> p). { inversion Nd as [|? ? X _]; subst. intros ->. apply X. left. reflexivity. }
    assert (More : forall r X Y, In r all -> alike [r] X Y -> alike all X Y) by (intros r X Y I A; eapply alike_more; [|exact A]; intros ? [<-|[]]; exact I).
    pose proof (file_alike _ _ _ _ _ _ _ _ _ _ _ _ H1 L1 V1) as A1.
    assert (Al1 : alike all F1 G).
    { eapply alike_trans; [apply alike_back; apply (More q); [apply In_; left; reflexivity|exact A1]|now apply same_alike]. }
    destruct (elsewhere _ _ _ _ _ _ _ _ all F1 G F2 _ _ B Nc Al1 (eq_trans (proj1 Sf p) (eq_sym (alike_one _ _ _ _ A1 Npq))) H3 L3 V3) as (v3' & G1 & H3' & L3' & W3' & Li3 & Or3).
    pose proof (file_alike _ _ _ _ _ _ _ _ _ _ _ _ H3' L3' W3') as A3.
    assert (Al3 : alike all F G1).
    { eapply alike_trans; [apply same_alike; exact Sf|]. apply (More p); [apply In_; right; left; reflexivity|exact A3]. }
    destruct (elsewhere _ _ _ _ _ _ _ _ all F G1 F1 _ _ B Nc Al3 (eq_trans (alike_one _ _ _ _ A3 (not_eq_sym Npq)) (proj1 Sf q)) H1 L1 V1) as (v1' & G2 & H1' & L1' & W1' & Li1 & Or1).
    assert (S2 : same_files F2 G2).
    { destruct Sf as [A A'].
      destruct Or3 as [[E1 E2]|(c & E1 & E2)], Or1 as [[E3 E4]|(c' & E3 & E4)]; rewrite E1, E4, E3, E2; (split; [|exact A']); intro r; cbn [put f_file]; try apply A.
      - destruct (path_eqb r q); auto.
      - destruct (path_eqb r p); auto.
      - destruct (path_eqb r q) eqn:Q, (path_eqb r p) eqn:Q'; auto. apply path_eqb_eq in Q, Q'. congruence. }
    destruct (moved _ _ _ _ _ _ _ all B Nc _ _ _ _ _ _ S2 H4 L4 V4) as (v4' & G' & H4' & L4' & W4' & Li4 & S4).
    exists (v3' ++ v1' ++ v4'), (x3 ++ x1 ++ x4), G'. rewrite !effects_app, !lines_app, Li1, Li3, Li4.
    split; [cbn [serial]; apply steps_bind; exists v3', x3, (v1' ++ v4'), (x1 ++ x4); repeat split; auto; apply steps_bind; eauto 8|].
    split; [apply leads_app; exists G1; split; [exact L3'|apply leads_app; eauto]|]. split; [|split; [|split; [|exact S4]]].
    + intros r t w I. apply in_app_iff in I. destruct I as [I|I]; [eapply W3'; exact I|]. apply in_app_iff in I. destruct I as [I|I]; [eapply W1'|eapply W4']; exact I.
    + rewrite !app_assoc. apply Permutation_app_tail. apply Permutation_app_comm.
    + rewrite !app_assoc. apply Permutation_app_tail. apply Permutation_app_comm.
  - destruct (IH1 Nd In_ F G F' vs xs Sf H L W) as (v1 & x1 & G1 & H1 & L1 & W1 & Pl1 & Px1 & S1).
    assert (Sr : same_files G G) by (split; reflexivity).
    destruct (IH2 (Permutation_NoDup P1 Nd) (fun r I => In_ r (Permutation_in _ (Permutation_sym P1) I)) G G G1 v1 x1 Sr H1 L1 W1) as (v2 & x2 & G2 & H2 & L2 & W2 & Pl2 & Px2 & S2).
    exists v2, x2, G2. split; [exact H2|]. split; [exact L2|]. split; [exact W2|]. split; [etransitivity; eauto|]. split; [etransitivity; eauto|]. eapply same_trans; eauto.
Qed.

Lemma fixed_reorder : forall xs ys, Permutation xs ys -> fix_last (fix_summed no_tally xs) = fix_last (fix_summed no_tally ys).
Proof.
  intros xs ys P. destruct (fix_tells xs) as (-> & _), (fix_tells ys) as (-> & _). unfold counted. cbn [n_checked n_errors n_available].
  now rewrite (set_reorder any xs ys), (set_reorder dirty xs ys), (number_reorder fixable xs ys).
Qed.

Opaque make_plan.
Lemma fix_succeeds : forall K T d opts m diff F p ps ls s F', succeeds F (fix_ K T d opts m false diff (map PathArg (p :: ps))) ls s F' <->
  exists cfg found vs xs, generate_config (t_env T) F (k_cwd K) None (Some opts) = Ok cfg /\ map_res (t_walk T F) (p :: ps) = Ok found /\
    steps K diff cfg (serial T (concat found) true (Some opts) m) vs xs /\ leads F (effects vs) F' /\ (forall q t w, In (VWrite q t w) vs -> w = Ok tt) /\ ls = lines vs /\ s = fix_last (fix_summed no_tally xs).
Proof.
  intros K T d opts m diff F p ps ls s F'. unfold succeeds, fix_. cbn [map or_cwd first_is_dash andb negb].
  assert (Nm : flat_map named (map PathArg ps) = ps) by (induction ps as [|q ps IH]; [reflexivity|]; cbn [map flat_map named app]; now rewrite IH).
  split.
  - intros (vs & H & L & W & Li). inversion H as [| | | | |? F0 vs0 ? H0| | |]; subst.
    change (effects (VLook F0 :: vs0)) with (ELook F0 :: effects vs0) in L.
    inversion L as [|? ? ? L1| | |? ? ? ? X]; subst; [|contradiction].
    destruct (generate_config (t_env T) F0 (k_cwd K) None (Some opts)) as [cfg|e]; [|inversion H0].
    apply (fix_steps K diff cfg (fixit_paths_serial T d (PathArg p :: map PathArg ps) true (Some opts) m)) in H0. destruct H0 as (vs1 & xs & H1 & -> & _). unfold fixit_paths_serial in H1.
    inversion H1 as [| |? F1 vs2 ? H2| | | |]; subst. change (effects ((VLook F1 :: vs2) ++ [VPrint (fst (fix_last (fix_summed no_tally xs))) (snd (fix_last (fix_summed no_tally xs)))])) with
      (ELook F1 :: effects (vs2 ++ [VPrint (fst (fix_last (fix_summed no_tally xs))) (snd (fix_last (fix_summed no_tally xs)))])) in L1.
    rewrite effects_app in L1. change (effects [VPrint _ _]) with (@nil ev) in L1. rewrite app_nil_r in L1.
    inversion L1 as [|? ? ? L2| | |? ? ? ? X]; subst; [|contradiction]. rewrite C34_files, Nm in H2.
    destruct (map_res (t_walk T F1) (p :: ps)) as [found|e]; cbn [bind lift] in H2; [|inversion H2].
    change (lines ((VLook F1 :: VLook F1 :: vs2) ++ [VPrint (fst (fix_last (fix_summed no_tally xs))) (snd (fix_last (fix_summed no_tally xs)))]) = ls ++ [s]) in Li.
    rewrite lines_app in Li. cbn [lines flat_map app] in Li. apply app_inj_tail in Li. destruct Li as [<- <-].
    exists cfg, found, vs2, xs. cbn [negb] in H2. rewrite orb_true_r in H2. repeat split; auto.
    + intros q t w I. apply (W q t). right. right. apply in_or_app. auto.
    + destruct (fix_last (fix_summed no_tally xs)). reflexivity.
  - intros (cfg & found & vs & xs & G & Wk & H & L & W & -> & ->). set (s := fix_last (fix_summed no_tally xs)).
    exists (VLook F :: VLook F :: vs ++ [VPrint (fst s) (snd s)]). split; [|split; [|split]].
    + constructor. rewrite G. apply (fix_steps K diff cfg (fixit_paths_serial T d (PathArg p :: map PathArg ps) true (Some opts) m)). exists (VLook F :: vs), xs. split; [|auto].
      unfold fixit_paths_serial. constructor. rewrite C34_files, Nm, Wk. cbn [bind lift negb]. rewrite orb_true_r. exact H.
    + change (leads F (ELook F :: ELook F :: effects (vs ++ [VPrint (fst s) (snd s)])) F'). rewrite effects_app. change (effects [VPrint _ _]) with (@nil ev). rewrite app_nil_r. now do 2 constructor.
    + intros q t w [X|[X|I]]; try discriminate. apply in_app_iff in I. destruct I as [I|[X|[]]]; [eapply W; exact I|discriminate].
    + change (lines ((VLook F :: VLook F :: vs) ++ [VPrint (fst s) (snd s)]) = lines vs ++ [s]). rewrite lines_app. f_equal. cbn. destruct s. reflexivity.
Qed.
(** Fixing the same paths in another order prints the same lines in another order and the same summary, and leaves the same files, if no file is found twice, none is a
    configuration file and rules do not look into the files of each other. *)
Theorem C112_order : forall K T d opts m diff F ps qs found ls s F', Permutation ps qs -> ps <> [] ->
  map_res (t_walk T F) ps = Ok found -> NoDup (concat found) -> (forall q, In q (concat found) -> ~ is_config (Some opts) q) -> blind T (concat found) ->
  succeeds F (fix_ K T d opts m false diff (map PathArg ps)) ls s F' ->
  exists ls' F'', succeeds F (fix_ K T d opts m false diff (map PathArg qs)) ls' s F'' /\ Permutation ls ls' /\ same_files F' F''.
Proof.
  intros K T d opts m diff F ps qs found ls s F' P Ne Wk Nd Nc B H. destruct ps as [|p ps]; [congruence|].
  destruct qs as [|q qs]; [apply Permutation_sym, Permutation_nil in P; discriminate|].
  apply fix_succeeds in H. destruct H as (cfg & fd & vs & xs & G & Wk' & H & L & W & -> & ->). assert (fd = found) as -> by congruence.
  destruct (walks_reorder _ _ _ P _ Wk) as (found' & Wk2 & Pf). assert (Sr : same_files F F) by (split; reflexivity).
  destruct (fixes_reorder _ _ _ _ _ _ _ (concat found) B Nc _ _ (concat_reorder _ _ Pf) Nd (incl_refl _) F F F' vs xs Sr H L W) as (vs' & xs' & G' & H' & L' & W' & Pl & Px & S').
  exists (lines vs'), G'. split; [|auto]. rewrite (fixed_reorder _ _ Px). apply fix_succeeds. exists cfg, found', vs', xs'. auto 10.
Qed.

(** ** The claim is not vacuous *)

Transparent make_plan fixit_bytes.
Lemma lived_succeeds : forall (c : cmd N) F vs F' ls s, live c F [] = (vs, Returned 0%N, F') -> lines vs = ls ++ [s] ->
  forallb (fun v => match v with VWrite _ _ (Err _) => false | _ => true end) vs = true -> succeeds F c ls s F'.
Proof.
  intros c F vs F' ls s H L W. destruct (live_run _ _ _ _ _ _ _ H) as [R Ld]. exists vs. repeat split; auto.
  intros q t w I. rewrite forallb_forall in W. apply W in I. destruct w as [[]|]; [reflexivity|discriminate].
Qed.

Example C112_example : exists l1 l2 s F1 F2,
  map_res (t_walk ex_fix_tool ex_F2) [ex_file; ex_other] = Ok [[ex_file]; [ex_other]] /\ NoDup (concat [[ex_file]; [ex_other]]) /\
  (forall q, In q (concat [[ex_file]; [ex_other]]) -> ~ is_config (Some ex_opts) q) /\ blind ex_fix_tool (concat [[ex_file]; [ex_other]]) /\
  succeeds ex_F2 (ex_fix false false false [PathArg ex_file; PathArg ex_other]) (l1 ++ l2) s F1 /\
  succeeds ex_F2 (ex_fix false false false [PathArg ex_other; PathArg ex_file]) (l2 ++ l1) s F2 /\ same_files F1 F2 /\
  List.length l1 = 3 /\ List.length l2 = 3 /\ f_file F1 ex_other <> f_file ex_F2 ex_other.
Proof.
  pose (new := Some (u "x = f(99, 2)" ++ nl)). pose (F1 := put (put ex_F2 ex_file new) ex_other new). pose (F2 := put (put ex_F2 ex_other new) ex_file new).
  pose (r := live (ex_fix false false false [PathArg ex_file; PathArg ex_other]) ex_F2 []).
  exists (firstn 3 (lines (fst (fst r)))), (firstn 3 (skipn 3 (lines (fst (fst r))))), (last (lines (fst (fst r))) (Diag, [])), F1, F2.
  split; [reflexivity|]. split; [repeat constructor; vm_compute; intuition congruence|]. split.
  { intros q I [(dd & n & -> & N)|(o & f & E & Ef & _)].
    - cbn [concat app] in I. destruct I as [I|[I|[]]]; apply (f_equal (@rev str)) in I; rewrite rev_app_distr in I; cbn in I; injection I as <- _; vm_compute in N; intuition discriminate.
    - injection E as <-. discriminate. }
  split; [intros F G _ _ _; split; [reflexivity|]; split; [reflexivity|]; intros s fmt E b p; unfold ex_fix_tool, ex_tool in E; cbn [t_style] in E; destruct (str_eqb s (u "shout")); [injection E as <-; reflexivity|discriminate]|].
  split; [eapply lived_succeeds; vm_compute; reflexivity|]. split; [eapply lived_succeeds; vm_compute; reflexivity|]. split.
  { split; [|reflexivity]. intro q. unfold F1, F2. cbn [put f_file]. destruct (path_eqb q ex_file), (path_eqb q ex_other); reflexivity. }
  split; [vm_compute; reflexivity|]. split; [vm_compute; reflexivity|]. vm_compute. discriminate.
Qed.
