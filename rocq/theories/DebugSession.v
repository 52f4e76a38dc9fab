(** * C108: fixit debug for several paths *)
From Coq Require Import String List NArith ZArith Bool Arith Lia Permutation.
From Verif Require Import Base PyStr Ftypes Paths Config Collect CollectSpec CollectFacts CollectSelect CollectProps Debug Session SessionSpec SessionFacts
  Suppress Cst Engine Batch Api ApiSpec ApiFacts System SystemSpec SystemSame SessionProps.
Import ListNotations.

(** ** Model *)

(** cli.py 338-350, one path after the other in one process, as [debug_paths] of Debug.v; here modules that were imported for a path stay in sys.modules (Session.v),
    as they do for linting. *)
Fixpoint debug_session (W : world) (E : env) (F : fs) (rich : bool) (text : cls -> str) (opts : options) (ps : list path) (z : session) : list shown * res unit * session :=
  match ps with
  | [] => ([], Ok tt, z)
  | p :: ps' =>
      let '(out, r, _) := debug_path (remembering (z_loaded z) W) E F rich text opts p (PyState (z_path z) [] (z_gen z)) in
      let z1 := match generate_config E F p None (Some opts) with Ok cfg => after_collect W cfg z | Err _ => z end in
      match r with
      | Err e => (out, Err e, z1)
      | Ok _ => let '(out', r', z2) := debug_session W E F rich text opts ps' z1 in (out ++ out', r', z2)
      end
  end.

(** ** Specification *)

(** The paths belong to one project: their configurations agree on enable-root-import, and on the root if it is enabled. *)
Definition one_project (E : env) (F : fs) (opts : options) (ps : list path) : Prop :=
  forall p q c c', In p ps -> In q ps -> generate_config E F p None (Some opts) = Ok c -> generate_config E F q None (Some opts) = Ok c' ->
    c_import c = c_import c' /\ (c_import c = RIFalse \/ c_root c = c_root c').

(** [fixit debug] with one path in a process in state [z] succeeds and shows [out]. *)
Definition debug_shows (W : world) (E : env) (F : fs) (text : cls -> str) (opts : options) (z : session) (p : path) (out : list shown) : Prop :=
  exists z', debug_session W E F true text opts [p] z = (out, Ok tt, z').

(** ** Proofs *)

Lemma one_shows : forall W E F text opts z p out, debug_shows W E F text opts z p out <->
  exists py, debug_path (remembering (z_loaded z) W) E F true text opts p (PyState (z_path z) [] (z_gen z)) = (out, Ok tt, py).
Proof.
  intros W E F text opts z p out. unfold debug_shows. cbn [debug_session].
  destruct (debug_path (remembering (z_loaded z) W) E F true text opts p (PyState (z_path z) [] (z_gen z))) as [[o [[]|e]] py].
  - split; [intros (z' & H)|intros (py' & H)].
    + rewrite app_nil_r in H. injection H as -> _. eauto.
    + injection H as -> _. rewrite app_nil_r. eauto.
  - split; [intros (z' & H)|intros (py' & H)]; discriminate.
Qed.

Lemma shown_config : forall W E F text opts p py out py', debug_path W E F true text opts p py = (out, Ok tt, py') ->
  exists c r, generate_config E F p None (Some opts) = Ok c /\ fst (collect_rules W c py) = Ok r.
Proof.
  intros W E F text opts p py out py' H. unfold debug_path in H. destruct (generate_config E F p None (Some opts)) as [c|]; [|discriminate].
  exists c. destruct (collect_rules W c py) as [[r|e] s]; [|discriminate]. exists r. auto.
Qed.

Lemma in_order_same : forall l1 l2, Debug.in_order l1 -> Debug.in_order l2 -> Permutation l1 l2 -> l1 = l2.
Proof.
  intros l1 l2 H1 H2 P. eapply sorted_unique; [exact H1|exact H2|exact P|]. intros x y _ _ A B. now apply str_leb_antisym.
Qed.

Lemma nodup_app : forall A (a b : list A), NoDup (a ++ b) -> NoDup a /\ NoDup b.
Proof.
  intros A a b. induction a as [|x a IH]; intro N; cbn [app] in N; [split; [constructor|exact N]|]. inversion N as [|? ? N1 N2]; subst.
  destruct (IH N2) as [Na Nb]. split; [constructor; [intro I; apply N1, in_or_app; auto|exact Na]|exact Nb].
Qed.

Section Same.
  Context (W : world) (E : env) (F : fs) (text : cls -> str) (opts : options) (p : path) (cfg : config) (z0 z : session).
  Context (fair : fair_sets W) (names : forall id g, text (id, g) = text (id, None)).
  Context (config_is : generate_config E F p None (Some opts) = Ok cfg).
  Context (path_eq : z_path z = z_path z0) (gen_le : z_gen z0 <= z_gen z) (more : remember_more (z_loaded z0) (z_loaded z)).
  Context (known : forall q t x, In q (c_enable cfg ++ c_disable cfg) -> is_local q = false -> t = top (q_module q) ->
    dget t (z_loaded z0) = None -> dget t (z_loaded z) = Some x ->
    snd (w_import W x (q_module q)) = snd (w_import W (import_path W cfg z0) (q_module q))).

  Lemma text_later : forall d k, text (later d k) = text k.
  Proof. intros d [id g]. unfold later. cbn [fst snd]. rewrite names. symmetry. apply names. Qed.

  Lemma shows_same : forall out out', debug_shows W E F text opts z0 p out -> debug_shows W E F text opts z p out' -> out = out'.
  Proof.
    intros out out' H0 H. apply one_shows in H0, H. destruct H0 as (py0 & H0), H as (py & H).
    destruct (findings (remembering (z_loaded z0) W) (c_enable cfg) (with_root_import W cfg (PyState (z_path z0) [] (z_gen z0)))) as [fe s] eqn:E1.
    destruct (findings (remembering (z_loaded z0) W) (c_disable cfg) s) as [fd s'] eqn:E2.
    destruct (findings_both W cfg z0 z path_eq gen_le more known _ _ _ _ E1 E2) as (s1 & s1' & E1' & E2').
    set (d := z_gen z - z_gen z0) in *.
    assert (Rt : forall a b, with_root_import (remembering a W) cfg b = with_root_import W cfg b) by (intros; apply with_root_remembering).
    rewrite <- (Rt (z_loaded z0)) in E1. rewrite <- (Rt (z_loaded z)) in E1'.
    destruct (@C74_shows _ _ _ _ _ _ _ _ _ _ _ _ _ _ (fair : fair_sets (remembering (z_loaded z0) W)) H0 config_is E1 E2) as (es0 & ds0 & en0 & di0 & -> & O1 & P1 & O2 & P2 & N0 & S0 & D0).
    destruct (@C74_shows _ _ _ _ _ _ _ _ _ _ _ _ _ _ (fair : fair_sets (remembering (z_loaded z) W)) H config_is E1' E2') as (es & ds & en & di & -> & O3 & P3 & O4 & P4 & N & S1 & D).
    assert (Fd : forall k, found (map (later_finding d) fe) (later d k) <-> found fe k).
    { intro k. rewrite found_later. split; [intros (k0 & X & Y); apply later_inj in X; now subst|eauto]. }
    assert (Fd' : forall k, found (map (later_finding d) fd) (later d k) <-> found fd k).
    { intro k. rewrite found_later. split; [intros (k0 & X & Y); apply later_inj in X; now subst|eauto]. }
    assert (Nd : forall k, named (map (later_finding d) fe) (later d k) <-> named fe k).
    { intro k. rewrite named_later. split; [intros (k0 & X & Y); apply later_inj in X; now subst|eauto]. }
    assert (Ne0 : NoDup en0 /\ NoDup (map fst di0)) by (apply nodup_app; exact N0).
    assert (Ne1 : NoDup en /\ NoDup (map fst di)) by (apply nodup_app; exact N).
    assert (En : Permutation en (map (later d) en0)).
    { apply NoDup_Permutation; [apply Ne1|apply FinFun.Injective_map_NoDup; [intros a b; apply later_inj|apply Ne0]|]. intro k. rewrite S1, in_map_iff. split.
      - intros (A & B & T & V). apply found_later in A. destruct A as (k0 & -> & A). exists k0. split; [reflexivity|]. apply S0. rewrite Fd', Nd in B. auto.
      - intros (k0 & <- & I). apply S0 in I. rewrite Fd, Fd', Nd. exact I. }
    assert (Di : Permutation di (map (fun kr => (later d (fst kr), snd kr)) di0)).
    { apply NoDup_Permutation; [eapply NoDup_map_inv; apply Ne1| |].
      - apply FinFun.Injective_map_NoDup; [|eapply NoDup_map_inv; apply Ne0]. intros [a r] [b r'] X. pose proof (f_equal fst X) as Y. pose proof (f_equal snd X) as Z. cbn [fst snd] in Y, Z. apply later_inj in Y. now subst.
      - intros [k r]. rewrite D, in_map_iff. split.
        + intro X. assert (exists k0, k = later d k0) as (k0 & ->).
          { destruct X as [(_ & A & _)|[(_ & A & _)|(_ & A & _)]]; apply found_later in A; destruct A as (k0 & -> & _); eauto. }
          exists (k0, r). split; [reflexivity|]. apply D0. rewrite !Fd, !Fd', !Nd in X. exact X.
        + intros ([k0 r0] & X & I). cbn [fst snd] in X. injection X as <- <-. apply D0 in I. fold (later d k0). rewrite !Fd, !Fd', !Nd. exact I. }
    f_equal. f_equal. f_equal; [|f_equal]; f_equal.
    - apply in_order_same; auto. rewrite P1, P3, En, map_map. apply Permutation_refl'. apply map_ext. intro. symmetry. apply text_later.
    - apply in_order_same; auto. rewrite P2, P4, Di, map_map. apply Permutation_refl'. apply map_ext. intros [k r]. cbn [fst snd]. now rewrite text_later.
  Qed.
End Same.

Lemma import_path_same : forall W cfg z z', z_path z' = z_path z -> import_path W cfg z' = import_path W cfg z.
Proof. intros W cfg z z' H. unfold import_path. now rewrite H. Qed.

(** Within one project [fixit debug path1 path2 …] shows what [fixit debug path1], [fixit debug path2], … show. *)
Theorem C108_each : forall W E F text opts ps z0 outs out z,
  fair_sets W -> (forall id g, text (id, g) = text (id, None)) -> one_project E F opts ps ->
  Forall2 (debug_shows W E F text opts z0) ps outs ->
  debug_session W E F true text opts ps z0 = (out, Ok tt, z) -> out = concat outs.
Proof.
  intros W E F text opts ps z0 outs out z Fa Nm One Each Run.
  assert (Gen : forall y, z_path y = z_path z0 -> z_gen z0 <= z_gen y -> remember_more (z_loaded z0) (z_loaded y) ->
    (forall t x, dget t (z_loaded y) = Some x -> dget t (z_loaded z0) = Some x \/
       exists q c, In q ps /\ generate_config E F q None (Some opts) = Ok c /\ x = import_path W c z0) ->
    forall rest outs out z, incl rest ps -> Forall2 (debug_shows W E F text opts z0) rest outs ->
    debug_session W E F true text opts rest y = (out, Ok tt, z) -> out = concat outs).
  { clear outs out z Each Run. intros y P G M L rest. revert y P G M L. induction rest as [|p rest IH]; intros y P G M L outs out z Sub Each Run.
    - inversion Each; subst. injection Run as <- _. reflexivity.
    - inversion Each as [|? o ? outs' H0 Each']; subst. cbn [debug_session] in Run.
      destruct (debug_path (remembering (z_loaded y) W) E F true text opts p (PyState (z_path y) [] (z_gen y))) as [[o1 r1] py1] eqn:D.
      destruct r1 as [[]|e]; [|discriminate]. destruct (shown_config _ _ _ _ _ _ _ _ _ D) as (cfg & r & Gc & Co). rewrite Gc in Run.
      destruct (debug_session W E F true text opts rest (after_collect W cfg y)) as [[o2 r2] z2] eqn:R2. injection Run as <- -> <-.
      assert (Ip : In p ps) by (apply Sub; left; reflexivity).
      cbn [concat]. f_equal.
      + symmetry. eapply (shows_same W E F text opts p cfg z0 y Fa Nm Gc P G M); [|exact H0|apply one_shows; eauto].
        intros q t x _ _ _ N0 N1. destruct (L _ _ N1) as [X|(q' & c & Iq & Gq & ->)]; [congruence|].
        destruct (One q' p c cfg Iq Ip Gq Gc) as [Ei X]. unfold import_path, with_root_import. rewrite <- Ei. destruct X as [->| ->]; reflexivity.
      + destruct (after_collect_facts W cfg y) as ((ext & A & B) & A2 & A3 & A4). assert (ext = []) as -> by eauto. rewrite app_nil_r in A.
        apply (IH (after_collect W cfg y)) with (z := z2); auto; [congruence|lia| | |].
        * intros t x X. apply A3. apply M. exact X.
        * intros t x X. destruct (A4 t x X) as [Y| ->]; [auto|]. right. exists p, cfg. rewrite (import_path_same W cfg z0 y P). auto.
        * intros q I. apply Sub. right. exact I. }
  eapply (Gen z0); eauto; [intros t x X; exact X|apply incl_refl].
Qed.

(** What happens in the process between the paths is what happens between files that are linted: for a path after other paths it shows the configuration and the rules that
    linting uses for this path after the other files, as long as nothing fails. *)
Theorem C108_as_lint : forall Y W F text opts ps p autofix hook z0 es z out z',
  (forall G, y_world Y G = W) -> fair_sets W ->
  run (in_session Y ps autofix (Some opts) hook z0) es (Returned z) -> no_errors es -> (forall G, In G (looks es) -> G = F) ->
  debug_session W (y_env Y) F true text opts (ps ++ [p]) z0 = (out, Ok tt, z') ->
  exists before cfg names_ disabled enabled,
    out = before ++ [SPath (resolve p); SConfig cfg; SEnabled names_; SDisabled disabled] /\
    generate_config (y_env Y) F p None (Some opts) = Ok cfg /\
    NoDup enabled /\ (forall k, In k enabled <-> selected (system_at Y z) F cfg k) /\ Permutation names_ (map text enabled).
Proof.
  intros Y W F text opts ps p autofix hook z0 es z out z' Wf Fa. revert z0 es z out. induction ps as [|q ps IH]; intros z0 es z out R Ne Lk D; cbn [in_session app] in R, D.
  - inversion R; subst. assert (Sh : debug_shows W (y_env Y) F text opts z p out) by (eexists; exact D). apply one_shows in Sh. destruct Sh as (py & H).
    destruct (shown_config _ _ _ _ _ _ _ _ _ H) as (cfg & r & Gc & _).
    destruct (findings (remembering (z_loaded z) W) (c_enable cfg) (with_root_import (remembering (z_loaded z) W) cfg (PyState (z_path z) [] (z_gen z)))) as [fe s] eqn:E1.
    destruct (findings (remembering (z_loaded z) W) (c_disable cfg) s) as [fd s'] eqn:E2.
    destruct (@C74_shows _ _ _ _ _ _ _ _ _ _ _ _ _ _ (Fa : fair_sets (remembering (z_loaded z) W)) H Gc E1 E2) as (ns & ds & en & di & -> & _ & P1 & _ & _ & N0 & S0 & _).
    exists [], cfg, ns, ds, en. split; [reflexivity|]. split; [exact Gc|]. split; [apply (nodup_app _ _ _ N0)|]. split; [|exact P1].
    intro k. rewrite S0. unfold selected. cbn [system_at y_world y_py]. rewrite Wf, E1, E2. reflexivity.
  - apply run_pbind in R. destruct R as [[X _]|[(e & X & _)|(es1 & es2 & [[] seen] & -> & H1 & H2)]]; try discriminate.
    apply track_run in H1. destruct H1 as [H1 ->]. cbn [app snd] in H2. apply no_errors_app in Ne. destruct Ne as [Ne1 Ne2].
    destruct (file_collected _ _ _ _ _ _ H1 Ne1) as (F0 & F1 & F2 & l & cfg & ks & El & Eg & Ec). unfold after_file in H2. rewrite El in H2.
    assert (F1 = F) as -> by (apply Lk; rewrite looks_app, El; simpl; auto). cbn [system_at y_env] in Eg. rewrite Eg, Wf in H2.
    cbn [debug_session] in D. destruct (debug_path (remembering (z_loaded z0) W) (y_env Y) F true text opts q (PyState (z_path z0) [] (z_gen z0))) as [[o1 r1] py1] eqn:D1.
    destruct r1 as [[]|e]; [|discriminate]. rewrite Eg in D.
    destruct (debug_session W (y_env Y) F true text opts (ps ++ [p]) (after_collect W cfg z0)) as [[o2 r2] z2] eqn:R2. injection D as <- -> <-.
    assert (Lk2 : forall G, In G (looks es2) -> G = F) by (intros G I; apply Lk; rewrite looks_app; apply in_or_app; auto).
    destruct (IH _ _ _ _ H2 Ne2 Lk2 R2) as (before & cfg' & ns & ds & en & -> & rest).
    exists (o1 ++ before), cfg', ns, ds, en. rewrite <- app_assoc. split; [reflexivity|exact rest].
Qed.

(** The paths shown before leave sys.path alone. *)
Theorem C108_path : forall W E F text opts ps z0 out z,
  debug_session W E F true text opts ps z0 = (out, Ok tt, z) -> z_path z = z_path z0.
Proof.
  intros W E F text opts ps. induction ps as [|p ps IH]; intros z0 out z D; cbn [debug_session] in D; [now injection D as _ <-|].
  destruct (debug_path (remembering (z_loaded z0) W) E F true text opts p (PyState (z_path z0) [] (z_gen z0))) as [[o1 r1] py1] eqn:D1.
  destruct r1 as [[]|e]; [|discriminate]. destruct (shown_config _ _ _ _ _ _ _ _ _ D1) as (cfg & r & Gc & Co). rewrite Gc in D.
  destruct (debug_session W E F true text opts ps (after_collect W cfg z0)) as [[o2 r2] z2] eqn:R2. injection D as _ -> <-.
  rewrite (IH _ _ _ R2). destruct (after_collect_facts W cfg z0) as ((ext & A & B) & _). rewrite A, B, app_nil_r; eauto.
Qed.

(** ** Across projects *)

Definition text2 (k : cls) : str := if N.eqb (fst k) 1 then u "rules:ARule" else u "rules:B".
Definition files2 : env := env2 (u "rules") (u "rules").


(** Two projects, each with a module [rules]: for the file of the second, [fixit debug] with both files shows the rule of the first project. *)
Theorem C108_projects_refuted : exists W E F text opts p q z0 outs out z,
  fair_sets W /\ (forall id g, text (id, g) = text (id, None)) /\
  Forall2 (debug_shows W E F text opts z0) [p; q] outs /\ debug_session W E F true text opts [p; q] z0 = (out, Ok tt, z) /\
  map (filter (fun s => match s with SEnabled _ => true | _ => false end)) outs = [[SEnabled [u "rules:ARule"]]; [SEnabled [u "rules:B"]]] /\
  filter (fun s => match s with SEnabled _ => true | _ => false end) out = [SEnabled [u "rules:ARule"]; SEnabled [u "rules:ARule"]].
Proof.
  pose (o := Options None None [] None []). pose (sh := fun ps => debug_session world2 files2 fs2 true text2 o ps session0).
  exists world2, files2, fs2, text2, o, x_py, y_py_, session0, [fst (fst (sh [x_py])); fst (fst (sh [y_py_]))], (fst (fst (sh [x_py; y_py_]))), (snd (sh [x_py; y_py_])).
  split; [intro l; apply Permutation_refl|]. split; [reflexivity|]. split.
  { constructor; [exists (snd (sh [x_py])); vm_compute; reflexivity|constructor; [exists (snd (sh [y_py_])); vm_compute; reflexivity|constructor]]. }
  split; [vm_compute; reflexivity|]. split; vm_compute; reflexivity.
Qed.

(** ** The claims are not vacuous *)

Definition z_py : path := [u "b"; u "c"; u "z.py"].
(** One project: the second path is shown as by itself, although its module has been imported before. *)
Example C108_example : exists outs out z,
  one_project files2 fs2 (Options None None [] None []) [y_py_; z_py] /\
  Forall2 (debug_shows world2 files2 fs2 text2 (Options None None [] None []) session0) [y_py_; z_py] outs /\
  debug_session world2 files2 fs2 true text2 (Options None None [] None []) [y_py_; z_py] session0 = (out, Ok tt, z) /\ out = concat outs /\
  z_loaded z = [(u "rules", [u "/b"])] /\ List.length out = 8 /\ filter (fun s => match s with SEnabled _ => true | _ => false end) out = [SEnabled [u "rules:B"]; SEnabled [u "rules:B"]].
Proof.
  pose (o := Options None None [] None []). pose (sh := fun ps => debug_session world2 files2 fs2 true text2 o ps session0).
  exists [fst (fst (sh [y_py_])); fst (fst (sh [z_py]))], (fst (fst (sh [y_py_; z_py]))), (snd (sh [y_py_; z_py])).
  split.
  { intros p q c c' [<-|[<-|[]]] [<-|[<-|[]]] G G'; vm_compute in G, G'; injection G as <-; injection G' as <-; split; try reflexivity; right; reflexivity. }
  split; [constructor; [exists (snd (sh [y_py_])); vm_compute; reflexivity|constructor; [exists (snd (sh [z_py])); vm_compute; reflexivity|constructor]]|].
  split; [vm_compute; reflexivity|]. split; [vm_compute; reflexivity|]. split; [vm_compute; reflexivity|]. split; vm_compute; reflexivity.
Qed.
Example C108_lint_example : exists es z out z',
  run (in_session (system2 (u "rules") (u "rules")) [y_py_] false (Some (Options None None [] None [])) false session0) es (Returned z) /\ no_errors es /\
  (forall G, In G (looks es) -> G = fs2) /\ List.length (results es) = 2 /\
  debug_session world2 files2 fs2 true text2 (Options None None [] None []) ([y_py_] ++ [z_py]) session0 = (out, Ok tt, z').
Proof.
  pose (o := Options None None [] None []). pose (pl := play (in_session (system2 (u "rules") (u "rules")) [y_py_] false (Some o) false session0) (looking 2)).
  exists (fst pl), (Session [] [(u "rules", [u "/b"])] 0). do 2 eexists.
  split; [apply play_run with (l := looking 2); vm_compute; reflexivity|]. split; [apply no_errors_check; vm_compute; reflexivity|].
  split; [intros G I; vm_compute in I; intuition|]. split; vm_compute; reflexivity.
Qed.
