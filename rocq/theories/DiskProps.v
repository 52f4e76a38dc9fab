(** * C86: what is on the disk afterwards, if nobody else changes files *)
From Coq Require Import String List NArith ZArith Bool Arith Lia Permutation.
From Verif Require Import Base PyStr Ftypes Paths Config Collect CollectSpec CollectFacts CollectSelect CollectProps CollectTotal Suppress SuppressSpec
  SuppressProps Cst Engine EngineProps Batch BatchProps Api ApiSpec ApiFacts ApiProps ApiPaths System SystemSpec SystemProps SystemSame Session SessionSpec
  SessionFacts SessionProps Cli CliSpec CliFacts CliProps Commands CommandsSpec CommandsProps Jobs JobsSpec JobsProps FixSpec FixProps DiskSpec.
Import ListNotations.

(** ** leads *)

Lemma leads_app : forall a b F F', leads F (a ++ b) F' <-> exists G, leads F a G /\ leads G b F'.
Proof.
  induction a as [|e a IH]; intros b F F'; cbn [app].
  - split; [intro H; exists F; split; [constructor|exact H]|intros (G & A & B); inversion A; subst; exact B].
  - split.
    + intro H. inversion H as [|? ? ? H'|? ? ? ? ? H'|? ? ? ? ? ? ? H'|? ? ? ? Ne H']; subst; apply IH in H'; destruct H' as (G & A & B); exists G; split; auto.
      * now constructor.
      * now constructor.
      * econstructor; eauto.
      * now constructor.
    + intros (G & A & B). inversion A as [|? ? ? A'|? ? ? ? ? A'|? ? ? ? ? ? ? A'|? ? ? ? Ne A']; subst.
      * constructor. apply IH. eauto.
      * constructor. apply IH. eauto.
      * econstructor. apply IH. eauto.
      * constructor; auto. apply IH. eauto.
Qed.

Lemma leads_effects : forall es F F', leads F (api_effects es) F' <-> leads F es F'.
Proof.
  induction es as [|e es IH]; intros F F'; [reflexivity|]. destruct e; cbn [api_effects filter] in *; (split; intro H).
  - constructor; [exact Logic.I|]. now apply IH.
  - inversion H; subst. now apply IH.
  - inversion H; subst; [constructor; now apply IH|contradiction].
  - inversion H; subst; [constructor; now apply IH|contradiction].
  - inversion H; subst; [constructor; now apply IH|econstructor; apply IH; eauto|contradiction].
  - inversion H; subst; [constructor; now apply IH|econstructor; apply IH; eauto|contradiction].
  - inversion H; subst. constructor; auto. now apply IH.
  - inversion H; subst. constructor; auto. now apply IH.
  - inversion H; subst. constructor; auto. now apply IH.
  - inversion H; subst. constructor; auto. now apply IH.
  - constructor; [exact Logic.I|]. now apply IH.
  - inversion H; subst. now apply IH.
Qed.

Lemma leads_still : forall es F F', leads F es F' -> written es = [] -> F' = F /\ forall G, In G (looks es) -> G = F.
Proof.
  intros es F F' H. induction H as [F|F es F' H IH|F p c es F' H IH|F p c e x es F' H IH|F e es F' Ne H IH]; intro W.
  - split; [reflexivity|contradiction].
  - destruct (IH W) as [-> L]. split; auto. intros G [<-|I]; auto.
  - discriminate.
  - discriminate.
  - destruct e; try contradiction; apply IH in W; exact W.
Qed.

Lemma path_eqb_neq : forall p q, p <> q -> path_eqb p q = false.
Proof. intros p q H. destruct (path_eqb p q) eqn:E; auto. apply path_eqb_eq in E. contradiction. Qed.

(** Only the files written change, and no directory. *)
Lemma leads_others : forall es F F', leads F es F' ->
  (forall q, ~ In q (map fst (written es)) -> f_file F' q = f_file F q) /\ (forall q, f_isdir F' q = f_isdir F q).
Proof.
  intros es F F' H. induction H as [F|F es F' H IH|F p c es F' H IH|F p c e x es F' H IH|F e es F' Ne H IH].
  - auto.
  - exact IH.
  - destruct IH as [A B]. split; [|exact B]. cbn [written map fst]. intros q N. rewrite A by (intro I; apply N; simpl; auto). cbn [put f_file].
    rewrite path_eqb_neq; auto. intros ->. apply N. simpl. auto.
  - destruct IH as [A B]. split; [|exact B]. cbn [written map fst]. intros q N. rewrite A by (intro I; apply N; simpl; auto). cbn [put f_file].
    rewrite path_eqb_neq; auto. intros ->. apply N. simpl. auto.
  - destruct e; try contradiction; exact IH.
Qed.

(** ** One file *)

Lemma looks_app : forall a b, looks (a ++ b) = looks a ++ looks b.
Proof. intros. apply flat_map_app. Qed.

(** fixit_file looks at files before it writes, and writes nothing but its file. *)
Lemma file_leads : forall T p autofix opts hook es o F F', run (fixit_file T p autofix opts hook) es o -> leads F es F' ->
  (forall G, In G (looks es) -> G = F) /\
  (written es = [] /\ F' = F \/ exists c w, written es = [(p, c)] /\ (forall q c' w', In (EWrite q c' w') es -> w' = w) /\
    ((w = Ok tt /\ F' = put F p (Some c)) \/ exists e x, w = Err e /\ F' = put F p x)).
Proof.
  intros T p autofix opts hook es o F F' R L. destruct (C31_writes _ _ _ _ _ _ _ R) as (_ & _ & [W|W]).
  - destruct (leads_still _ _ _ L W) as [-> A]. auto.
  - destruct W as (Fa & content & F1 & cfg & es1 & c & w & es2 & acc & -> & _ & _ & _ & _ & _ & _ & _ & _ & _ & W1 & (W2 & _ & Oe)).
    change (ELook Fa :: ELook F1 :: es1 ++ EWrite p c w :: es2) with ((ELook Fa :: ELook F1 :: es1) ++ EWrite p c w :: es2) in *.
    apply leads_app in L. destruct L as (G & L1 & L2). destruct (leads_still _ _ _ L1) as [-> A]; [exact W1|].
    assert (L2' : (w = Ok tt /\ leads (put F p (Some c)) es2 F') \/ exists e x, w = Err e /\ leads (put F p x) es2 F').
    { inversion L2; subst; [left; auto|right; eauto|contradiction]. }
    assert (Lo2 : looks es2 = []). { destruct w as [[]|e]; [now rewrite Oe|]. destruct Oe as [->|(a & ->)]; reflexivity. }
    split; [|right].
    + intros G I. rewrite looks_app in I. apply in_app_iff in I. destruct I as [I|I]; [now apply A|]. cbn [looks flat_map app] in I. fold (looks es2) in I. rewrite Lo2 in I. contradiction.
    + exists c, w. split; [rewrite written_app; cbn [written app]; now rewrite W1, W2|]. split.
      { assert (No : forall l q c' w', written l = [] -> ~ In (EWrite q c' w') l).
        { clear. induction l as [|e l IH]; intros q c' w' W; [intros []|]. destruct e; cbn [written] in W; try discriminate; intros [I|I]; try discriminate; eapply IH; eauto. }
        intros q c' w' I. apply in_app_iff in I. destruct I as [I|[I|I]]; [|congruence|].
        - exfalso. apply (No (ELook Fa :: ELook F1 :: es1) q c' w'); auto.
        - exfalso. apply (No es2 q c' w'); auto. }
      destruct L2' as [(-> & L2')|(e & x & -> & L2')]; destruct (leads_still _ _ _ L2' W2) as [-> _]; eauto.
Qed.

Lemma told_from : forall Y p opts autofix hook es F F' old, (forall G, fair_sets (y_world Y G)) ->
  run (fixit_file (tool_of Y) p autofix opts hook) es (Returned tt) -> no_errors es -> leads F es F' -> f_file F p = Some old ->
  (autofix = true \/ proper true (given es)) ->
  exists new, f_file F' p = Some new /\
    comes_from Y F p opts (violations (results es)) (if autofix then violations (results es) else chosen es) old new.
Proof.
  intros Y p opts autofix hook es F F' old Fa R Ne L Eo Pr. destruct (file_leads _ _ _ _ _ _ _ _ _ R L) as [Lk Wr].
  destruct (C78_exactly _ _ _ _ _ _ Fa R Ne) as (Fa0 & content & F1 & cfg & F2 & es' & ks & E & Ef & Eg & Nd & Sel & X).
  destruct (C31_done _ _ _ _ _ _ R Ne) as (F0' & content' & F1' & cfg' & F2' & rest & E' & Ef' & Eg' & D). rewrite E in E'. injection E' as <- <- <- <-.
  assert (content' = content) as -> by congruence. cbn [tool_of t_env] in Eg'. assert (cfg' = cfg) as -> by congruence. clear Ef' Eg'.
  assert (Fa0 = F) as -> by (apply Lk; rewrite E; simpl; auto). assert (F1 = F) as -> by (apply Lk; rewrite E; simpl; auto).
  assert (F2 = F) as -> by (apply Lk; rewrite E; simpl; auto). assert (content = old) as -> by congruence.
  assert (Ac : accepted autofix (given es) = if autofix then violations (results es) else chosen es).
  { destruct autofix; [apply accepted_all|]. destruct Pr as [X0|Pr]; [discriminate|]. now apply chosen_accepted. }
  rewrite Ac in D. set (acc := if autofix then violations (results es) else chosen es) in *.
  assert (Same : written es = [] -> f_file F' p = Some old). { intro W. destruct Wr as [[_ ->]|(c & w & W' & _)]; [exact Eo|congruence]. }
  destruct X as [[-> V]|(md & M & parts & Ep & Ew & Hp & V & Sf)].
  - assert (acc = []) as Ea.
    { subst acc. destruct autofix; auto. destruct (chosen es) as [|v vs] eqn:Ch; auto. exfalso.
      assert (I : In v (accepted false (given es))) by (rewrite Ac; simpl; auto).
      unfold accepted in I. apply in_flat_map in I. destruct I as ([x a] & I & J). cbn [fst snd] in J.
      enough (In v (violations (results es))) by (rewrite V in *; contradiction). apply in_violations. exists x.
      split; [unfold results; apply in_map_iff; exists (x, a); auto|]. destruct (x_violation x) as [y|]; [|contradiction].
      destruct a as [[|]|]; try contradiction. destruct J as [->|[]]; reflexivity. }
    rewrite Ea in D. destruct D as [[_ D]|[D _]]; [|congruence]. exists old. split; auto. exists cfg. split; auto. left. split; auto. intros k S. now apply Sel in S.
  - destruct D as [[Ea D]|(Na & F3 & c & I3 & Fx & D)].
    + exists old. split; auto. exists cfg. split; auto. right. exists md, M. split; auto. split; auto. split; [exists ks, parts; rewrite V; auto|auto].
    + assert (F3 = F) as ->. { apply Lk. rewrite E. cbn [looks flat_map app]. right. right. right. apply in_flat_map. exists (ELook F3). simpl. auto. }
      unfold fixed_content in Fx. cbn [tool_of t_parse t_bytes t_style] in Fx. apply bind_ok in Fx. destruct Fx as (md0 & Ep0 & Fx). assert (md0 = md) as -> by congruence.
      apply bind_ok in Fx. destruct Fx as (up & Eap & Fx). destruct up as [md'|]; [|discriminate].
      assert (Fm : formatted Y F cfg p md' c).
      { unfold formatted. destruct (c_formatter cfg) as [style|]; [|eauto].
        destruct (y_style Y style) as [fmt|] eqn:Es; [|discriminate]. apply bind_ok in Fx. destruct Fx as (b0 & Eb & Fx). eauto. }
      assert (Ac' : all_complaints Y F cfg p md M (violations (results es))) by (exists ks, parts; rewrite V; auto).
      destruct D as [(Cc & D)|(N1 & N2 & D & Iw)].
      * exists old. split; auto. exists cfg. split; auto. right. exists md, M. split; auto. split; auto. split; auto. right. split; auto. exists md', c. split; auto. split; auto.
        destruct Cc as [->|Cc]; [|auto]. destruct old; [left; auto|right; split; [discriminate|auto]].
      * exists c. split.
        { destruct Wr as [[W' _]|(c' & w & W' & Iw' & [(_ & ->)|(e & x & -> & _)])]; [congruence| |].
          - assert (c' = c) as -> by congruence. cbn [put f_file]. now rewrite path_eqb_refl.
          - apply Iw' in Iw. discriminate. }
        exists cfg. split; auto. right. exists md, M. split; auto. split; auto. split; auto. right. split; auto. exists md', c. auto.
Qed.

(** ** Files one after the other *)

Lemma visits_written : forall Y autofix opts hook z ps l, visits Y autofix opts hook z ps l -> forall q, In q (map fst (written (concat (map snd l)))) -> In q ps.
Proof.
  intros Y autofix opts hook z ps l H. induction H as [z|z p es ps l R _ IH]; intros q I; [contradiction|]. cbn [map snd concat] in I.
  rewrite written_app, map_app in I. apply in_app_iff in I. destruct I as [I|I]; [|right; now apply IH]. left.
  destruct (C31_writes _ _ _ _ _ _ _ R) as (_ & _ & [W|W]); [rewrite W in I; contradiction|].
  destruct W as (F & content & F1 & cfg & es1 & c & w & es2 & acc & -> & _ & _ & _ & _ & _ & _ & _ & _ & _ & W1 & (W2 & _)).
  cbn [written] in I. rewrite written_app, W1 in I. cbn [written app] in I. rewrite W2 in I. destruct I as [I|[]]. exact I.
Qed.

Definition differ_only (ps : list path) (F G : fs) : Prop :=
  (forall q, f_file G q <> f_file F q -> In q ps) /\ forall q, f_isdir G q = f_isdir F q.

Lemma visits_disk : forall Y autofix opts hook z ps l, visits Y autofix opts hook z ps l -> forall F F', leads F (concat (map snd l)) F' -> NoDup ps ->
  forall p zp es, In (p, (zp, es)) (combine ps l) ->
  exists G G', leads G es G' /\ f_file G p = f_file F p /\ f_file F' p = f_file G' p /\
    (forall q, f_file G q <> f_file F q -> In q ps /\ q <> p) /\ (forall q, f_isdir G q = f_isdir F q).
Proof.
  intros Y autofix opts hook z ps l H. induction H as [z|z p es ps l R V IH]; intros F F' L Nd q zq eq_ I; [contradiction|].
  cbn [map snd concat] in L. apply leads_app in L. destruct L as (G1 & L1 & L2). inversion Nd as [|? ? Np Nd']; subst.
  cbn [combine] in I. destruct I as [I|I].
  - injection I as <- <- <-. exists F, G1. split; auto. split; auto. split; [|split; auto; intros q0 X; now contradiction X].
    apply (leads_others _ _ _ L2). intro X. apply Np. eapply visits_written; eauto.
  - destruct (IH _ _ L2 Nd' _ _ _ I) as (G & G' & A1 & A2 & A3 & A4 & A5).
    assert (Iq : In q ps) by (apply in_combine_l in I; exact I). assert (Nq : q <> p) by (intros ->; contradiction).
    destruct (leads_others _ _ _ L1) as [O1 O2].
    assert (O3 : forall x, x <> p -> f_file G1 x = f_file F x).
    { intros x Nx. apply O1. intro X. apply Nx. destruct (visits_written Y autofix opts hook z [p] [(z, es)]) with (q := x) as [E|[]]; auto.
      - constructor; [exact R|constructor].
      - cbn [map snd concat]. now rewrite app_nil_r. }
    exists G, G'. split; auto. split; [rewrite A2; now apply O3|]. split; auto. split; [|intro x; now rewrite A5].
    intros x Dx. destruct (list_eq_dec (list_eq_dec N.eq_dec) x p) as [->|Nx]; [split; [left; reflexivity|auto]|]. rewrite <- (O3 x Nx) in Dx. destruct (A4 x Dx). split; [right|]; auto.
Qed.

(** The configuration of a file depends on configuration files only. *)
Lemma resolve_last : forall d n, n <> u ".." -> resolve (d ++ [n]) = resolve d ++ [n].
Proof. intros d n N. unfold resolve. rewrite fold_left_app. cbn [fold_left]. apply str_eqb_neq in N. now rewrite N. Qed.

Lemma config_same : forall E F G p opts, (forall q, f_isdir G q = f_isdir F q) -> (forall q, is_config opts q -> f_file G q = f_file F q) ->
  generate_config E G p None opts = generate_config E F p None opts.
Proof.
  intros E F G p opts Di Cf. unfold generate_config.
  assert (Fn : forall n d, In n config_filenames -> f_file G (d ++ [n]) = f_file F (d ++ [n])).
  { intros n d I. apply Cf. left. exists d, n. auto. }
  assert (Lo : forall root r, locate_loop G root r = locate_loop F root r).
  { intro root. induction r as [|x r IH]; cbn [locate_loop].
    - f_equal. apply filter_ext_in. intros q I. apply in_map_iff in I. destruct I as (n & <- & I). unfold is_file. now rewrite Fn.
    - rewrite IH. f_equal. apply filter_ext_in. intros q I. apply in_map_iff in I. destruct I as (n & <- & I). unfold is_file. now rewrite Fn. }
  assert (Lc : locate_configs G (resolve p) None = locate_configs F (resolve p) None) by (unfold locate_configs; now rewrite Di, Lo).
  assert (Rd : forall l, (forall q, In q l -> f_file G (resolve q) = f_file F (resolve q)) -> read_configs E G l = read_configs E F l).
  { induction l as [|q l IH]; intro H; [reflexivity|]. cbn [read_configs]. rewrite H by (simpl; auto). destruct (f_file F (resolve q)); [|reflexivity].
    rewrite IH by (intros x I; apply H; simpl; auto). reflexivity. }
  assert (Lq : forall root r q, In q (locate_loop F root r) -> exists d n, q = d ++ [n] /\ In n config_filenames).
  { intro root. induction r as [|x r IH]; intros q I; cbn [locate_loop] in I; apply in_app_iff in I.
    - destruct I as [I|[]]. apply filter_In in I. destruct I as [I _]. apply in_map_iff in I. destruct I as (n & <- & I). eauto.
    - destruct I as [I|I].
      + apply filter_In in I. destruct I as [I _]. apply in_map_iff in I. destruct I as (n & <- & I). eauto.
      + destruct (path_eqb _ root); [contradiction|]. eauto. }
  assert (Rl : forall l, locate_configs F (resolve p) None = Ok l -> read_configs E G l = read_configs E F l).
  { intros l H. apply Rd. intros q I. unfold locate_configs in H. destruct (is_prefix _ _); [|discriminate]. injection H as <-. apply Lq in I.
    destruct I as (d & n & -> & I). rewrite resolve_last; [now apply Fn|]. intros ->. repeat (destruct I as [I|I]; [discriminate|]). contradiction. }
  destruct opts as [o|]; [destruct (o_config_file o) as [f|] eqn:Ef|].
  - cbn [bind]. rewrite (Rd [f]); [reflexivity|]. intros q [<-|[]]. apply Cf. right. exists o, f. auto.
  - rewrite Lc. destruct (locate_configs F (resolve p) None) as [l|e] eqn:El; [|reflexivity]. cbn [bind]. now rewrite (Rl l eq_refl).
  - rewrite Lc. destruct (locate_configs F (resolve p) None) as [l|e] eqn:El; [|reflexivity]. cbn [bind]. now rewrite (Rl l eq_refl).
Qed.

(** ** Fixing files *)

Lemma fix_visits : forall K Y d opts m interactive diff paths z vs code,
  first_is_dash paths = false -> crun (whole_fix K Y d opts m interactive diff paths z) vs (Returned code) -> ~ In (Some Quit) (asked vs) ->
  exists F0 F ps l,
    make_plan (y_walk Y F) d false (match paths with [] => [PathArg (k_cwd K)] | _ => paths end) = Ok (Some (Serial ps)) /\
    visits Y (negb interactive) (Some opts) m z ps l /\ effects vs = ELook F0 :: ELook F :: api_effects (concat (map snd l)) /\
    proper interactive (given (concat (map snd l))) /\ asked vs = answers interactive (given (concat (map snd l))) /\
    exists cfg s, generate_config (y_env Y) F0 (k_cwd K) None (Some opts) = Ok cfg /\ lines vs = screen K (interactive || diff) Std cfg (concat (map snd l)) ++ [s].
Proof.
  intros K Y d opts m interactive diff paths z vs code Da H Q. unfold whole_fix in H. cbv zeta in H. rewrite (or_cwd_dash K _ Da) in H. cbn [negb] in H.
  rewrite andb_true_r in H.
  inversion H as [| | | | |? F0 vs' ? H'| | |]; subst. destruct (generate_config _ _ _ _ _) as [cfg|e] eqn:G; [|inversion H'].
  change no_tally with (fix_state interactive []) in H'.
  apply (fix_sim K interactive diff false cfg (whole_paths Y d (or_cwd K paths) (negb interactive) (Some opts) m z)) in H'. destruct H' as (es & oa & rest & R & Ef & A & Pr & O).
  cbv zeta in O. cbn [asked flat_map app] in Q. fold (asked vs') in Q.
  destruct O as (-> & [(-> & -> & L)|(-> & _)]); [|exfalso; apply Q; rewrite A; apply in_or_app; simpl; auto]. rewrite app_nil_r in A.
  unfold whole_paths in R. inversion R as [| | | |? F es' ? R'| | | |]; subst. apply run_lift in R'.
  destruct (make_plan (y_walk Y F) d false (or_cwd K paths)) as [pl|e] eqn:P; [|destruct R' as [_ [X|X]]; discriminate].
  destruct (serial_plan _ _ _ _ _ Da P) as (ps & ->).
  apply run_pbind in R'. destruct R' as [[X _]|[(e & X & _)|(es1 & es2 & z' & -> & R1 & R2)]]; try discriminate. inversion R2; subst. rewrite app_nil_r in *.
  apply session_visits in R1. destruct R1 as (l & Vi & ->). exists F0, F, ps, l. split; [exact P|]. split; auto. split; [cbn [effects flat_map app]; f_equal; exact Ef|]. split; auto. split; auto.
  exists cfg. eexists. split; [exact G|]. cbn [lines flat_map app]. fold (lines vs'). rewrite L. reflexivity.
Qed.

Lemma leads_two : forall F0 F1 es F F', leads F (ELook F0 :: ELook F1 :: es) F' -> F0 = F /\ F1 = F /\ leads F es F'.
Proof.
  intros F0 F1 es F F' H. inversion H as [|? ? ? H'| | |? ? ? ? X]; subst; [|contradiction]. inversion H' as [|? ? ? H2| | |? ? ? ? X]; subst; [|contradiction]. auto.
Qed.

(** [fixit fix] of files, run to its end without quitting, while nobody else changes files: all other files are as before, and a file for which
    no error is reported has the content that comes from the old one by applying the fixes (interactively: the chosen ones). *)
Theorem C86_fix : forall K Y d opts m interactive diff paths z vs code F F',
  (forall G, fair_sets (y_world Y G)) -> first_is_dash paths = false ->
  crun (whole_fix K Y d opts m interactive diff paths z) vs (Returned code) -> ~ In (Some Quit) (asked vs) -> leads F (effects vs) F' ->
  exists ps l,
    make_plan (y_walk Y F) d false (match paths with [] => [PathArg (k_cwd K)] | _ => paths end) = Ok (Some (Serial ps)) /\
    visits Y (negb interactive) (Some opts) m z ps l /\ (interactive = true -> asked vs = flat_map (fun v => questions (snd v)) l) /\
    (forall q, f_file F' q <> f_file F q -> In q ps) /\ (forall q, f_isdir F' q = f_isdir F q) /\
    (NoDup ps -> forall p zp es, In (p, (zp, es)) (combine ps l) -> no_errors es ->
       exists G old new, f_file F p = Some old /\ f_file F' p = Some new /\
         (forall q, f_file G q <> f_file F q -> In q ps /\ q <> p) /\
         ((forall q, In q ps -> ~ is_config (Some opts) q) -> generate_config (y_env Y) G p None (Some opts) = generate_config (y_env Y) F p None (Some opts)) /\
         comes_from (system_at Y zp) G p (Some opts) (violations (results es)) (if interactive then chosen es else violations (results es)) old new).
Proof.
  intros K Y d opts m interactive diff paths z vs code F F' Fa Da H Q L.
  destruct (fix_visits _ _ _ _ _ _ _ _ _ _ _ Da H Q) as (F0 & F1 & ps & l & P & Vi & Ef & Pr & As & _). rewrite Ef in L. apply leads_two in L. destruct L as (-> & -> & L).
  apply (proj1 (leads_effects _ _ _)) in L. destruct (leads_others _ _ _ L) as [O1 O2]. exists ps, l. split; auto. split; auto. split; [|split; [|split; [exact O2|]]].
  - intros ->. rewrite As, answers_questions. apply questions_all.
  - intros q D. destruct (in_dec (list_eq_dec (list_eq_dec N.eq_dec)) q (map fst (written (concat (map snd l))))) as [I|I]; [eapply visits_written; eauto|].
    now apply O1 in I.
  - intros Nd p zp es I Ne. destruct (visits_disk _ _ _ _ _ _ _ Vi _ _ L Nd _ _ _ I) as (G & G' & A1 & A2 & A3 & A4 & A5).
    destruct (visits_part _ _ _ _ _ _ _ Vi _ _ _ I) as (R & _).
    assert (exists old, f_file G p = Some old) as (old & Eo).
    { destruct (C78_exactly _ _ _ _ _ _ (fair_at Y Fa zp) R Ne) as (Fx & content & F1x & cfg & F2x & es' & ks & E & Efx & _).
      destruct (file_leads _ _ _ _ _ _ _ _ _ R A1) as [Lk _]. assert (Fx = G) as -> by (apply Lk; rewrite E; simpl; auto). eauto. }
    assert (Pp : negb interactive = true \/ proper true (given es)).
    { destruct interactive; [right|auto]. intros x a Ix. apply Pr. clear - I Ix. induction l as [|v l IH] in ps, I |- *; [destruct ps; contradiction|].
      destruct ps as [|q ps]; [contradiction|]. cbn [combine] in I. cbn [map concat]. rewrite given_app. apply in_or_app. destruct I as [I|I]; [left; injection I as _ ->; exact Ix|right; eapply IH; eauto]. }
    destruct (told_from _ _ _ _ _ _ _ _ _ (fair_at Y Fa zp) R Ne A1 Eo Pp) as (new & En & C).
    exists G, old, new. split; [congruence|]. split; [congruence|]. split; auto. split.
    + intro Nc. apply config_same; auto. intros q Cq. destruct (f_file G q) as [a|] eqn:E1, (f_file F q) as [b|] eqn:E2; auto.
      * destruct (list_eq_dec N.eq_dec a b) as [->|Ne_]; auto. destruct (Nc q); auto. apply A4. congruence.
      * destruct (Nc q); auto. apply A4. congruence.
      * destruct (Nc q); auto. apply A4. congruence.
    + destruct interactive; exact C.
Qed.

(** Whatever happens (answers, errors, quitting, the process dying anywhere): only files named, or in a directory named, change. *)
Theorem C86_others : forall K Y d opts m interactive diff paths z vs o F F',
  crun (whole_fix K Y d opts m interactive diff paths z) vs o -> leads F (effects vs) F' ->
  (forall q, f_isdir F' q = f_isdir F q) /\
  forall q, f_file F' q <> f_file F q -> exists ps,
    make_plan (y_walk Y F) d false (match paths with [] => [PathArg (k_cwd K)] | _ => paths end) = Ok (Some (Serial ps)) /\ In q ps.
Proof.
  intros K Y d opts m interactive diff paths z vs o F F' H L. destruct (leads_others _ _ _ L) as [O1 O2]. split; [exact O2|]. intros q Dq.
  unfold whole_fix in H. cbv zeta in H. inversion H as [| | | | |? F0 vs' ? H'| | |]; subst; [inversion L; subst; now contradiction Dq|].
  destruct (generate_config _ _ _ _ _) as [cfg|e] eqn:G; [|inversion H'; subst; cbn in O1; rewrite O1 in Dq by auto; now contradiction Dq].
  set (i := interactive && negb (first_is_dash (or_cwd K paths))) in *. change no_tally with (fix_state i []) in H'.
  apply (fix_sim K i diff _ cfg (whole_paths Y d (or_cwd K paths) (negb i) (Some opts) m z)) in H'. destruct H' as (es & oa & rest & R & Ef & _ & _ & _).
  assert (Iq : In q (map fst (written es))).
  { destruct (in_dec (list_eq_dec (list_eq_dec N.eq_dec)) q (map fst (written es))) as [I|I]; auto. exfalso. apply Dq, O1. intro X. apply I.
    cbn [effects flat_map app] in X. fold (effects vs') in X. rewrite Ef in X. cbn [written] in X. clear - X. induction es as [|[] es IH]; cbn [api_effects filter written map] in *; auto.
    destruct X as [X|X]; [left|right]; auto. }
  unfold whole_paths in R. inversion R as [| | | |? F1 es' ? R'| | | |]; subst; [contradiction|]. cbn [written] in Iq. apply run_lift in R'.
  cbn [effects flat_map app] in L. fold (effects vs') in L. rewrite Ef in L. cbn [api_effects filter] in L. apply leads_two in L. destruct L as (-> & -> & _).
  destruct (make_plan (y_walk Y F) d false (or_cwd K paths)) as [pl|e] eqn:P; [|destruct R' as [-> _]; contradiction].
  assert (S : forall ps, run (pbind (in_session Y ps (negb i) (Some opts) m z) (fun _ => Ret tt)) es' oa -> In q ps).
  { intros ps S. assert (S' : exists o1, run (in_session Y ps (negb i) (Some opts) m z) es' o1).
    { apply run_pbind in S. destruct S as [[_ S]|[(e & _ & S)|(es1 & es2 & z' & -> & S & S2)]]; eauto.
      exists (Returned z'). inversion S2; subst; now rewrite app_nil_r. }
    destruct S' as (o1 & S'). apply session_parts in S'. destruct S' as (l & -> & Fo). clear - Fo Iq. rewrite Forall_forall in Fo.
    assert (exists v, In v l /\ In q (map fst (written (snd v)))) as ([[p zp] ep] & Il & Iv).
    { clear - Iq. induction l as [|v l IH]; [contradiction|]. cbn [map concat] in Iq. rewrite written_app, map_app in Iq. apply in_app_iff in Iq.
      destruct Iq as [X|X]; [exists v; simpl; auto|]. destruct (IH X) as (w & A & B). exists w. simpl. auto. }
    destruct (Fo _ Il) as (Ip & o' & Rp). cbn [fst snd] in *. destruct (C31_writes _ _ _ _ _ _ _ Rp) as (_ & _ & [W|W]); [rewrite W in Iv; contradiction|].
    destruct W as (Fx & content & F1 & cfg & es1 & c & w & es2 & acc & -> & _ & _ & _ & _ & _ & _ & _ & _ & _ & W1 & (W2 & _)).
    cbn [written] in Iv. rewrite written_app, W1 in Iv. cbn [written app] in Iv. rewrite W2 in Iv. destruct Iv as [<-|[]]. exact Ip. }
  destruct pl as [[p|ps|ps]|].
  - apply C32_stdin in R'. destruct R' as (_ & W & _). rewrite W in Iq. contradiction.
  - exists ps. split; [exact P|]. now apply S.
  - exfalso. unfold make_plan in P. destruct (or_cwd K paths); [discriminate|]. apply bind_ok in P. destruct P as (s & _ & P). injection P as P.
    destruct (a_stdin s); [discriminate|]. rewrite orb_true_r in P. discriminate.
  - inversion R'; subst; contradiction.
Qed.

(** Lint changes nothing. *)
Theorem C86_lint : forall K Y d opts m diff paths z vs o F F',
  crun (whole_lint K Y d opts m diff paths z) vs o -> leads F (effects vs) F' -> F' = F /\ forall G, In (ELook G) (effects vs) -> G = F.
Proof.
  intros K Y d opts m diff paths z vs o F F' H L. destruct (C80_readonly _ _ _ _ _ _ _ _ _ _ H) as [S _].
  assert (W : written (effects vs) = []).
  { clear - S. induction vs as [|[] vs IH]; cbn [effects flat_map app written saved] in *; auto; discriminate. }
  destruct (leads_still _ _ _ L W) as [-> A]. split; auto. intros G I. apply A. unfold looks. apply in_flat_map. exists (ELook G). simpl. auto.
Qed.

(** ** Nothing to fix where lint has nothing to say *)

Opaque fixit_bytes.
Lemma three_looks : forall T p autofix opts hook es F content cfg, run (fixit_file T p autofix opts hook) es (Returned tt) ->
  (forall G, In G (looks es) -> G = F) -> f_file F p = Some content -> generate_config (t_env T) F p None opts = Ok cfg -> exists rest, looks es = F :: F :: F :: rest.
Proof.
  intros T p autofix opts hook es F content cfg H Lk Ef Eg. unfold fixit_file in H. 
  assert (B : forall es o, (forall G, In G (looks es) -> G = F) -> o <> Stopped ->
    run (Look (fun F => match f_file F p with None => Raise OSError | Some content => Look (fun F => lift (generate_config (t_env T) F p None opts) (fun cfg =>
       pbind (fixit_bytes T p content cfg autofix hook) (fun updated =>
         match updated with Some ((_ :: _) as c) => if negb (str_eqb c content) then Write p c (fun o => lift o (fun _ => Ret tt)) else Ret tt | _ => Ret tt end))) end)) es o ->
    exists rest, looks es = F :: F :: F :: rest).
  { clear es H Lk. intros es o Lk So H. inversion H as [| | | |? F0 es' ? H'| | | |]; subst; [contradiction|]. assert (F0 = F) as -> by (apply Lk; simpl; auto). rewrite Ef in H'.
    inversion H' as [| | | |? F1 es1 ? H1| | | |]; subst; [contradiction|]. assert (F1 = F) as -> by (apply Lk; simpl; auto). rewrite Eg in H1. cbn [lift] in H1.
    assert (X : forall es2 r, run (fixit_bytes T p content cfg autofix hook) es2 (Returned r) -> exists F2 rest, es2 = ELook F2 :: rest).
    { intros es2 r R. apply bytes_run in R. destruct R as [_ [[_ X]|(F2 & rest & -> & _)]]; [discriminate|eauto]. }
    apply run_pbind in H1. destruct H1 as [[X0 _]|[(e & X0 & R)|(es2 & es3 & r & -> & R & _)]]; [contradiction| |].
    - apply bytes_run in R. destruct R as [_ [[_ X1]|(F2 & rest & -> & R)]]; [discriminate|]. destruct (lint_of _ _ _ _ _). contradiction.
    - destruct (X _ _ R) as (F2 & rest & ->). cbn [looks flat_map app] in *. assert (F2 = F) as -> by (apply Lk; simpl; auto). eauto. }
  apply run_catch in H. destruct H as [[X _]|[([] & _ & H)|(es1 & es2 & e & -> & H1 & H2)]]; [discriminate| |].
  - eapply B; eauto. discriminate.
  - destruct (B es1 (Raised e)) as (rest & E); auto; [|discriminate|].
    + intros G I. apply Lk. rewrite looks_app. apply in_or_app. auto.
    + rewrite looks_app, E. cbn [app]. eauto.
Qed.

(** A file that is fine on a disk: fixing it changes nothing. *)
Lemma fine_untouched : forall Y p opts es0 F autofix hook es o F', (forall G, fair_sets (y_world Y G)) ->
  fine Y p opts es0 -> (forall G, In G (looks es0) -> G = F) ->
  run (fixit_file (tool_of Y) p autofix opts hook) es o -> leads F es F' ->
  violations (results es) = [] /\ written es = [] /\ F' = F /\ (o = Returned tt -> forall Y0, after_file Y0 p opts (looks es) = after_file Y0 p opts (looks es0)).
Proof.
  intros Y p opts es0 F autofix hook es o F' Fa (Fa0 & F1 & F2 & rest & content & cfg & r & Lk0 & Ef & Eg & Ec & Q) Lo R L.
  assert (Fa0 = F) as -> by (apply Lo; rewrite Lk0; simpl; auto). assert (F1 = F) as -> by (apply Lo; rewrite Lk0; simpl; auto).
  assert (F2 = F) as -> by (apply Lo; rewrite Lk0; simpl; auto). destruct (file_leads _ _ _ _ _ _ _ _ _ R L) as [Lk Wr].
  assert (Nl : forall md M k x, y_parse Y content = Ok md -> y_wrap Y md = Ok M -> selected Y F cfg k -> ~ loud Y F md M k x).
  { intros md M k x Ep Ew S. destruct Q as [Q|(md' & M' & Ep' & Ew' & Q)]; [destruct (Q k S)|]. assert (md' = md) as -> by congruence. assert (M' = M) as -> by congruence. now apply Q. }
  assert (V : violations (results es) = []).
  { destruct (violations (results es)) as [|v vs] eqn:E; auto. exfalso.
    destruct (C78_sound Y p autofix opts hook es o v Fa R) as (G & c' & G1 & cfg' & G2 & es' & md & M & k & x & -> & Ef' & Eg' & S & Ep & Ew & Lou & _); [rewrite E; simpl; auto|].
    assert (G = F) as -> by (apply Lk; simpl; auto). assert (G1 = F) as -> by (apply Lk; simpl; auto). assert (G2 = F) as -> by (apply Lk; simpl; auto).
    assert (c' = content) as -> by congruence. assert (cfg' = cfg) as -> by congruence. now apply (Nl md M k x). }
  assert (W : written es = []).
  { destruct (written es) as [|[q c] ws] eqn:E; auto. exfalso.
    destruct (C78_written Y p autofix opts hook es o q c Fa R) as (-> & G & c' & G1 & cfg' & G2 & G3 & es' & md & M & vs & md' & b & -> & Ef' & Eg' & Ep & Ew & Nn & Ju & _); [rewrite E; simpl; auto|].
    assert (G = F) as -> by (apply Lk; simpl; auto). assert (G1 = F) as -> by (apply Lk; simpl; auto). assert (G2 = F) as -> by (apply Lk; simpl; auto).
    assert (c' = content) as -> by congruence. assert (cfg' = cfg) as -> by congruence. destruct vs as [|v vs]; [congruence|].
    destruct (Ju v) as (k & x & S & Lou & _); [simpl; auto|]. now apply (Nl md M k x). }
  split; auto. split; auto. destruct (leads_still _ _ _ L W) as [-> _]. split; auto. intros -> Y0.
  destruct (three_looks _ _ _ _ _ _ _ _ _ R Lk Ef Eg) as (rest' & E). rewrite E, Lk0. reflexivity.
Qed.

Lemma fine_session : forall Y opts hook hook' autofix, (forall G, fair_sets (y_world Y G)) -> forall z ps l, visits Y false opts hook z ps l ->
  Forall2 (fun p (v : session * list ev) => fine (system_at Y (fst v)) p opts (snd v)) ps l -> forall F, (forall G, In G (looks (concat (map snd l))) -> G = F) ->
  forall es o F', run (in_session Y ps autofix opts hook' z) es o -> leads F es F' -> violations (results es) = [] /\ written es = [] /\ F' = F.
Proof.
  intros Y opts hook hook' autofix Fa z ps l H. induction H as [z|z p es0 ps l R0 V IH]; intros Fi F Lo es o F' R L.
  - inversion R; subst; inversion L; auto.
  - inversion Fi as [|? ? ? ? Fp Fi']; subst. cbn [fst snd] in Fp. cbn [map snd concat] in Lo. rewrite looks_app in Lo. cbn [in_session] in R.
    assert (Lo0 : forall G, In G (looks es0) -> G = F) by (intros G I; apply Lo, in_or_app; auto).
    assert (One : forall es1 o1 F1, run (fixit_file (tool_of (system_at Y z)) p autofix opts hook') es1 o1 -> leads F es1 F1 ->
      violations (results es1) = [] /\ written es1 = [] /\ F1 = F /\ (o1 = Returned tt -> forall Y0, after_file Y0 p opts (looks es1) = after_file Y0 p opts (looks es0))).
    { intros es1 o1 F1 R1 L1. exact (fine_untouched _ _ _ _ _ _ _ _ _ _ (fair_at Y Fa z) Fp Lo0 R1 L1). }
    apply run_pbind in R. destruct R as [[-> R]|[(e & -> & R)|(es1 & es2 & [[] seen] & -> & R1 & R2)]].
    + apply track_run in R. destruct (One _ _ _ R L) as (A & B & C & _). auto.
    + apply track_run in R. destruct (One _ _ _ R L) as (A & B & C & _). auto.
    + apply track_run in R1. destruct R1 as [R1 ->]. cbn [app snd] in R2. apply leads_app in L. destruct L as (G & L1 & L2).
      destruct (One _ _ _ R1 L1) as (A & B & -> & D). rewrite (D eq_refl Y) in R2.
      destruct (IH Fi' F (fun G I => Lo G (in_or_app _ _ _ (or_intror I))) _ _ _ R2 L2) as (A2 & B2 & ->).
      rewrite written_app, results_app, B, B2. unfold violations in *. rewrite flat_map_app, A, A2. auto.
Qed.

(** A question is about a fixable result. *)
Lemma fix_asks : forall K diff st cfg g t vs o, crun (fix_loop K true diff st cfg g t) vs o -> asked vs <> [] ->
  exists es x rest, run g (es ++ [EGive x None]) Stopped /\ fixable x = true /\ effects vs = api_effects es ++ rest.
Proof.
  intros K diff st cfg g. induction g as [r|e|x k IH|k IH|q c k IH|k IH|c k IH|m k IH]; intros t vs o H Q; cbn [fix_loop] in H.
  - unfold fix_end in H. apply run_print_all in H. destruct H as [(_ & l1 & l2 & _ & ->)|(vs' & -> & H)].
    + rewrite asked_prints in Q. contradiction.
    + rewrite asked_app, asked_prints in Q. inversion H; subst; contradiction.
  - inversion H; subst; contradiction.
  - destruct (print_result K x (true || diff) st (c_format cfg) (c_template cfg)) as [[ls b]|e] eqn:P; [|inversion H; subst; contradiction].
    apply run_print_all in H. destruct H as [(_ & l1 & l2 & _ & ->)|(vs' & -> & H)].
    { rewrite asked_prints in Q. contradiction. }
    rewrite asked_app, asked_prints in Q. rewrite effects_app, effects_prints. cbn [app andb] in *. destruct (is_fixable x) eqn:Fx.
    + exists [], x, (effects vs'). split; [constructor; constructor|]. split; [exact Fx|reflexivity].
    + destruct (IH None _ _ _ H Q) as (es & x0 & rest & R & F0 & E). exists (EGive x None :: es), x0, rest. cbn [app]. split; [now constructor|]. split; auto.
  - inversion H as [| | | | |? F vs' ? H'| | |]; subst; [contradiction|]. destruct (IH F _ _ _ H' Q) as (es & x0 & rest & R & F0 & E).
    exists (ELook F :: es), x0, rest. cbn [app]. split; [now constructor|]. split; auto. cbn [effects flat_map app api_effects filter]. fold (effects vs'). now rewrite E.
  - inversion H as [| | | | | |? ? ? ww vs' ? H'| |]; subst; [contradiction|]. destruct (IH ww _ _ _ H' Q) as (es & x0 & rest & R & F0 & E).
    exists (EWrite q c ww :: es), x0, rest. cbn [app]. split; [now constructor|]. split; auto. cbn [effects flat_map app api_effects filter]. fold (effects vs'). now rewrite E.
  - inversion H as [| | | | | | |? i vs' ? H'|]; subst; [contradiction|]. destruct (IH i _ _ _ H' Q) as (es & x0 & rest & R & F0 & E).
    exists (EIn i :: es), x0, rest. cbn [app]. split; [now constructor|]. split; auto. cbn [effects flat_map app api_effects filter]. fold (effects vs'). now rewrite E.
  - inversion H as [| | | | | | | |? ? ww vs' ? H']; subst; [contradiction|]. destruct (IH ww _ _ _ H' Q) as (es & x0 & rest & R & F0 & E).
    exists (EOut c ww :: es), x0, rest. cbn [app]. split; [now constructor|]. split; auto. cbn [effects flat_map app api_effects filter]. fold (effects vs'). now rewrite E.
  - inversion H as [| | |? ? ? vs' ? H'| | | | |]; subst; [contradiction|]. destruct (IH (Ok tt) _ _ _ H' Q) as (es & x0 & rest & R & F0 & E).
    exists (ECall m (Ok tt) :: es), x0, rest. cbn [app]. split; [now constructor|]. split; auto.
Qed.

(** If [fixit lint] exits with 0, then [fixit fix], in any mode and whatever happens meanwhile, asks nothing and changes nothing. *)
Theorem C86_clean : forall K Y d opts m m' interactive diff diff' paths z vs vs' o F F1 F2,
  (forall G, fair_sets (y_world Y G)) -> first_is_dash paths = false ->
  crun (whole_lint K Y d opts m diff paths z) vs (Returned 0%N) -> leads F (effects vs) F1 ->
  crun (whole_fix K Y d opts m' interactive diff' paths z) vs' o -> leads F (effects vs') F2 ->
  asked vs' = [] /\ saved vs' = [] /\ F2 = F.
Proof.
  intros K Y d opts m m' interactive diff diff' paths z vs vs' o F F1 F2 Fa Da H0 L0 H L.
  destruct (C86_lint _ _ _ _ _ _ _ _ _ _ _ _ H0 L0) as [-> Lk].
  destruct (C80_exit _ _ _ _ _ _ _ _ _ _ Fa H0) as (Fx & Fy & pl & es0 & E0 & P & X).
  assert (Fx = F) as -> by (apply Lk; rewrite E0; simpl; auto). assert (Fy = F) as -> by (apply Lk; rewrite E0; simpl; auto).
  destruct (serial_plan _ _ _ _ _ Da P) as (ps & Ep). injection Ep as ->. destruct X as (l & Vi & -> & Fi & _). pose proof (proj1 Fi eq_refl) as Fi'. clear Fi.
  assert (Lo : forall G, In G (looks (concat (map snd l))) -> G = F).
  { intros G I. apply Lk. rewrite E0. right. right. unfold looks in I. apply in_flat_map in I. destruct I as (e & I & J). destruct e; try contradiction. destruct J as [<-|[]].
    apply filter_In. auto. }
  unfold whole_fix in H. cbv zeta in H. rewrite (or_cwd_dash K _ Da) in H. cbn [negb] in H. rewrite andb_true_r in H.
  inversion H as [| | | | |? F0 vs1 ? H'| | |]; subst; [inversion L; auto|].
  destruct (generate_config _ _ _ _ _) as [cfg|e] eqn:G; [|inversion H'; subst; cbn in L; inversion L as [|? ? ? L'| | |? ? ? ? X]; subst; try contradiction; inversion L'; auto].
  change no_tally with (fix_state interactive []) in H'. pose proof H' as H2.
  apply (fix_sim K interactive diff' false cfg (whole_paths Y d (or_cwd K paths) (negb interactive) (Some opts) m' z)) in H'. destruct H' as (es & oa & rest & R & Ef & A & Pr & O).
  assert (Core : forall es oa G, run (whole_paths Y d (or_cwd K paths) (negb interactive) (Some opts) m' z) es oa -> leads F es G ->
    violations (results es) = [] /\ written es = [] /\ G = F).
  { clear - P Vi Fi' Lo Fa. intros es oa G R L. unfold whole_paths in R.
    inversion R as [| | | |? Fz es' ? R'| | | |]; subst; [inversion L; auto|]. inversion L as [|? ? ? L2| | |? ? ? ? X]; subst; [|contradiction]. apply run_lift in R'.
    destruct (make_plan (y_walk Y Fz) d false (or_cwd K paths)) as [pl|e] eqn:P2; [|destruct R' as [-> _]; inversion L2; auto].
    unfold or_cwd in P2. rewrite P in P2. injection P2 as <-.
    assert (S' : exists o1, run (in_session Y ps (negb interactive) (Some opts) m' z) es' o1).
    { apply run_pbind in R'. destruct R' as [[_ S]|[(e & _ & S)|(es1 & es2 & z' & -> & S & S2)]]; eauto.
      exists (Returned z'). inversion S2; subst; now rewrite app_nil_r. }
    destruct S' as (o1 & S'). exact (fine_session Y (Some opts) m m' (negb interactive) Fa z ps l Vi Fi' Fz Lo es' o1 G S' L2). }
  cbn [effects flat_map app] in L. fold (effects vs1) in L. inversion L as [|? ? ? L'| | |? ? ? ? X]; subst; [|contradiction].
  pose proof L' as L1. rewrite Ef in L1. apply (proj1 (leads_effects _ _ _)) in L1. destruct (Core _ _ _ R L1) as (V & W & ->).
  split; [|split; auto].
  - cbn [asked flat_map app]. fold (asked vs1). destruct interactive; [|exact (auto_asked K diff' false cfg (whole_paths Y d (or_cwd K paths) (negb false) (Some opts) m' z) _ _ _ H2)].
    destruct (asked vs1) as [|a al] eqn:Ea; auto. exfalso. destruct (fix_asks K diff' false cfg (whole_paths Y d (or_cwd K paths) (negb true) (Some opts) m' z) _ _ _ H2) as (es1 & x & rest1 & R1 & Fx & E1); [rewrite Ea; discriminate|].
    rewrite E1 in L'. apply leads_app in L'. destruct L' as (G1 & L3 & _). apply (proj1 (leads_effects _ _ _)) in L3.
    destruct (Core (es1 ++ [EGive x None]) Stopped G1) as (V1 & _ & _); [exact R1|apply leads_app; exists G1; split; [exact L3|constructor; [exact Logic.I|constructor]]|].
    rewrite results_app in V1. unfold violations in V1. rewrite flat_map_app in V1. apply app_eq_nil in V1. destruct V1 as [_ V1]. cbn in V1.
    unfold fixable in Fx. destruct (x_violation x); discriminate.
  - cbn [saved flat_map app]. fold (saved vs1). now rewrite (effects_saved _ _ Ef).
Qed.

(** ** Lint and fix report the same *)

(** What the violations in a file are, if the disk is [F] whenever fixit looks. *)
Lemma file_says : forall T p autofix opts hook es F, run (fixit_file T p autofix opts hook) es (Returned tt) -> (forall G, In G (looks es) -> G = F) ->
  violations (results es) = match f_file F p with
                            | None => []
                            | Some content => match generate_config (t_env T) F p None opts with
                                              | Err _ => []
                                              | Ok cfg => fst (lint_of T F p content cfg)
                                              end
                            end /\
  (f_file F p = None -> looks es = [F]) /\
  (no_errors es -> results es = report_of p (violations (results es)) None).
Proof.
  intros T p autofix opts hook es F H Lk. unfold fixit_file in H. apply run_catch in H.
  assert (Vr : forall vs err, violations (report_of p vs err) = vs).
  { intros vs err. unfold report_of, violations. rewrite flat_map_app. replace (flat_map _ (match err, vs with Some _, _ => _ | _, _ => _ end)) with (@nil viol) by (destruct err, vs; reflexivity).
    rewrite app_nil_r. clear. induction vs as [|v vs IH]; [reflexivity|]. cbn [map flat_map x_violation app]. now f_equal. }
  assert (Br : forall content cfg es2 o, run (fixit_bytes T p content cfg autofix hook) es2 o -> o <> Stopped ->
    exists F2 rest err, es2 = ELook F2 :: rest /\ results es2 = report_of p (fst (lint_of T F2 p content cfg)) err).
  { intros content cfg es2 o R So. apply bytes_run in R. destruct R as [_ [[_ X]|(F2 & rest & -> & R)]]; [contradiction|].
    destruct (lint_of T F2 p content cfg) as [vs0 err0] eqn:El. destruct o; [|contradiction|contradiction]. cbv zeta in R. destruct R as (err' & R & _). exists F2, rest, err'. rewrite El. auto. }
  destruct H as [[X _]|[([] & _ & H)|(es1 & es2 & e & -> & H & H2)]]; [discriminate| |].
  - inversion H as [| | | |? F0 es' ? H'| | | |]; subst. assert (F0 = F) as -> by (apply Lk; simpl; auto). destruct (f_file F p) as [content|] eqn:Ef; [|inversion H'].
    inversion H' as [| | | |? F1 es1 ? H1| | | |]; subst. assert (F1 = F) as -> by (apply Lk; simpl; auto). apply run_lift in H1.
    destruct (generate_config (t_env T) F p None opts) as [cfg|e] eqn:Eg; [|destruct H1 as [_ [X|X]]; discriminate].
    apply run_pbind in H1. destruct H1 as [[X _]|[(e & X & _)|(es2 & es3 & r & -> & R & H3)]]; try discriminate.
    assert (E3 : results es3 = []).
    { destruct r as [[|c r]|]; try (inversion H3; subst; reflexivity). destruct (negb (str_eqb (c :: r) content)); [|inversion H3; subst; reflexivity].
      inversion H3 as [| | | | |? ? ? w es4 ? H4| | |]; subst. apply run_lift in H4. destruct w; [inversion H4; subst; reflexivity|]. destruct H4 as [_ [X|X]]; discriminate. }
    destruct (Br _ _ _ _ R) as (F2 & rest & err & -> & Rs); [discriminate|].
    assert (F2 = F) as -> by (apply Lk; simpl; auto).
    assert (Re : results (ELook F :: ELook F :: (ELook F :: rest) ++ es3) = report_of p (fst (lint_of T F p content cfg)) err).
    { change (results (ELook F :: ELook F :: (ELook F :: rest) ++ es3)) with (results ((ELook F :: rest) ++ es3)). rewrite results_app, Rs, E3. apply app_nil_r. }
    rewrite Re, Vr. split; auto. split; [discriminate|]. intro Ne. destruct err as [e|]; auto. exfalso. enough (x_error (Result p None (Some e)) = None) by discriminate.
    apply Ne. rewrite Re. unfold report_of. apply in_or_app. simpl. auto.
  - assert (No : ~ no_errors (es1 ++ es2)).
    { intro Ne. inversion H2 as [| | |? ? a es3 ? H3| | | | |]; subst. enough (x_error (error_result p e) = None) by discriminate. apply Ne. rewrite results_app. apply in_or_app. right. simpl. auto. }
    inversion H2 as [| | |? ? a es3 ? H3| | | | |]; subst. inversion H3; subst.
    assert (E : violations (results (es1 ++ [EGive (error_result p e) a])) = violations (results es1)).
    { rewrite results_app. unfold violations. rewrite flat_map_app. cbn [results given map fst flat_map error_result x_violation]. now rewrite !app_nil_r. }
    rewrite E. clear E. rewrite looks_app in *. cbn [looks flat_map app] in *. rewrite app_nil_r in *.
    split; [|split; [|intro Ne; contradiction]].
    + inversion H as [| | | |? F0 es' ? H'| | | |]; subst. assert (F0 = F) as -> by (apply Lk; simpl; auto). destruct (f_file F p) as [content|] eqn:Ef; [|inversion H'; subst; reflexivity].
      inversion H' as [| | | |? F1 es1 ? H1| | | |]; subst. assert (F1 = F) as -> by (apply Lk; simpl; auto). apply run_lift in H1.
      destruct (generate_config (t_env T) F p None opts) as [cfg|e'] eqn:Eg; [|destruct H1 as [-> _]; reflexivity].
      apply run_pbind in H1. destruct H1 as [[X _]|[(e0 & X & R)|(es2 & es3 & r & -> & R & H4)]]; [discriminate| |].
      * exfalso. apply bytes_run in R. destruct R as [_ [[_ Y]|(F2 & rest & -> & R)]]; [discriminate|]. destruct (lint_of T F2 p content cfg). contradiction.
      * destruct (Br _ _ _ _ R) as (F2 & rest & err & -> & Rs); [discriminate|]. assert (F2 = F) as -> by (apply Lk; simpl; auto).
        assert (E4 : results es3 = []).
        { destruct r as [[|c r]|]; try (inversion H4; fail). destruct (negb (str_eqb (c :: r) content)); [|inversion H4].
          inversion H4 as [| | | | |? ? ? w es4 ? H5| | |]; subst. apply run_lift in H5. destruct w; [inversion H5|]. destruct H5 as [-> _]. reflexivity. }
        change (results (ELook F :: ELook F :: (ELook F :: rest) ++ es3)) with (results ((ELook F :: rest) ++ es3)). rewrite results_app, E4, app_nil_r, Rs. apply Vr.
    + intro Ef. inversion H as [| | | |? F0 es' ? H'| | | |]; subst. assert (F0 = F) as -> by (apply Lk; simpl; auto). rewrite Ef in H'. inversion H'; subst. reflexivity.
Qed.

Lemma differ_step : forall T p autofix opts hook es o all B F F', run (fixit_file T p autofix opts hook) es o -> leads F es F' -> In p all -> differ_only all B F ->
  differ_only all B F' /\ forall q, q <> p -> f_file F' q = f_file F q.
Proof.
  intros T p autofix opts hook es o all B F F' R L Ip [D1 D2]. destruct (leads_others _ _ _ L) as [O1 O2].
  assert (O : forall q, q <> p -> f_file F' q = f_file F q).
  { intros q Nq. apply O1. destruct (file_leads _ _ _ _ _ _ _ _ _ R L) as [_ [[-> _]|(c & w & -> & _)]]; [intros []|]. intros [I|[]]. now apply Nq. }
  split; auto. split; [|intro q; now rewrite O2]. intros q N. destruct (list_eq_dec (list_eq_dec N.eq_dec) q p) as [->|Nq]; auto. apply D1. now rewrite <- (O q Nq).
Qed.

Lemma config_near : forall E all B F p opts, differ_only all B F -> (forall q, In q all -> ~ is_config opts q) -> generate_config E F p None opts = generate_config E B p None opts.
Proof.
  intros E all B F p opts [D1 D2] Nc. apply config_same; auto. intros q Cq. destruct (f_file F q) as [a|] eqn:E1, (f_file B q) as [b|] eqn:E2; auto.
  - destruct (list_eq_dec N.eq_dec a b) as [->|Ne_]; auto. destruct (Nc q); auto. apply D1. congruence.
  - destruct (Nc q); auto. apply D1. congruence.
  - destruct (Nc q); auto. apply D1. congruence.
Qed.

Lemma after_known : forall Y z p autofix opts hook es F, run (fixit_file (tool_of (system_at Y z)) p autofix opts hook) es (Returned tt) -> (forall G, In G (looks es) -> G = F) ->
  after_file Y p opts (looks es) z = match f_file F p with
                                     | None => z
                                     | Some _ => match generate_config (y_env Y) F p None opts with Err _ => z | Ok cfg => after_collect (y_world Y F) cfg z end
                                     end.
Proof.
  intros Y z p autofix opts hook es F R Lk. destruct (f_file F p) as [content|] eqn:Ef.
  - destruct (generate_config (y_env Y) F p None opts) as [cfg|e] eqn:Eg.
    + destruct (three_looks _ _ _ _ _ _ _ _ _ R Lk Ef Eg) as (rest & ->). cbn [after_file]. now rewrite Eg.
    + destruct (looks es) as [|F0 [|F1 [|F2 rest]]]; auto. cbn [after_file]. assert (F1 = F) as -> by (apply Lk; simpl; auto). now rewrite Eg.
  - destruct (file_says _ _ _ _ _ _ _ R Lk) as (_ & E & _). rewrite (E Ef). reflexivity.
Qed.

Lemma visits_same : forall Y opts all B, (forall q, In q all -> ~ is_config opts q) ->
  (forall F, differ_only all B F -> y_world Y F = y_world Y B /\ y_code Y F = y_code Y B) ->
  forall a1 h1 z ps l1, visits Y a1 opts h1 z ps l1 -> forall a2 h2 l2 F F' G G', visits Y a2 opts h2 z ps l2 ->
  leads F (concat (map snd l1)) F' -> leads G (concat (map snd l2)) G' -> differ_only all B F -> differ_only all B G -> incl ps all -> NoDup ps ->
  (forall q, In q ps -> f_file F q = f_file G q) ->
  Forall2 (fun v w : session * list ev => violations (results (snd v)) = violations (results (snd w)) /\
             (no_errors (snd v) -> no_errors (snd w) -> results (snd v) = results (snd w))) l1 l2.
Proof.
  intros Y opts all B Nc Wo a1 h1 z ps l1 H. induction H as [z|z p es1 ps l1 R1 V1 IH]; intros a2 h2 l2 F F' G G' V2 L1 L2 D1 D2 In_ Nd Sm.
  - inversion V2; subst. constructor.
  - inversion V2 as [|? ? es2 ? l2' R2 V2']; subst. cbn [map snd concat] in L1, L2. apply leads_app in L1. destruct L1 as (F1 & L1 & L1').
    apply leads_app in L2. destruct L2 as (G1 & L2 & L2'). inversion Nd as [|? ? Np Nd']; subst.
    destruct (file_leads _ _ _ _ _ _ _ _ _ R1 L1) as [Lk1 _]. destruct (file_leads _ _ _ _ _ _ _ _ _ R2 L2) as [Lk2 _].
    destruct (file_says _ _ _ _ _ _ _ R1 Lk1) as (S1 & _ & N1). destruct (file_says _ _ _ _ _ _ _ R2 Lk2) as (S2 & _ & N2).
    assert (Ip : In p all) by (apply In_; simpl; auto).
    assert (Eq : f_file F p = f_file G p) by (apply Sm; simpl; auto).
    assert (Ec : generate_config (y_env Y) F p None opts = generate_config (y_env Y) G p None opts).
    { rewrite (config_near (y_env Y) _ _ _ p _ D1 Nc). symmetry. apply (config_near (y_env Y) _ _ _ p _ D2 Nc). }
    destruct (Wo _ D1) as [W1 C1]. destruct (Wo _ D2) as [W2 C2].
    assert (El : forall content cfg, lint_of (tool_of (system_at Y z)) F p content cfg = lint_of (tool_of (system_at Y z)) G p content cfg).
    { intros content cfg. unfold lint_of. cbn [tool_of system_at t_collect t_parse t_visit t_udiff y_world y_py y_code y_parse y_wrap y_took y_udiff y_unicode]. now rewrite W1, W2, C1, C2. }
    assert (Vs : violations (results es1) = violations (results es2)).
    { rewrite S1, S2. cbn [tool_of system_at t_env y_env]. rewrite Eq, Ec. destruct (f_file G p) as [content|]; auto. destruct (generate_config _ G p None opts) as [cfg|]; auto. now rewrite El. }
    constructor.
    + cbn [snd]. split; auto. intros A1 A2. rewrite (N1 A1), (N2 A2). now rewrite Vs.
    + assert (Ea : after_file Y p opts (looks es1) z = after_file Y p opts (looks es2) z).
      { rewrite (after_known _ _ _ _ _ _ _ _ R1 Lk1), (after_known _ _ _ _ _ _ _ _ R2 Lk2). rewrite Eq, Ec, W1, W2. reflexivity. }
      rewrite <- Ea in V2'. destruct (differ_step _ _ _ _ _ _ _ _ _ _ _ R1 L1 Ip D1) as [D1' O1]. destruct (differ_step _ _ _ _ _ _ _ _ _ _ _ R2 L2 Ip D2) as [D2' O2].
      eapply (IH a2 h2 l2' F1 F' G1 G'); eauto; [intros q I; apply In_; simpl; auto|].
      intros q I. assert (q <> p) by (intros ->; contradiction). rewrite O1, O2; auto. apply Sm. simpl. auto.
Qed.

Lemma called_none : forall {R} (g : prog R) es o, nocall g -> run g es o -> forall m w, ~ In (ECall m w) es.
Proof.
  intros R g es o N H. induction H as [g|r|e|x k a es o H IH|k F es o H IH|p c k w es o H IH|k i es o H IH|c k w es o H IH|m k w es o H IH]; intros m0 w0 I; try contradiction;
    cbn [nocall] in N; try contradiction; (destruct I as [I|I]; [discriminate|]); eapply IH; eauto.
Qed.

Lemma screen_items : forall K diff out cfg es, (forall m w, ~ In (ECall m w) es) -> screen K diff out cfg es = flat_map (item K diff out cfg) (results es).
Proof.
  intros K diff out cfg. induction es as [|e es IH]; intro N; [reflexivity|]. assert (N' : forall m w, ~ In (ECall m w) es) by (intros m w I; apply (N m w); simpl; auto).
  unfold screen in *. destruct e; cbn [flat_map results given map fst app]; try (now apply IH).
  - f_equal. now apply IH.
  - exfalso. eapply N. simpl. eauto.
Qed.

Lemma visits_nocall : forall Y autofix opts z ps l, visits Y autofix opts false z ps l -> forall m w, ~ In (ECall m w) (concat (map snd l)).
Proof.
  intros Y autofix opts z ps l H. induction H as [z|z p es ps l R V IH]; intros m w I; [contradiction|]. cbn [map snd concat] in I. apply in_app_iff in I. destruct I as [I|I].
  - eapply called_none; [|exact R|exact I]. apply nocall_file.
  - eapply IH; eauto.
Qed.

Lemma lint_visits : forall K Y d opts m diff paths z vs code,
  first_is_dash paths = false -> crun (whole_lint K Y d opts m diff paths z) vs (Returned code) ->
  exists F0 F ps l cfg s,
    make_plan (y_walk Y F) d false (match paths with [] => [PathArg (k_cwd K)] | _ => paths end) = Ok (Some (Serial ps)) /\
    visits Y false (Some opts) m z ps l /\ effects vs = ELook F0 :: ELook F :: api_effects (concat (map snd l)) /\
    generate_config (y_env Y) F0 (k_cwd K) None (Some opts) = Ok cfg /\ lines vs = screen K diff Std cfg (concat (map snd l)) ++ [s].
Proof.
  intros K Y d opts m diff paths z vs code Da H. unfold whole_lint, lint_with in H. inversion H as [| | | | |? F0 vs' ? H'| | |]; subst.
  destruct (generate_config _ _ _ _ _) as [cfg|e] eqn:G; [|inversion H'].
  change no_tally with (lint_state []) in H'. apply (lint_sim K diff cfg (whole_paths Y d (or_cwd K paths) false (Some opts) m z)) in H'.
  destruct H' as (es & oa & R & Ef & A & Un & X). cbv zeta in X. destruct X as (-> & _ & Li).
  unfold whole_paths in R. inversion R as [| | | |? F es' ? R'| | | |]; subst. apply run_lift in R'.
  destruct (make_plan (y_walk Y F) d false (or_cwd K paths)) as [pl|e] eqn:P; [|destruct R' as [_ [X|X]]; discriminate].
  destruct (serial_plan _ _ _ _ _ Da P) as (ps & ->).
  apply run_pbind in R'. destruct R' as [[X _]|[(e & X & _)|(es1 & es2 & z' & -> & R1 & R2)]]; try discriminate. inversion R2; subst. rewrite app_nil_r in *.
  apply session_visits in R1. destruct R1 as (l & Vi & ->). exists F0, F, ps, l, cfg. eexists. split; [exact P|]. split; auto. split; [cbn [effects flat_map app]; f_equal; exact Ef|].
  split; [exact G|]. cbn [lines flat_map app]. fold (lines vs'). rewrite Li. reflexivity.
Qed.

(** [fixit lint] and [fixit fix], both run to the end from the same files and the same interpreter state, nobody else changing files: they report the
    same violations in each file, if none of the files is a configuration file or has rules in it. With no errors they print the same but for the summary. *)
Theorem C86_told : forall K Y d opts m m' interactive diff diff' paths z vs vs' c c' F F1 F2,
  first_is_dash paths = false ->
  crun (whole_lint K Y d opts m diff paths z) vs (Returned c) -> leads F (effects vs) F1 ->
  crun (whole_fix K Y d opts m' interactive diff' paths z) vs' (Returned c') -> ~ In (Some Quit) (asked vs') -> leads F (effects vs') F2 ->
  exists ps l l',
    make_plan (y_walk Y F) d false (match paths with [] => [PathArg (k_cwd K)] | _ => paths end) = Ok (Some (Serial ps)) /\
    visits Y false (Some opts) m z ps l /\ visits Y (negb interactive) (Some opts) m' z ps l' /\
    (NoDup ps -> (forall q, In q ps -> ~ is_config (Some opts) q) ->
     (forall G, (forall q, f_file G q <> f_file F q -> In q ps) -> (forall q, f_isdir G q = f_isdir F q) -> y_world Y G = y_world Y F /\ y_code Y G = y_code Y F) ->
     Forall2 (fun v w => violations (results (snd v)) = violations (results (snd w))) l l' /\
     (m = false -> m' = false -> diff = interactive || diff' -> no_errors (concat (map snd l)) -> no_errors (concat (map snd l')) ->
      exists shown s s', lines vs = shown ++ [s] /\ lines vs' = shown ++ [s'])).
Proof.
  intros K Y d opts m m' interactive diff diff' paths z vs vs' c c' F F1 F2 Da H1 L1 H2 Q L2.
  destruct (lint_visits _ _ _ _ _ _ _ _ _ _ Da H1) as (Fa & Fb & ps & l & cfg & s & P & V1 & E1 & G1 & S1).
  destruct (fix_visits _ _ _ _ _ _ _ _ _ _ _ Da H2 Q) as (Fa' & Fb' & ps' & l' & P' & V2 & E2 & Pr & As & cfg' & s' & G2 & S2).
  rewrite E1 in L1. apply leads_two in L1. destruct L1 as (-> & -> & L1). rewrite E2 in L2. apply leads_two in L2. destruct L2 as (-> & -> & L2).
  rewrite P in P'. injection P' as <-. rewrite G1 in G2. injection G2 as <-. apply (proj1 (leads_effects _ _ _)) in L1. apply (proj1 (leads_effects _ _ _)) in L2.
  exists ps, l, l'. split; auto. split; auto. split; auto. intros Nd Nc Wo.
  assert (D : differ_only ps F F) by (split; [intros q X; now contradiction X|auto]).
  pose proof (visits_same Y (Some opts) ps F Nc (fun G D => Wo G (proj1 D) (proj2 D)) _ _ _ _ _ V1 _ _ _ _ _ _ _ V2 L1 L2 D D (fun q I => I) Nd (fun q _ => eq_refl)) as Fo.
  split.
  - clear - Fo. induction Fo as [|v w l l' [X _] _ IH]; constructor; auto.
  - intros -> -> -> Ne1 Ne2. exists (screen K (interactive || diff') Std cfg (concat (map snd l))), s, s'. split; auto. rewrite S2. f_equal.
    rewrite !screen_items by (eapply visits_nocall; eauto). f_equal. clear - Fo Ne1 Ne2.
    induction Fo as [|v w l l' [_ X] Fo IH]; [reflexivity|]. cbn [map concat] in *. unfold no_errors in Ne1, Ne2. rewrite !results_app in *. f_equal.
    + symmetry. apply X; intros x I; [apply Ne1|apply Ne2]; apply in_or_app; auto.
    + apply IH; intros x I; [apply Ne1|apply Ne2]; apply in_or_app; auto.
Qed.

(** ** Example *)

(** An execution on a disk that only the program changes, and the disk afterwards. *)
Fixpoint live {R} (c : cmd R) (F : fs) (ans : list choice) : list cev * outcome R * fs :=
  match c with
  | CRet r => ([], Returned r, F)
  | CFail e => ([], Raised e, F)
  | CPrint s t k => let '(vs, o, F') := live k F ans in (VPrint s t :: vs, o, F')
  | CPrompt k => let a := match ans with [] => None | a :: _ => Some a end in
                 let '(vs, o, F') := live (k a) F (tl ans) in (VPrompt a :: vs, o, F')
  | CLook k => let '(vs, o, F') := live (k F) F ans in (VLook F :: vs, o, F')
  | CWrite p c k => let '(vs, o, F') := live (k (Ok tt)) (put F p (Some c)) ans in (VWrite p c (Ok tt) :: vs, o, F')
  | CStdin k => let '(vs, o, F') := live (k (Ok [])) F ans in (VIn (Ok []) :: vs, o, F')
  | CStdout c k => let '(vs, o, F') := live (k (Ok tt)) F ans in (VOut c (Ok tt) :: vs, o, F')
  end.

Lemma live_run : forall R (c : cmd R) F ans vs o F', live c F ans = (vs, o, F') -> crun c vs o /\ leads F (effects vs) F'.
Proof.
  intros R c. induction c as [r|e|s t k IH|k IH|k IH|p c k IH|k IH|c k IH]; intros F ans vs o F' H; cbn [live] in H.
  - injection H as <- <- <-. split; constructor.
  - injection H as <- <- <-. split; constructor.
  - destruct (live k F ans) as [[vs' o'] G] eqn:E. injection H as <- <- <-. destruct (IH _ _ _ _ _ E). split; [now constructor|exact H0].
  - destruct (live (k _) F (tl ans)) as [[vs' o'] G] eqn:E. injection H as <- <- <-. destruct (IH _ _ _ _ _ _ E). split; [now constructor|exact H0].
  - destruct (live (k F) F ans) as [[vs' o'] G] eqn:E. injection H as <- <- <-. destruct (IH _ _ _ _ _ _ E). split; [now constructor|]. cbn [effects flat_map app]. now constructor.
  - destruct (live (k (Ok tt)) (put F p (Some c)) ans) as [[vs' o'] G] eqn:E. injection H as <- <- <-. destruct (IH _ _ _ _ _ _ E). split; [now constructor|]. cbn [effects flat_map app]. now constructor.
  - destruct (live (k (Ok [])) F ans) as [[vs' o'] G] eqn:E. injection H as <- <- <-. destruct (IH _ _ _ _ _ _ E). split; [now constructor|]. cbn [effects flat_map app]. now constructor.
  - destruct (live (k (Ok tt)) F ans) as [[vs' o'] G] eqn:E. injection H as <- <- <-. destruct (IH _ _ _ _ _ _ E). split; [now constructor|]. cbn [effects flat_map app]. now constructor.
Qed.

(** Two statements, or only the first, in which the rule is silenced. *)
Definition module1 : module :=
  Mod (Node 0 false [Body None [Node 1 true [Ind; Seq true [Node 2 false [Txt (u "import a"); Sep None (u "; ")]]; Txt (u "  # lint-ignore: A" ++ nl)]]]) true nl.
Definition meta1 : metadata :=
  Metadata (Cst 0 (u "Module") [(u "body", [Cst 2 (u "Import") []])]) (d_place meta0) (d_span meta0).
Definition system3 : system :=
  let Y := system2 (u "rules") (u "rules") in
  MkSystem (y_env Y) (y_unicode Y) (y_world Y) (y_py Y) (y_code Y)
    (fun s => Ok (if str_eqb s text0 then module0 else module1)) (fun md => Ok (if str_eqb (code md) text0 then meta0 else meta1))
    (y_took Y) (y_udiff Y) (y_bytes Y) (y_style Y) (y_walk Y).
Definition files3 : list arg := [PathArg x_py; PathArg a_y].
Definition lint3 : cmd N := whole_lint ex_cli system3 [u "d"; u "stdin"] ex_opts false false files3 session0.
Definition fix3 (interactive : bool) : cmd N := whole_fix ex_cli system3 [u "d"; u "stdin"] ex_opts false interactive false files3 session0.

(** Lint complains about both files. Fixing one of them, then both; then lint is content and fix changes nothing. *)
Example C86_example :
  let '(vs1, o1, F1) := live lint3 fs3 [] in
  let '(vs2, o2, F2) := live (fix3 true) fs3 [No; Yes] in
  let '(vs3, o3, F3) := live (fix3 false) F2 [] in
  let '(vs4, o4, F4) := live lint3 F3 [] in
  let '(vs5, o5, F5) := live (fix3 true) F3 [] in
  let fixed := u "import a  # lint-ignore: A" ++ nl in
  o1 = Returned 1%N /\ o2 = Returned 0%N /\ o3 = Returned 0%N /\ o4 = Returned 0%N /\ o5 = Returned 0%N /\ asked vs2 = [Some No; Some Yes] /\
  map (f_file F2) [x_py; a_y] = [Some text0; Some fixed] /\ map (f_file F3) [x_py; a_y] = [Some fixed; Some fixed] /\ map (f_file F5) [x_py; a_y] = [Some fixed; Some fixed] /\
  List.length (lines vs1) = 3 /\ List.length (lines vs2) = 5.
Proof. vm_compute. repeat split. Qed.

Example C86_example_met :
  (forall F, fair_sets (y_world system3 F)) /\ first_is_dash files3 = false /\
  (forall d G, make_plan (y_walk system3 G) d false files3 = Ok (Some (Serial [x_py; a_y]))) /\ NoDup [x_py; a_y] /\
  (forall q, In q [x_py; a_y] -> ~ is_config (Some ex_opts) q) /\ (forall F G, y_world system3 F = y_world system3 G /\ y_code system3 F = y_code system3 G).
Proof.
  split; [intros F; vm_compute; auto|]. split; [reflexivity|]. split; [reflexivity|]. split.
  { constructor; [intros [X|[]]; discriminate|]. constructor; [intros []|constructor]. }
  split; [|auto]. intros q I [(d & n & -> & J)|(o & f & E & E2 & _)]; [|injection E as <-; discriminate].
  destruct I as [I|[I|[]]]; change x_py with ([u "a"] ++ [u "x.py"]) in I || change a_y with ([u "a"] ++ [u "y.py"]) in I; apply app_inj_tail in I; destruct I as [_ <-];
    repeat (destruct J as [J|J]; [discriminate|]); contradiction.
Qed.
