(** * C37, C38: several files, and processes that die *)
From Coq Require Import String List NArith ZArith Bool Arith Lia.
From Verif Require Import Base PyStr Ftypes Paths Config Suppress Cst Engine EngineProps Api ApiSpec ApiFacts ApiProps Pool.
From Verif Require ConfigDiscover.
Import ListNotations.

Lemma upd_same : forall F p c, f_file (upd F p c) p = Some c.
Proof. intros. cbn. now rewrite path_eqb_refl. Qed.

Lemma path_eqb_neq : forall p q, p <> q -> path_eqb p q = false.
Proof. intros p q H. destruct (path_eqb p q) eqn:E; auto. apply path_eqb_eq in E. contradiction. Qed.

Lemma upd_other : forall F p c q, q <> p -> f_file (upd F p c) q = f_file F q.
Proof. intros F p c q H. cbn. now rewrite path_eqb_neq. Qed.

(** ** C38: crashes *)

Section Crash.
  Variables (T : tool) (M : machine) (ans : option bool -> Prop).
  Variables (ps : list path) (autofix : bool) (opts : option options) (hook : bool) (F0 : fs).
  Hypothesis distinct : NoDup ps.

  Notation file_run p := (run (fixit_file T p autofix opts hook)).

  (** What a task did and will do is an execution of fixit_file, and the file is what it made of it. *)
  Definition task_ok (F : fs) (t : task) : Prop :=
    let p := t_path t in
    (forall es1 G es2, t_es t = es1 ++ ELook G :: es2 -> written es1 = [] -> f_file G p = f_file F0 p) /\
    match t_now t with
    | Running q =>
        (forall es o, run q es o -> file_run p (t_es t ++ es) o) /\
        ((written (t_es t) = [] /\ f_file F p = f_file F0 p) \/
         exists c w, In (EWrite p c w) (t_es t) /\
           ((m_write M p = WOk /\ w = Ok tt /\ f_file F p = Some c) \/
            (exists e, m_write M p = WFail e /\ w = Err e /\ f_file F p = f_file F0 p) \/
            (exists e n, m_write M p = WPart e n /\ w = Err e /\ f_file F p = Some (firstn n c))))
    | Writing w c k =>
        (forall o es r, run (k o) es r -> file_run p (t_es t ++ EWrite w c o :: es) r) /\
        (forall e, m_write M w <> WFail e) /\
        written (t_es t) = [] /\ exists n, f_file F p = Some (firstn n c)
    end.

  Lemma own_path : forall p es w c o es' r, file_run p (es ++ EWrite w c o :: es') r -> w = p /\ written es = [].
  Proof.
    intros p es w c o es' r H. destruct (C31_writes _ _ _ _ _ _ _ H) as (_ & _ & [W|W]).
    - rewrite written_app in W. cbn [written] in W. destruct (written es); discriminate.
    - destruct W as (F & content & F1 & cfg & es1 & c' & w' & es2 & acc & E & _ & _ & _ & _ & _ & _ & _ & _ & _ & W1 & (W2 & _)).
      assert (X : written (es ++ EWrite w c o :: es') = [(p, c')]).
      { rewrite E. cbn [written]. rewrite written_app. cbn [written]. now rewrite W1, W2. }
      rewrite written_app in X. cbn [written] in X. destruct (written es) as [|y l]; [injection X as -> _ _; auto|].
      injection X as _ X. destruct l; discriminate.
  Qed.

  Lemma look_step : forall (P : fs -> Prop) es (e : ev) , 
    (forall es1 G es2, es = es1 ++ ELook G :: es2 -> written es1 = [] -> P G) ->
    (forall G, e = ELook G -> written es = [] -> P G) ->
    forall es1 G es2, es ++ [e] = es1 ++ ELook G :: es2 -> written es1 = [] -> P G.
  Proof.
    intros P es e A B es1 G es2 E W. destruct es2 as [|x es2 _] using rev_ind.
    - apply app_inj_tail in E. destruct E as [-> ->]. eauto.
    - rewrite app_comm_cons, app_assoc in E. apply app_inj_tail in E. destruct E as [-> _]. eauto.
  Qed.

  Lemma task_step_ok : forall F t F' t', task_step M ans F t F' t' -> task_ok F t ->
    task_ok F' t' /\ t_path t' = t_path t /\ forall q, q <> t_path t -> f_file F' q = f_file F q.
  Proof.
    intros F t F' t' H K. destruct K as [L K].
    destruct H as [F p es x k a Ha|F p es k|F p es m k|F p es w c k Hw|F p es w c k e Hw|F p es w c k n|F p es w c k];
      cbn [t_path t_es t_now] in *; unfold task_ok; cbn [t_path t_es t_now].
    - destruct K as [K1 K2]. split; [|auto]. split.
      + apply (look_step (fun G => f_file G p = f_file F0 p)); auto. discriminate.
      + split.
        * intros es' o R. rewrite <- app_assoc. apply K1. now constructor.
        * destruct K2 as [(A & B)|(c & w & A & B)].
          -- left. split; auto. rewrite written_app, A. reflexivity.
          -- right. exists c, w. split; auto. apply in_app_iff. auto.
    - destruct K as [K1 K2]. split; [|auto]. split.
      + apply (look_step (fun G => f_file G p = f_file F0 p)); auto. intros G E W. injection E as <-.
        destruct K2 as [(A & B)|(c & w & A & B)]; auto. exfalso. clear -A W.
        induction es as [|e es IH]; [contradiction|]. destruct A as [->|A]; [discriminate|].
        destruct e; cbn [written] in W; auto. discriminate.
      + split.
        * intros es' o R. rewrite <- app_assoc. apply K1. now constructor.
        * destruct K2 as [(A & B)|(c & w & A & B)].
          -- left. split; auto. rewrite written_app, A. reflexivity.
          -- right. exists c, w. split; auto. apply in_app_iff. auto.
    - destruct K as [K1 K2]. split; [|auto]. split.
      + apply (look_step (fun G => f_file G p = f_file F0 p)); auto. discriminate.
      + split.
        * intros es' o R. rewrite <- app_assoc. apply K1. now constructor.
        * destruct K2 as [(A & B)|(c & w & A & B)].
          -- left. split; auto. rewrite written_app, A. reflexivity.
          -- right. exists c, w. split; auto. apply in_app_iff. auto.
    - destruct K as [K1 K2].
      assert (X : w = p /\ written es = []).
      { apply (own_path p es w c (Ok tt) [] Stopped). apply K1. repeat constructor. }
      destruct X as [-> X]. split; [|split; auto; intros; now apply upd_other].
      split; auto. split; [intros o es' r R; apply K1; now constructor|]. split; auto. split; auto.
      exists 0. rewrite upd_same. reflexivity.
    - destruct K as [K1 K2].
      assert (X : w = p /\ written es = []).
      { apply (own_path p es w c (Ok tt) [] Stopped). apply K1. repeat constructor. }
      destruct X as [-> X]. split; [|auto]. split; [|split].
      + apply (look_step (fun G => f_file G p = f_file F0 p)); auto. discriminate.
      + intros es' o R. rewrite <- app_assoc. apply K1. now constructor.
      + right. exists c, (Err e). split; [apply in_app_iff; simpl; auto|]. right. left. exists e. repeat split; auto.
        destruct K2 as [(A & B)|(c' & w' & A & B)]; auto. exfalso. clear -A X.
        induction es as [|y es IH]; [contradiction|]. destruct A as [->|A]; [discriminate|].
        destruct y; cbn [written] in X; auto. discriminate.
    - destruct K as (K1 & K2 & K3 & K4).
      assert (X : w = p /\ written es = []).
      { apply (own_path p es w c (Ok tt) [] Stopped). apply K1. repeat constructor. }
      destruct X as [-> X]. split; [|split; auto; intros; now apply upd_other].
      split; auto. split; auto. split; auto. split; auto. exists n. apply upd_same.
    - destruct K as (K1 & K2 & K3 & K4).
      assert (X : w = p /\ written es = []).
      { apply (own_path p es w c (Ok tt) [] Stopped). apply K1. repeat constructor. }
      destruct X as [-> X]. split.
      + split; [|split].
        * apply (look_step (fun G => f_file G p = f_file F0 p)); auto. discriminate.
        * intros es' o R. rewrite <- app_assoc. apply K1. exact R.
        * right. exists c. eexists. split; [apply in_app_iff; right; left; reflexivity|].
          unfold after_write. destruct (m_write M p) as [|e|e n] eqn:E; cbn [fst snd].
          -- left. repeat split. apply upd_same.
          -- exfalso. now apply (K2 e).
          -- right. right. exists e, n. repeat split. apply upd_same.
      + split; auto. intros q Hq. unfold after_write. destruct (m_write M p); cbn [fst]; auto; now apply upd_other.
  Qed.

  Definition pool_ok (s : pool) : Prop :=
    map t_path (p_tasks s) = ps /\
    (forall t, In t (p_tasks s) -> task_ok (p_fs s) t) /\
    (forall q, ~ In q ps -> f_file (p_fs s) q = f_file F0 q).

  Lemma task_ok_other : forall F F' t, f_file F' (t_path t) = f_file F (t_path t) -> task_ok F t -> task_ok F' t.
  Proof.
    intros F F' [p es [q|w c k]] E [L K]; cbn [t_path t_es t_now] in *; split; auto; cbn [t_path t_es t_now] in *; rewrite E; auto.
  Qed.

  Lemma pool_step_ok : forall s s', pool_step M ans s s' -> pool_ok s -> pool_ok s'.
  Proof.
    intros s s' H (P1 & P2 & P3). destruct H as [F F' ts1 t t' ts2 H]. cbn [p_tasks p_fs] in *.
    destruct (task_step_ok _ _ _ _ H) as (A & B & C); [apply P2, in_app_iff; simpl; auto|].
    assert (P1' : map t_path (ts1 ++ t' :: ts2) = ps).
    { rewrite map_app in *. cbn [map] in *. now rewrite B. }
    split; auto. cbn [p_tasks p_fs]. split.
    - intros x Hx. apply in_app_iff in Hx. cbn [In] in Hx.
      assert (D : forall y, In y (ts1 ++ ts2) -> t_path y <> t_path t).
      { intros y Hy E. rewrite <- P1, map_app in distinct. cbn [map] in distinct.
        apply NoDup_remove_2 in distinct. apply distinct. rewrite <- map_app, <- E. now apply in_map. }
      destruct Hx as [Hx|[<-|Hx]]; auto.
      + apply task_ok_other with F; [|apply P2, in_app_iff; auto]. apply C, D, in_app_iff. auto.
      + apply task_ok_other with F; [|apply P2, in_app_iff; simpl; auto]. apply C, D, in_app_iff. auto.
    - intros q Hq. rewrite C; auto. intros ->. apply Hq. rewrite <- P1, map_app, in_app_iff. simpl. auto.
  Qed.

  Lemma reach_ok : forall s, reach M ans (start_pool T ps autofix opts hook F0) s -> pool_ok s.
  Proof.
    intros s H. induction H as [|s1 s2 H IH St]; [|now apply pool_step_ok with s1].
    unfold start_pool. split; [|split]; cbn [p_tasks p_fs]; auto.
    - rewrite map_map. apply map_id.
    - intros t Ht. apply in_map_iff in Ht. destruct Ht as (p & <- & _).
      split; cbn [t_path t_es t_now].
      + intros [|e es1] G es2 E; discriminate.
      + split; auto.
  Qed.
End Crash.

(** At any point of any run over distinct files, whatever is accepted: files that are not linted are
    untouched; each linted file has its old content, or completely the new content that fixing its old
    content gives, or it is being written or could not be written completely. *)
Theorem C38_crash : forall T M ans ps autofix opts hook F0 s,
  NoDup ps -> reach M ans (start_pool T ps autofix opts hook F0) s ->
  (forall q, ~ In q ps -> f_file (p_fs s) q = f_file F0 q) /\
  forall t, In t (p_tasks s) ->
    let p := t_path t in
    (* the fixes accepted, and the old content with them: with configuration and files as the task saw them *)
    let acc := accepted autofix (given (t_es t)) in
    let new c := acc <> [] /\ exists content cfg F F', f_file F0 p = Some content /\
                   In (ELook F') (t_es t) /\ generate_config (t_env T) F' p None opts = Ok cfg /\
                   In (ELook F) (t_es t) /\ fixed_content T F p content cfg acc = Ok c in
    f_file (p_fs s) p = f_file F0 p \/
    (exists c, new c /\ f_file (p_fs s) p = Some c) \/
    (* being written, or the disk is full *)
    (exists c n, new c /\ f_file (p_fs s) p = Some (firstn n c) /\
       ((exists k, t_now t = Writing p c k) \/ exists e, m_write M p = WPart e n /\ In (EWrite p c (Err e)) (t_es t))).
Proof.
  intros T M ans ps autofix opts hook F0 s N H.
  destruct (reach_ok T M ans ps autofix opts hook F0 N s H) as (P1 & P2 & P3). split; auto.
  intros [p es n] Ht. cbn [t_path t_now t_es]. cbv zeta. pose proof (P2 _ Ht) as [L K]. cbn [t_path t_now t_es] in *.
  set (new es c := accepted autofix (given es) <> [] /\ exists content cfg F F', f_file F0 p = Some content /\
                   In (ELook F') es /\ generate_config (t_env T) F' p None opts = Ok cfg /\
                   In (ELook F) es /\ fixed_content T F p content cfg (accepted autofix (given es)) = Ok c).
  assert (New : forall es1 c w es2 o, run (fixit_file T p autofix opts hook) (es1 ++ EWrite p c w :: es2) o ->
     (forall es3 G es4, es1 ++ EWrite p c w :: es2 = es3 ++ ELook G :: es4 -> written es3 = [] -> f_file G p = f_file F0 p) ->
     new (es1 ++ EWrite p c w :: es2) c).
  { intros es1 c w es2 o R Lk. destruct (C31_writes _ _ _ _ _ _ _ R) as (_ & _ & [W|W]).
    - rewrite written_app in W. cbn [written] in W. destruct (written es1); discriminate.
    - destruct W as (F & content & F1 & cfg & es3 & c' & w' & es4 & acc & E & Ec & _ & _ & Eg & Rb & _ & Ea & Na & _ & W1 & (W2 & _ & W3)).
      assert (X : written (es1 ++ EWrite p c w :: es2) = [(p, c')]).
      { rewrite E. cbn [written]. rewrite written_app. cbn [written]. now rewrite W1, W2. }
      assert (c' = c).
      { rewrite written_app in X. cbn [written] in X. destruct (written es1) as [|y l]; [now injection X|].
        injection X as _ X. destruct l; discriminate. }
      subst c'.
      assert (A4 : accepted autofix (given es4) = []).
      { destruct w' as [[]|e]; [now subst es4|]. destruct W3 as [->|(a & ->)]; reflexivity. }
      assert (Ac : accepted autofix (given (es1 ++ EWrite p c w :: es2)) = acc).
      { rewrite E. cbn [given]. rewrite given_app, accepted_app. cbn [given]. now rewrite A4, app_nil_r. }
      pose proof (C30_content _ _ _ _ _ _ _ _ Rb) as Cb. cbn zeta in Cb. destruct Cb as (_ & _ & F2 & I2 & E2). rewrite <- Ea in E2.
      unfold new. rewrite Ac. split; auto. exists content, cfg, F2, F1.
      split; [rewrite <- Ec; symmetry; exact (Lk [] F _ E eq_refl)|]. rewrite E. split; [simpl; auto|]. split; auto. split; auto.
      right. right. apply in_app_iff. auto. }
  destruct n as [q|w c k].
  - destruct K as [K1 [[_ K2]|(c & w & K2 & K3)]]; auto.
    assert (Nw : new es c).
    { apply in_split in K2. destruct K2 as (es1 & es2 & ->). apply (New es1 c w es2 Stopped); auto. rewrite <- (app_nil_r (es1 ++ _)). apply K1. constructor. }
    destruct K3 as [(_ & _ & K3)|[(e & _ & _ & K3)|(e & n & K3 & -> & K4)]]; auto.
    + right. left. exists c. split; [exact Nw|auto].
    + right. right. exists c, n. split; [exact Nw|]. split; auto. right. exists e. auto.
  - destruct K as (K1 & K2 & K3 & n & K4).
    assert (R : run (fixit_file T p autofix opts hook) (es ++ EWrite w c (Ok tt) :: []) Stopped) by (apply K1; constructor).
    destruct (own_path _ _ _ _ _ _ _ _ _ _ _ R) as [-> _].
    right. right. exists c, n. split; [|split; eauto].
    assert (Nw : new (es ++ [EWrite p c (Ok tt)]) c).
    { apply (New es c (Ok tt) [] Stopped R). intros es3 G es4 E W. destruct es4 as [|x es4 _] using rev_ind.
      + apply app_inj_tail in E. destruct E as [_ E]. discriminate.
      + rewrite app_comm_cons, app_assoc in E. apply app_inj_tail in E. destruct E as [-> _]. eauto. }
    assert (Gi : given (es ++ [EWrite p c (Ok tt)]) = given es) by (rewrite given_app; cbn [given]; apply app_nil_r).
    unfold new in Nw. rewrite Gi in Nw. destruct Nw as (Na & content & cfg & F & F' & A & B & C & D & E). split; auto.
    exists content, cfg, F, F'. split; auto. apply in_app_iff in B, D. destruct B as [B|[B|[]]]; [|discriminate]. destruct D as [D|[D|[]]]; [|discriminate]. auto.
Qed.

(** ** C37: parallel and sequential *)

(** Linting does not depend on the content of the files being linted, except that of the file itself:
    none of them is a configuration file, a local rule, or read by a formatter. *)
Definition agree (ps : list path) (F G : fs) : Prop :=
  (forall q, f_isdir F q = f_isdir G q) /\ (forall q, ~ In q ps -> f_file F q = f_file G q).

Definition independent (T : tool) (ps : list path) (opts : option options) : Prop :=
  forall F G, agree ps F G ->
    (forall p, In p ps -> generate_config (t_env T) F p None opts = generate_config (t_env T) G p None opts) /\
    (forall cfg, t_collect T F cfg = t_collect T G cfg) /\
    (forall cfg md rules, t_visit T F cfg md rules = t_visit T G cfg md rules) /\
    (forall m p cfg, format_module T F m p cfg = format_module T G m p cfg).

Section Parallel.
  Variables (ps : list path) (p : path).

  (** Two file systems that look the same to the task for [p]. *)
  Definition seen (F G : fs) : Prop := agree ps F G /\ f_file F p = f_file G p.

  (** Generators that behave the same, given file systems that look the same. *)
  Inductive sim {R} : prog R -> prog R -> Prop :=
  | sim_ret : forall r, sim (Ret r) (Ret r)
  | sim_raise : forall e, sim (Raise e) (Raise e)
  | sim_give : forall x k k', (forall a, sim (k a) (k' a)) -> sim (Give x k) (Give x k')
  | sim_look : forall k k', (forall F G, seen F G -> sim (k F) (k' G)) -> sim (Look k) (Look k')
  | sim_write : forall c k k', (forall o, sim (k o) (k' o)) -> sim (Write p c k) (Write p c k')
  | sim_call : forall m k k', (forall o, sim (k o) (k' o)) -> sim (Call m k) (Call m k').

  Lemma sim_catch : forall R (q q' : prog R) h h', sim q q' -> (forall e, sim (h e) (h' e)) ->
    sim (catch q h) (catch q' h').
  Proof. intros R q q' h h' H Hh. induction H; cbn [catch]; auto; constructor; auto. Qed.

  Lemma sim_pbind : forall A B (q q' : prog A) (f f' : A -> prog B), sim q q' -> (forall a, sim (f a) (f' a)) ->
    sim (pbind q f) (pbind q' f').
  Proof. intros A B q q' f f' H Hh. induction H; cbn [pbind]; auto; constructor; auto. Qed.

  Lemma sim_lift : forall A B (r : res A) (f f' : A -> prog B), (forall a, sim (f a) (f' a)) ->
    sim (lift r f) (lift r f').
  Proof. intros A B [a|e] f f' H; cbn [lift]; auto. constructor. Qed.

  Variables (T : tool) (opts : option options).
  Hypothesis indep : independent T ps opts.
  Hypothesis linted : In p ps.

  Lemma sim_loop : forall autofix evs r clean pending k k',
    (forall c l, sim (k c l) (k' c l)) ->
    sim (lint_loop p autofix evs r clean pending k) (lint_loop p autofix evs r clean pending k').
  Proof.
    intros autofix evs. induction evs as [|[v|m] evs IH]; intros r clean pending k k' H; cbn [lint_loop].
    - apply sim_lift. auto.
    - constructor. auto.
    - constructor. intro o. apply sim_lift. auto.
  Qed.

  Lemma sim_finish : forall cfg md pending, sim (finish_fixes T p cfg md pending) (finish_fixes T p cfg md pending).
  Proof.
    intros cfg md pending. unfold finish_fixes. destruct pending; [constructor|].
    apply sim_lift. intros [m|]; [|constructor]. constructor. intros F G [S _].
    destruct (indep F G S) as (_ & _ & _ & Hf). rewrite Hf. apply sim_lift. constructor.
  Qed.

  Lemma sim_bytes : forall content cfg autofix hook,
    sim (fixit_bytes T p content cfg autofix hook) (fixit_bytes T p content cfg autofix hook).
  Proof.
    intros content cfg autofix hook. unfold fixit_bytes. apply sim_catch.
    - constructor. intros F G [S _]. destruct (indep F G S) as (_ & Hc & Hv & _). rewrite Hc.
      apply sim_lift. intros [|r rs]; [repeat constructor|]. apply sim_lift. intro md. rewrite Hv.
      destruct (collect_violations _ _ _ _) as [evs r0]. apply sim_loop. intros [|] l.
      + constructor. intros _. apply sim_finish.
      + apply sim_finish.
    - intro e. repeat constructor.
  Qed.

  Lemma sim_file : forall autofix hook,
    sim (fixit_file T p autofix opts hook) (fixit_file T p autofix opts hook).
  Proof.
    intros autofix hook. unfold fixit_file. apply sim_catch.
    - constructor. intros F G [_ Sp]. rewrite Sp. destruct (f_file G p) as [content|]; [|constructor].
      constructor. intros F1 G1 [S1 _]. destruct (indep F1 G1 S1) as (Hg & _). rewrite (Hg p linted).
      apply sim_lift. intro cfg. apply sim_pbind; [apply sim_bytes|].
      intros [[|x c]|]; try constructor. destruct (negb _); [|constructor].
      constructor. intro o. apply sim_lift. constructor.
    - intro e. repeat constructor.
  Qed.

  Variable M : machine.

  Lemma upd_seen : forall F G c, seen F G -> seen (upd F p c) (upd G p c).
  Proof.
    intros F G c [[S1 S2] S3]. split; [split|].
    - exact S1.
    - intros q Hq. rewrite !upd_other by (intros ->; contradiction). auto.
    - now rewrite !upd_same.
  Qed.

  Lemma after_seen : forall F G c, seen F G ->
    seen (fst (after_write M F p c)) (fst (after_write M G p c)) /\ snd (after_write M F p c) = snd (after_write M G p c).
  Proof. intros F G c S. unfold after_write. destruct (m_write M p); cbn [fst snd]; auto using upd_seen. Qed.

  (** Running a generator alone: what it gives depends only on what it sees, and it changes only [p]. *)
  Lemma exec_sim : forall R (q q' : prog R), sim q q' -> forall F G, seen F G ->
    let '(F', xs, o) := exec M q F in let '(G', ys, o') := exec M q' G in
    xs = ys /\ o = o' /\ seen F' G'.
  Proof.
    intros R q q' H. induction H as [r|e|x k k' H IH|k k' H IH|c k k' H IH|m k k' H IH]; intros F G S; cbn [exec]; auto.
    - specialize (IH None F G S). destruct (exec M (k None) F) as [[F' xs] o]. destruct (exec M (k' None) G) as [[G' ys] o'].
      destruct IH as (-> & -> & I). auto.
    - apply IH; auto.
    - destruct (after_seen F G c S) as [A B]. destruct (after_write M F p c) as [F1 w]. destruct (after_write M G p c) as [G1 w'].
      cbn [fst snd] in *. subst w'. apply IH. exact A.
    - apply IH. exact S.
  Qed.

  Lemma exec_frame : forall R (q q' : prog R), sim q q' -> forall F,
    let '(F', xs, o) := exec M q F in
    (forall x, f_isdir F' x = f_isdir F x) /\ (forall x, x <> p -> f_file F' x = f_file F x).
  Proof.
    intros R q q' H. induction H as [r|e|x k k' H IH|k k' H IH|c k k' H IH|m k k' H IH]; intros F; cbn [exec]; auto.
    - specialize (IH None F). destruct (exec M (k None) F) as [[F' xs] o]. auto.
    - apply (IH F F). split; [split|]; auto.
    - unfold after_write. destruct (m_write M p) as [|e|e n]; cbn [fst snd].
      + specialize (IH (Ok tt) (upd F p c)). destruct (exec M (k (Ok tt)) (upd F p c)) as [[F' xs] o].
        destruct IH as [I1 I2]. split; auto. intros x Hx. rewrite I2 by auto. now apply upd_other.
      + apply IH.
      + specialize (IH (Err e) (upd F p (firstn n c))). destruct (exec M (k (Err e)) _) as [[F' xs] o].
        destruct IH as [I1 I2]. split; auto. intros x Hx. rewrite I2 by auto. now apply upd_other.
    - apply IH.
  Qed.
End Parallel.

Lemma sim_self_look : forall ps p R k F, @sim ps p R (Look k) (Look k) -> sim ps p (k F) (k F).
Proof. intros ps p R k F H. inversion H as [| | |? ? H1| |]; subst. apply H1. split; [split|]; auto. Qed.

(** What one file gives when it is processed alone, from the file system [F]. *)
Definition alone (T : tool) (M : machine) (autofix : bool) (opts : option options) (hook : bool) (F : fs) (p : path)
  : option str * list result :=
  let '(F', xs, _) := exec M (fixit_file T p autofix opts hook) F in (f_file F' p, xs).

Lemma exec_returns : forall ps p M R (q q' : prog R), sim ps p q q' ->
  (forall es o, run q es o -> forall e, o <> Raised e) -> forall F,
  exists F' xs r, exec M q F = (F', xs, Returned r).
Proof.
  intros ps p M R q q' H. induction H as [r|e|x k k' H IH|k k' H IH|c k k' H IH|m k k' H IH]; intros NR F; cbn [exec].
  - eauto.
  - exfalso. apply (NR [] (Raised e) (run_raise e) e eq_refl).
  - destruct (IH None) with (F := F) as (F' & xs & r & ->); eauto.
    intros es o K. apply (NR (EGive x None :: es)). now constructor.
  - apply (IH F F); [split; [split|]; auto|].
    intros es o K. apply (NR (ELook F :: es)). now constructor.
  - destruct (after_write M F p c) as [F1 w]. apply IH.
    intros es o K. apply (NR (EWrite p c w :: es)). now constructor.
  - apply IH. intros es o K. apply (NR (ECall m (m_hook M m) :: es)). now constructor.
Qed.

Lemma exec_pbind : forall M A B (q : prog A) (f : A -> prog B) F,
  exec M (pbind q f) F =
  let '(F', xs, o) := exec M q F in
  match o with
  | Returned r => let '(F'', ys, o') := exec M (f r) F' in (F'', xs ++ ys, o')
  | Raised e => (F', xs, Raised e)
  | Stopped => (F', xs, Stopped)
  end.
Proof.
  intros M A B q f. induction q as [r|e|x k IH|k IH|q c k IH|k IH|c k IH|m k IH]; intro F; cbn [exec pbind]; auto.
  - destruct (exec M (f r) F) as [[F' ys] o]. reflexivity.
  - rewrite IH. destruct (exec M (k None) F) as [[F' xs] o]. destruct o as [r|e|]; auto.
    destruct (exec M (f r) F') as [[F'' ys] o']. reflexivity.
  - destruct (after_write M F q c) as [F1 w]. apply IH.
Qed.

Lemma seen_refl : forall ps p F, seen ps p F F.
Proof. intros. split; [split|]; auto. Qed.

(** Doing the files one after the other gives each file what it gives alone. *)
Lemma serial_alone : forall T M autofix opts hook ps0 ps F,
  independent T ps0 opts -> (forall q, In q ps -> In q ps0) -> NoDup ps ->
  exists F' xs, exec M (serial T ps autofix opts hook) F = (F', xs, Returned tt) /\
    xs = flat_map (fun p => snd (alone T M autofix opts hook F p)) ps /\
    (forall q, In q ps -> f_file F' q = fst (alone T M autofix opts hook F q)) /\
    (forall q, ~ In q ps -> f_file F' q = f_file F q) /\ (forall q, f_isdir F' q = f_isdir F q).
Proof.
  intros T M autofix opts hook ps0. induction ps as [|p ps IH]; intros F I Sub N; cbn [serial].
  - exists F, []. cbn. repeat split; auto. intros q [].
  - inversion N as [|? ? Np N']; subst. assert (Hp : In p ps0) by (apply Sub; simpl; auto).
    pose proof (sim_file ps0 p T opts I Hp autofix hook) as Sf.
    rewrite exec_pbind.
    destruct (exec_returns ps0 p M _ _ _ Sf) with (F := F) as (F1 & xs & r & E1).
    { intros es o R. now apply (C31_writes _ _ _ _ _ _ _ R). }
    pose proof (exec_frame ps0 p M _ _ _ Sf F) as Fr. rewrite E1 in *. destruct Fr as [Fr1 Fr2].
    destruct (IH F1) as (F2 & ys & E2 & E3 & E4 & E5 & E6); auto. { intros q Hq. apply Sub. simpl. auto. }
    rewrite E2. exists F2, (xs ++ ys).
    assert (Al : forall q, In q ps -> alone T M autofix opts hook F1 q = alone T M autofix opts hook F q).
    { intros q Hq. assert (Hq0 : In q ps0) by (apply Sub; simpl; auto). assert (q <> p) by (intros ->; contradiction).
      pose proof (exec_sim ps0 q Hq0 M _ _ _ (sim_file ps0 q T opts I Hq0 autofix hook) F1 F) as S.
      unfold alone. destruct (exec M (fixit_file T q autofix opts hook) F1) as [[G1 zs] o].
      destruct (exec M (fixit_file T q autofix opts hook) F) as [[G2 zs'] o']. destruct S as (-> & _ & [_ S]).
      { split; [split|]; auto. intros x Hx. apply Fr2. intros ->. contradiction. }
      now rewrite S. }
    split; [reflexivity|]. split; [|split; [|split]].
    + cbn [flat_map]. f_equal.
      * unfold alone. rewrite E1. reflexivity.
      * rewrite E3. clear -Al. induction ps as [|q ps IHp]; [reflexivity|]. cbn [flat_map].
        rewrite Al by (simpl; auto). rewrite IHp; auto. intros x Hx. apply Al. simpl. auto.
    + intros q [<-|Hq].
      * rewrite E5 by auto. unfold alone. rewrite E1. reflexivity.
      * rewrite E4 by auto. now rewrite Al.
    + intros q Hq. rewrite E5 by (intro; apply Hq; simpl; auto). apply Fr2. intros ->. apply Hq. simpl. auto.
    + intro q. rewrite E6. apply Fr1.
Qed.

Section Parallel2.
  Variables (T : tool) (M : machine) (ps : list path) (autofix : bool) (opts : option options) (hook : bool) (F0 : fs).
  Hypothesis indep : independent T ps opts.
  Hypothesis distinct : NoDup ps.

  (** Going on alone from here, a task will end with the results and the content it gives alone. *)
  Definition on_track (F : fs) (t : task) : Prop :=
    let p := t_path t in
    let fin F (q : prog unit) xs0 := let '(F', xs, o) := exec M q F in
                     o = Returned tt /\ (f_file F' p, xs0 ++ xs) = alone T M autofix opts hook F0 p in
    match t_now t with
    | Running q => sim ps p q q /\ fin F q (results (t_es t))
    | Writing w c k => w = p /\ (forall o, sim ps p (k o) (k o)) /\ (forall e, m_write M p <> WFail e) /\
        fin (fst (after_write M F p c)) (k (snd (after_write M F p c))) (results (t_es t))
    end.

  Lemma fin_other : forall F G p (q : prog unit) xs0, In p ps -> sim ps p q q -> seen ps p F G ->
    (let '(F', xs, o) := exec M q F in o = Returned tt /\ (f_file F' p, xs0 ++ xs) = alone T M autofix opts hook F0 p) ->
    (let '(F', xs, o) := exec M q G in o = Returned tt /\ (f_file F' p, xs0 ++ xs) = alone T M autofix opts hook F0 p).
  Proof.
    intros F G p q xs0 Hp S Se H. pose proof (exec_sim ps p Hp M _ _ _ S F G Se) as E.
    destruct (exec M q F) as [[F' xs] o], (exec M q G) as [[G' ys] o']. destruct E as (<- & <- & [_ E]). rewrite <- E. exact H.
  Qed.

  Lemma results_snoc : forall es e, results (es ++ [e]) = results es ++ match e with EGive x _ => [x] | _ => [] end.
  Proof. intros. rewrite results_app. destruct e; reflexivity. Qed.

  Lemma step_on_track : forall F t F' t', task_step M (eq None) F t F' t' -> In (t_path t) ps -> on_track F t -> on_track F' t'.
  Proof.
    intros F t F' t' H Hp K.
    destruct H as [F p es x k a <-|F p es k|F p es m k|F p es w c k Hw|F p es w c k e Hw|F p es w c k n|F p es w c k];
      unfold on_track in *; cbn [t_path t_es t_now] in *.
    - destruct K as [S K]. inversion S as [| |? ? ? S1| | |]; subst. split; auto. cbn [exec] in K.
      rewrite results_snoc. destruct (exec M (k None) F) as [[F1 xs] o]. rewrite <- app_assoc. exact K.
    - destruct K as [S K]. split; [now apply sim_self_look|]. rewrite results_snoc, app_nil_r. exact K.
    - destruct K as [S K]. inversion S as [| | | | |? ? ? S1]; subst. split; auto. rewrite results_snoc, app_nil_r. exact K.
    - destruct K as [S K]. assert (w = p) as -> by (inversion S; auto). inversion S as [| | | |? ? ? S1|]. repeat split; auto.
      cbn [exec] in K. destruct (after_write M F p c) as [F1 w] eqn:A.
      assert (A' : snd (after_write M (upd F p []) p c) = w /\ seen ps p F1 (fst (after_write M (upd F p []) p c))).
      { revert A. unfold after_write. destruct (m_write M p) as [|e|e n] eqn:E; intro A; injection A as <- <-; cbn [fst snd].
        - split; auto. split; [split|]; auto.
          + intros q Hq. cbn. destruct (path_eqb q p) eqn:Eq; auto.
          + now rewrite !upd_same.
        - now destruct (Hw e).
        - split; auto. split; [split|]; auto.
          + intros q Hq. cbn. destruct (path_eqb q p) eqn:Eq; auto.
          + now rewrite !upd_same. }
      destruct A' as [-> A']. apply fin_other with F1; auto.
    - destruct K as [S K]. assert (w = p) as -> by (inversion S; auto). inversion S as [| | | |? ? ? S1|]. split; auto. rewrite results_snoc, app_nil_r.
      cbn [exec] in K. unfold after_write in K. rewrite Hw in K. exact K.
    - destruct K as (-> & S & Hw & K). repeat split; auto.
      assert (A' : snd (after_write M (upd F p (firstn n c)) p c) = snd (after_write M F p c) /\
                   seen ps p (fst (after_write M F p c)) (fst (after_write M (upd F p (firstn n c)) p c))).
      { unfold after_write. destruct (m_write M p) as [|e|e n'] eqn:E; cbn [fst snd].
        - split; auto. split; [split|]; auto.
          + intros q Hq. cbn. destruct (path_eqb q p) eqn:Eq; auto.
          + now rewrite !upd_same.
        - now destruct (Hw e).
        - split; auto. split; [split|]; auto.
          + intros q Hq. cbn. destruct (path_eqb q p) eqn:Eq; auto.
          + now rewrite !upd_same. }
      destruct A' as [-> A']. eapply fin_other; eauto.
    - destruct K as (-> & S & Hw & K). split; auto. rewrite results_snoc, app_nil_r. exact K.
  Qed.

  Lemma track_other : forall F G t, In (t_path t) ps -> seen ps (t_path t) F G -> on_track F t -> on_track G t.
  Proof.
    intros F G [p es [q|w c k]] Hp S K; unfold on_track in *; cbn [t_path t_es t_now] in *.
    - destruct K as [K1 K2]. split; auto. apply fin_other with F; auto.
    - destruct K as (-> & K1 & K2 & K3). repeat split; auto. destruct (after_seen ps p Hp M F G c S) as [A B].
      rewrite <- B. apply fin_other with (fst (after_write M F p c)); auto.
  Qed.

  Definition pool_track (s : pool) : Prop := forall t, In t (p_tasks s) -> on_track (p_fs s) t.

  Lemma task_isdir : forall F t F' t', task_step M (eq None) F t F' t' -> forall q, f_isdir F' q = f_isdir F q.
  Proof.
    intros F t F' t' H q. destruct H as [| | | | | |? ? ? w ? ?]; try reflexivity.
    unfold after_write. destruct (m_write M w); reflexivity.
  Qed.

  Lemma reach_track : forall s, reach M (eq None) (start_pool T ps autofix opts hook F0) s -> pool_track s.
  Proof.
    intros s H. induction H as [|s1 s2 H IH St].
    - intros t Ht. cbn [p_tasks start_pool p_fs] in *. apply in_map_iff in Ht. destruct Ht as (p & <- & Hp).
      unfold on_track. cbn [t_path t_now t_es]. pose proof (sim_file ps p T opts indep Hp autofix hook) as S.
      split; auto. destruct (exec_returns ps p M _ _ _ S) with (F := F0) as (F' & xs & [] & E).
      { intros es o R. now apply (C31_writes _ _ _ _ _ _ _ R). }
      rewrite E. split; auto. unfold alone. now rewrite E.
    - pose proof (reach_ok T M (eq None) ps autofix opts hook F0 distinct s1 H) as (P1 & P2 & P3).
      destruct St as [F F' ts1 t t' ts2 St]. cbn [p_tasks p_fs] in *.
      destruct (task_step_ok T M (eq None) autofix opts hook F0 _ _ _ _ St) as (A & B & C); [apply P2, in_app_iff; simpl; auto|].
      assert (D : forall y, In y (ts1 ++ ts2) -> t_path y <> t_path t).
      { intros y Hy E. rewrite <- P1, map_app in distinct. cbn [map] in distinct.
        apply NoDup_remove_2 in distinct. apply distinct. rewrite <- map_app, <- E. now apply in_map. }
      assert (Tp : In (t_path t) ps) by (rewrite <- P1, map_app, in_app_iff; simpl; auto).
      intros x Hx. cbn [p_tasks p_fs] in *. apply in_app_iff in Hx. cbn [In] in Hx.
      assert (O : In x (ts1 ++ ts2) -> on_track F' x).
      { intro Hy. apply track_other with F.
        - rewrite <- P1, map_app, in_app_iff. cbn [map In]. apply in_app_iff in Hy.
          destruct Hy as [Hy|Hy]; apply (in_map t_path) in Hy; auto.
        - split; [split|].
          + intro q. symmetry. now apply (task_isdir _ _ _ _ St).
          + intros q Hq. symmetry. apply C. intros ->. contradiction.
          + symmetry. apply C. now apply D.
        - apply IH. apply in_app_iff in Hy. apply in_app_iff. simpl. tauto. }
      destruct Hx as [Hx|[<-|Hx]]; [apply O, in_app_iff; auto| |apply O, in_app_iff; auto].
      apply step_on_track with F t; auto. apply IH, in_app_iff. simpl. auto.
  Qed.
End Parallel2.

(** For every schedule, when all workers are done: the results of each file, and all file contents,
    are those of processing the files one after the other in one process. *)
Theorem C37_same : forall T M ps autofix opts hook F0 s,
  independent T ps opts -> NoDup ps ->
  reach M (eq None) (start_pool T ps autofix opts hook F0) s -> (forall t, In t (p_tasks s) -> done t) ->
  exists F xs, exec M (serial T ps autofix opts hook) F0 = (F, xs, Returned tt) /\
    map t_path (p_tasks s) = ps /\
    flat_map (fun t => results (t_es t)) (p_tasks s) = xs /\
    (forall t, In t (p_tasks s) -> results (t_es t) = snd (alone T M autofix opts hook F0 (t_path t))) /\
    (forall q, f_file (p_fs s) q = f_file F q).
Proof.
  intros T M ps autofix opts hook F0 s I N R D.
  pose proof (reach_track T M ps autofix opts hook F0 I N s R) as Tr.
  pose proof (reach_ok T M (eq None) ps autofix opts hook F0 N s R) as (P1 & P2 & P3).
  destruct (serial_alone T M autofix opts hook ps ps F0) as (F & xs & E1 & E2 & E3 & E4 & E5); auto.
  assert (K : forall t, In t (p_tasks s) ->
     (f_file (p_fs s) (t_path t), results (t_es t)) = alone T M autofix opts hook F0 (t_path t)).
  { intros t Ht. pose proof (Tr t Ht) as K. unfold on_track in K. rewrite (D t Ht) in K. destruct K as [_ K].
    cbn [exec] in K. destruct K as [_ K]. now rewrite app_nil_r in K. }
  exists F, xs. split; auto. split; auto. split; [|split].
  - rewrite E2, <- P1. clear -K. induction (p_tasks s) as [|t l IH]; [reflexivity|]. cbn [flat_map map].
    rewrite IH by (intros; apply K; simpl; auto). f_equal. now rewrite <- K by (simpl; auto).
  - intros t Ht. now rewrite <- K.
  - intro q. destruct (in_dec (list_eq_dec str_eq_dec) q ps) as [Hq|Hq].
    + rewrite E3 by auto. rewrite <- P1 in Hq. apply in_map_iff in Hq. destruct Hq as (t & <- & Ht). now rewrite <- K.
    + rewrite E4 by auto. now apply P3.
Qed.

(** No schedule gets stuck. *)
Theorem C37_progress : forall T M ps autofix opts hook F0 s,
  independent T ps opts -> NoDup ps ->
  reach M (eq None) (start_pool T ps autofix opts hook F0) s ->
  (forall t, In t (p_tasks s) -> done t) \/ exists s', pool_step M (eq None) s s'.
Proof.
  intros T M ps autofix opts hook F0 s I N R. pose proof (reach_track T M ps autofix opts hook F0 I N s R) as Tr.
  assert (K : forall t, In t (p_tasks s) -> done t \/ exists F' t', task_step M (eq None) (p_fs s) t F' t').
  { intros t Ht. pose proof (Tr t Ht) as K. destruct t as [p es [q|w c k]]; unfold on_track in K; cbn [t_path t_es t_now] in K.
    - destruct K as [S K]. inversion S as [r|e|x k k' S1|k k' S1|c k k' S1|m k k' S1]; subst.
      + destruct r. left. reflexivity.
      + cbn [exec] in K. now destruct K.
      + right. eexists. eexists. now constructor.
      + right. eexists. eexists. constructor.
      + right. destruct (m_write M p) as [|e|e n] eqn:E.
        * eexists. eexists. apply st_open. rewrite E. discriminate.
        * eexists. eexists. now apply st_noopen with (e := e).
        * eexists. eexists. apply st_open. rewrite E. discriminate.
      + right. eexists. eexists. constructor.
    - right. eexists. eexists. apply st_close. }
  destruct s as [F ts]. cbn [p_tasks p_fs] in *.
  assert (G : forall l, (forall t, In t l -> In t ts) -> (forall t, In t l -> done t) \/
     exists l1 t l2 F' t', l = l1 ++ t :: l2 /\ task_step M (eq None) F t F' t').
  { induction l as [|t l IH]; intro Sub; [left; intros t []|].
    destruct (K t) as [Dt|(F' & t' & St)]; [apply Sub; simpl; auto| |].
    - destruct IH as [Dl|(l1 & x & l2 & F' & x' & -> & St)]; [intros; apply Sub; simpl; auto| |].
      + left. intros x [<-|Hx]; auto.
      + right. exists (t :: l1), x, l2, F', x'. auto.
    - right. exists [], t, l, F', t'. auto. }
  destruct (G ts) as [Dl|(l1 & x & l2 & F' & x' & -> & St)]; auto. right. eexists. constructor. exact St.
Qed.

(** Files that are not called like a configuration file have no influence on the configuration. *)
Theorem C37_config : forall E ps opts F G p,
  (forall q name, In (q ++ [name]) ps -> ~ In name [u "fixit.toml"; u ".fixit.toml"; u "pyproject.toml"]) ->
  (forall o f, opts = Some o -> o_config_file o = Some f -> ~ In (resolve f) ps) ->
  agree ps F G ->
  generate_config E F p None opts = generate_config E G p None opts.
Proof.
  intros E ps opts F G p Hn Ho [A1 A2]. unfold generate_config.
  assert (Hc : forall d name, In name config_filenames -> f_file F (d ++ [name]) = f_file G (d ++ [name])).
  { intros d name Hname. apply A2. intro Hin. now apply (Hn _ _ Hin). }
  assert (L : forall root r, locate_loop F root r = locate_loop G root r).
  { intros root. induction r as [|x r IH]; cbn [locate_loop].
    - f_equal. unfold is_file. cbn [map filter config_filenames]. 
      rewrite !(Hc (rev [])) by (simpl; auto). reflexivity.
    - rewrite IH. f_equal. unfold is_file. cbn [map filter config_filenames].
      rewrite !(Hc (rev (x :: r))) by (simpl; auto). reflexivity. }
  assert (Lc : forall root q, locate_configs F q root = locate_configs G q root).
  { intros root q. unfold locate_configs. rewrite A1, L. reflexivity. }
  assert (In_loop : forall root r q, In q (locate_loop F root r) -> exists d name, q = d ++ [name] /\ In name config_filenames).
  { intros root. induction r as [|x r IH]; intros q Hq; cbn [locate_loop] in Hq; apply in_app_iff in Hq; destruct Hq as [Hq|Hq].
    - apply filter_In in Hq. destruct Hq as [Hq _]. apply in_map_iff in Hq. destruct Hq as (n & <- & Hq). eauto.
    - contradiction.
    - apply filter_In in Hq. destruct Hq as [Hq _]. apply in_map_iff in Hq. destruct Hq as (n & <- & Hq). eauto.
    - destruct (path_eqb _ _); [contradiction|eauto]. }
  assert (Rd : forall root q l, locate_configs F q root = Ok l -> read_configs E F l = read_configs E G l).
  { intros root q l Hl. apply ConfigDiscover.read_agree. intros x Hx. unfold locate_configs in Hl.
    destruct (is_prefix _ _); [|discriminate]. injection Hl as <-. apply In_loop in Hx. destruct Hx as (d & name & -> & Hname).
    unfold resolve. rewrite fold_left_app. cbn [fold_left].
    assert (N : str_eqb name (u "..") = false).
    { apply str_eqb_neq. intros ->. cbn in Hname. destruct Hname as [X|[X|[X|[]]]]; discriminate. }
    rewrite N. now apply Hc. }
  destruct opts as [o|].
  - destruct (o_config_file o) as [f|] eqn:Ef.
    + cbn [bind]. rewrite (ConfigDiscover.read_agree E F G [f]); auto. intros x [<-|[]]. apply A2. eapply Ho; eauto.
    + rewrite <- Lc. destruct (locate_configs F (resolve p) None) as [l|e] eqn:El; [|reflexivity]. cbn [bind].
      rewrite (Rd _ _ _ El). reflexivity.
  - rewrite <- Lc. destruct (locate_configs F (resolve p) None) as [l|e] eqn:El; [|reflexivity]. cbn [bind].
    rewrite (Rd _ _ _ El). reflexivity.
Qed.

(** ** Concrete cases *)

Definition b_file : path := [u "d"; u "b.py"].
Definition two_files : list path := [ex_file; b_file].
Definition fs2 : fs :=
  FS (fun p => if path_eqb p ex_file then Some (code ex_module) else if path_eqb p b_file then Some (u "y") else None)
     (fun p => path_eqb p [u "d"]).
Definition fine : machine := Machine (fun _ => WOk) (fun _ => Ok tt).
Definition new_text : str := u "x = f(99, 2)" ++ nl.

Example C37_example : independent (ex_tool false ex_rules) two_files None /\ NoDup two_files.
Proof.
  split.
  - intros F G A. split; [|split; [reflexivity|split; [reflexivity|]]].
    + intros p _. apply C37_config with two_files; auto.
      * intros q name [H|[H|[]]]; apply (app_inj_tail [u "d"]) in H; destruct H as [_ <-];
          intros [X|[X|[X|[]]]]; discriminate.
      * discriminate.
    + intros m p cfg. unfold format_module. cbn. destruct (c_formatter cfg) as [s|]; auto.
      match goal with |- context[str_eqb s ?b] => destruct (str_eqb s b) end; reflexivity.
  - repeat constructor; simpl; intuition discriminate.
Qed.

Example C37_example_serial :
  let '(F, xs, o) := exec fine (serial (ex_tool false ex_rules) two_files true None false) fs2 in
  f_file F ex_file = Some new_text /\ f_file F b_file = Some new_text /\ List.length xs = 6 /\ o = Returned tt.
Proof. vm_compute. repeat split. Qed.

(** The hypothesis is needed: with a rule that reads another linted file the order shows. Here the rules of
    b.py depend on the text of the other file, as a rule that follows imports does. *)
Definition nosy_tool : tool :=
  Tool (ex_env false) (fun F _ => Ok [match f_file F ex_file with Some t => str_eqb t (code ex_module) | None => false end])
       (fun s => Ok ex_module)
       (fun _ _ _ l => Ok (if existsb (fun b => b) l then ex_rules else [], [])) (fun _ a b => b) (fun m => Ok (code m))
       (fun s => None) (fun _ p => Ok [p]).

Lemma reach_trans : forall M ans s s1 s2, reach M ans s s1 -> reach M ans s1 s2 -> reach M ans s s2.
Proof. intros M ans s s1 s2 H K. induction K; auto. econstructor; eauto. Qed.

(** A schedule: which task makes the next step. *)
Definition tstep (M : machine) (F : fs) (t : task) : option (fs * task) :=
  match t_now t with
  | Running (Give x k) => Some (F, Task (t_path t) (t_es t ++ [EGive x None]) (Running (k None)))
  | Running (Look k) => Some (F, Task (t_path t) (t_es t ++ [ELook F]) (Running (k F)))
  | Running (Call m k) => Some (F, Task (t_path t) (t_es t ++ [ECall m (m_hook M m)]) (Running (k (m_hook M m))))
  | Running (Write w c k) =>
      match m_write M w with
      | WFail e => Some (F, Task (t_path t) (t_es t ++ [EWrite w c (Err e)]) (Running (k (Err e))))
      | _ => Some (upd F w [], Task (t_path t) (t_es t) (Writing w c k))
      end
  | Writing w c k =>
      Some (fst (after_write M F w c),
            Task (t_path t) (t_es t ++ [EWrite w c (snd (after_write M F w c))]) (Running (k (snd (after_write M F w c)))))
  | _ => None
  end.

Lemma tstep_step : forall M F t F' t', tstep M F t = Some (F', t') -> task_step M (eq None) F t F' t'.
Proof.
  intros M F [p es n] F' t' H. unfold tstep in H. cbn [t_now t_path t_es] in H. destruct n as [q|w c k].
  - destruct q; try discriminate; try (injection H as <- <-; now constructor).
    destruct (m_write M p0) as [|e|e n] eqn:E; injection H as <- <-.
    + constructor. rewrite E. discriminate.
    + now apply st_noopen with (e := e).
    + constructor. rewrite E. discriminate.
  - injection H as <- <-. constructor.
Qed.

Fixpoint nth_step (M : machine) (F : fs) (n : nat) (ts : list task) : fs * list task :=
  match ts, n with
  | [], _ => (F, [])
  | t :: ts', O => match tstep M F t with Some (F', t') => (F', t' :: ts') | None => (F, ts) end
  | t :: ts', S n' => let (F', ts'') := nth_step M F n' ts' in (F', t :: ts'')
  end.

Definition schedule (M : machine) (l : list nat) (s : pool) : pool :=
  fold_left (fun s n => let (F, ts) := nth_step M (p_fs s) n (p_tasks s) in Pool F ts) l s.

Lemma nth_step_reach : forall M F n ts pre, 
  let (F', ts') := nth_step M F n ts in reach M (eq None) (Pool F (pre ++ ts)) (Pool F' (pre ++ ts')).
Proof.
  intros M F n. induction n as [|n IH]; intros [|t ts] pre; cbn [nth_step]; try apply reach_here.
  - destruct (tstep M F t) as [[F' t']|] eqn:E; [|apply reach_here].
    eapply reach_step; [apply reach_here|]. constructor. now apply tstep_step.
  - specialize (IH ts (pre ++ [t])). destruct (nth_step M F n ts) as [F' ts']. now rewrite <- !app_assoc in IH.
Qed.

Lemma schedule_reach : forall M l s, reach M (eq None) s (schedule M l s).
Proof.
  intros M l. induction l as [|n l IH]; intro s; cbn [schedule fold_left]; [apply reach_here|].
  destruct s as [F ts]. pose proof (nth_step_reach M F n ts []) as K. cbn [p_fs p_tasks]. destruct (nth_step M F n ts) as [F' ts'].
  eapply reach_trans; [exact K|apply IH].
Qed.

Theorem C37_refuted : exists T M ps F0 s,
  NoDup ps /\ reach M (eq None) (start_pool T ps true None false F0) s /\ (forall t, In t (p_tasks s) -> done t) /\
  let '(F, xs, o) := exec M (serial T ps true None false) F0 in
  o = Returned tt /\ flat_map (fun t => results (t_es t)) (p_tasks s) <> xs /\
  exists q, f_file (p_fs s) q <> f_file F q.
Proof.
  exists nosy_tool, fine, two_files, fs2,
    (schedule fine (repeat 1 30 ++ repeat 0 30) (start_pool nosy_tool two_files true None false fs2)).
  split; [apply C37_example|]. split; [apply schedule_reach|]. split.
  - intros t Ht. assert (K : map t_now (p_tasks (schedule fine (repeat 1 30 ++ repeat 0 30) (start_pool nosy_tool two_files true None false fs2)))
      = [Running (Ret tt); Running (Ret tt)]) by (vm_compute; reflexivity).
    apply (in_map t_now) in Ht. rewrite K in Ht. unfold done. destruct Ht as [<-|[<-|[]]]; reflexivity.
  - split; [vm_compute; reflexivity|]. split.
    + intro H. apply (f_equal (@List.length _)) in H. vm_compute in H. discriminate.
    + exists b_file. vm_compute. discriminate.
Qed.

(** While a file is being written, neither the old nor the new content need be there. *)
Theorem C38_truncated_refuted : exists T M ps F0 s,
  NoDup ps /\ reach M (eq None) (start_pool T ps true None false F0) s /\
  exists p, In p ps /\ f_file F0 p = Some (code ex_module) /\ f_file (p_fs s) p = Some [].
Proof.
  set (T := ex_tool false ex_rules).
  assert (K : exists n, f_file (p_fs (schedule fine (repeat 0 n) (start_pool T two_files true None false fs2))) ex_file = Some []).
  { first [exists 5; vm_compute; reflexivity | exists 6; vm_compute; reflexivity | exists 7; vm_compute; reflexivity
          |exists 8; vm_compute; reflexivity | exists 9; vm_compute; reflexivity]. }
  destruct K as [n K]. exists T, fine, two_files, fs2, (schedule fine (repeat 0 n) (start_pool T two_files true None false fs2)).
  split; [apply C37_example|]. split; [apply schedule_reach|]. exists ex_file. split; [simpl; auto|]. split; [reflexivity|exact K].
Qed.

(** A run of the pool to its end, one step of each file at a time. *)
Example C37_example_pool :
  let s := schedule fine (flat_map (fun _ => [0; 1]) (repeat 0 30)) (start_pool (ex_tool false ex_rules) two_files true None false fs2) in
  map t_now (p_tasks s) = [Running (Ret tt); Running (Ret tt)] /\
  f_file (p_fs s) ex_file = Some new_text /\ f_file (p_fs s) b_file = Some new_text.
Proof. vm_compute. repeat split. Qed.
