(** * C78: rules that are not selected, and calls of report that are silenced, make no difference at all *)
From Coq Require Import String List NArith ZArith Bool Arith.
From Verif Require Import Base PyStr Ftypes Paths Config Collect CollectSpec CollectSelect Suppress SuppressSpec SuppressProps
  Cst Engine EngineProps Batch BatchProps Api ApiSpec ApiFacts ApiProps System SystemSpec SystemProps.
Import ListNotations.

(** ** Generators that behave alike *)

Inductive alike {R} : prog R -> prog R -> Prop :=
| al_ret : forall r, alike (Ret r) (Ret r)
| al_raise : forall e, alike (Raise e) (Raise e)
| al_give : forall x k k', (forall a, alike (k a) (k' a)) -> alike (Give x k) (Give x k')
| al_look : forall k k', (forall F, alike (k F) (k' F)) -> alike (Look k) (Look k')
| al_write : forall p c k k', (forall o, alike (k o) (k' o)) -> alike (Write p c k) (Write p c k')
| al_stdin : forall k k', (forall i, alike (k i) (k' i)) -> alike (Stdin k) (Stdin k')
| al_stdout : forall c k k', (forall o, alike (k o) (k' o)) -> alike (Stdout c k) (Stdout c k')
| al_call : forall m k k', (forall o, alike (k o) (k' o)) -> alike (Call m k) (Call m k').

Lemma alike_refl : forall R (p : prog R), alike p p.
Proof. induction p; constructor; auto. Qed.

Lemma alike_sym : forall R (p q : prog R), alike p q -> alike q p.
Proof. intros R p q H. induction H; constructor; auto. Qed.

Lemma alike_run : forall R (p q : prog R), alike p q -> forall es o, run p es o -> run q es o.
Proof. intros R p q H. induction H; intros es o Hr; inversion Hr; subst; try (now constructor); constructor; eauto. Qed.

Lemma alike_pbind : forall A B (p q : prog A) (f g : A -> prog B), alike p q -> (forall a, alike (f a) (g a)) -> alike (pbind p f) (pbind q g).
Proof. intros A B p q f g H Hf. induction H; cbn [pbind]; auto; constructor; auto. Qed.

Lemma alike_catch : forall A (p q : prog A) h, alike p q -> alike (catch p h) (catch q h).
Proof. intros A p q h H. induction H; cbn [catch]; try constructor; auto using alike_refl. Qed.

Lemma alike_lift : forall A B (r : res A) (f g : A -> prog B), (forall a, r = Ok a -> alike (f a) (g a)) -> alike (lift r f) (lift r g).
Proof. intros A B [a|e] f g H; cbn [lift]; auto. constructor. Qed.

(** ** Systems whose rules do the same in the traversal *)

Section Same.
  Context (Y : system) (code : fs -> cls -> rule_code).
  Notation Y2 := (with_code Y code).

  Lemma file_alike : forall p autofix opts hook,
    (forall F F1 cfg ks d s md, generate_config (y_env Y) F1 p None opts = Ok cfg ->
       collect_rules (y_world Y F) cfg (y_py Y) = (Ok (ks, d), s) ->
       t_visit (tool_of Y) F cfg md ks = t_visit (tool_of Y2) F cfg md ks) ->
    alike (fixit_file (tool_of Y) p autofix opts hook) (fixit_file (tool_of Y2) p autofix opts hook).
  Proof.
    intros p autofix opts hook H. unfold fixit_file. apply alike_catch. constructor. intro F.
    destruct (f_file F p) as [content|]; [|constructor]. constructor. intro F1. apply alike_lift. intros cfg Eg.
    apply alike_pbind; [|intro; apply alike_refl]. cbn [t_env tool_of] in Eg.
    unfold fixit_bytes. apply alike_catch. constructor. intro F2. cbn [tool_of t_collect with_code y_world y_py t_class].
    destruct (collect_rules (y_world Y F2) cfg (y_py Y)) as [[[ks d]|e] s] eqn:Ec; cbn [fst bind lift]; [|constructor].
    destruct ks as [|k ks]; [apply alike_refl|]. cbn [t_parse with_code y_parse]. apply alike_lift. intros md _.
    specialize (H F2 F1 cfg (k :: ks) d s md Eg Ec). cbn [tool_of t_visit with_code y_wrap y_took y_unicode y_code] in H |- *. rewrite H.
    cbn [t_udiff y_udiff]. destruct (collect_violations _ _ _ _) as [evs r]. apply alike_refl.
  Qed.
End Same.

(** Rules that are not selected might have any other code: every execution stays possible and no new one appears. *)
Theorem C78_unselected : forall Y code p autofix opts hook,
  (forall F, fair_sets (y_world Y F)) ->
  (forall F F1 cfg k, generate_config (y_env Y) F1 p None opts = Ok cfg -> selected Y F cfg k -> code F k = y_code Y F k) ->
  forall es o, run (fixit_file (tool_of Y) p autofix opts hook) es o <-> run (fixit_file (tool_of (with_code Y code)) p autofix opts hook) es o.
Proof.
  intros Y code p autofix opts hook Fa H.
  assert (A : alike (fixit_file (tool_of Y) p autofix opts hook) (fixit_file (tool_of (with_code Y code)) p autofix opts hook)).
  { apply file_alike. intros F F1 cfg ks d s md Eg Ec. cbn [tool_of t_visit with_code y_wrap y_took y_unicode y_code].
    destruct (y_wrap Y md) as [M|e]; [|reflexivity]. cbn [bind]. f_equal. apply map_ext_in. intros k Ik.
    destruct (selected_in _ _ _ _ _ _ (Fa F) Ec) as [_ Sel]. rewrite (H F F1 cfg k); auto. now apply Sel. }
  intros es o. split; apply alike_run; auto using alike_sym.
Qed.

(** ** Silenced reports *)

Lemma say_all_drop : forall U M C drop xs r, r_name r = trim_rule (k_name C) ->
  (forall x, drop x = true -> silenced U M C x) ->
  say_all U M (filter (fun x => negb (drop x)) xs) r = say_all U M xs r.
Proof.
  intros U M C drop xs. induction xs as [|x xs IH]; intros r Nr H; [reflexivity|]. cbn [filter say_all].
  assert (K : forall r', report U r (s_node x) (d_place M (s_node x)) (d_span M (s_node x)) (s_message x) (s_position x) (s_replacement x) = Ok r' -> r_name r' = r_name r).
  { intros r' E. unfold report in E. destruct (ignore_lint _ _ _); [now injection E as <-|].
    destruct (match truthy_msg (s_message x) with Some m => Some m | None => truthy_msg (r_MESSAGE r) end); [|discriminate]. now injection E as <-. }
  destruct (drop x) eqn:D; cbn [negb].
  - apply H in D. apply silenced_iff in D. unfold report. rewrite Nr, D. cbn [bind]. now apply IH.
  - cbn [say_all]. destruct (report _ _ _ _ _ _ _ _) as [r'|e] eqn:E; [|reflexivity]. cbn [bind]. apply IH; auto. rewrite (K r'); auto.
Qed.

Lemma say_all_name : forall U M xs r r', say_all U M xs r = Ok r' -> r_name r' = r_name r.
Proof.
  intros U M. induction xs as [|x xs IH]; intros r r' H; cbn [say_all] in H; [now injection H as <-|].
  apply bind_ok in H. destruct H as (r1 & H1 & H2). rewrite (IH _ _ H2). unfold report in H1. destruct (ignore_lint _ _ _); [now injection H1 as <-|].
  destruct (match truthy_msg (s_message x) with Some m => Some m | None => truthy_msg (r_MESSAGE r) end); [|discriminate]. now injection H1 as <-.
Qed.

Section Drop.
  Context (U : unicode) (M : metadata) (md : module) (drop : cls -> module -> say -> bool) (code : cls -> rule_code).
  Context (dropped : forall k x, drop k md x = true -> silenced U M (code k) x).

  (** Two instances of a class in the same state, one of them without the calls *)
  Inductive twin : actor -> actor -> Prop :=
  | tw : forall k own r, r_name r = trim_rule (k_name (code k)) ->
      twin (instance U M md (code k) own r) (instance U M md (without (drop k) (code k)) own r).

  Definition twins (x y : res (list actor * metrics * nat)) : Prop :=
    match x, y with
    | Ok (l, m, n), Ok (l', m', n') => Forall2 twin l l' /\ m = m' /\ n = n'
    | Err e, Err e' => e = e'
    | _, _ => False
    end.

  Lemma call_twins : forall took method t l l', Forall2 twin l l' -> forall m n, twins (call_all took method t l m n) (call_all took method t l' m n).
  Proof.
    intros took method t l l' H. induction H as [|a b l l' Hab Hl IH]; intros m n; [cbn; auto|].
    destruct Hab as [k own r Nr]. cbn [call_all instance a_method without k_method a_now a_class k_name].
    destruct (k_method (code k) md method) as [f|].
    - cbn [fst snd]. destruct (f t own) as [xs o]. cbn [fst snd]. rewrite (say_all_drop U M (code k)); auto.
      destruct (say_all U M xs r) as [r1|e] eqn:Sa; cbn [bind]; [|reflexivity]. destruct o as [own'|e]; cbn [bind]; [|reflexivity].
      specialize (IH (add_time took (k_name (code k)) method n m) (S n)).
      destruct (call_all took method t l _ _) as [[[l1 m1] n1]|e], (call_all took method t l' _ _) as [[[l2 m2] n2]|e']; cbn [twins] in IH; try contradiction; cbn [bind twins]; auto.
      destruct IH as (IH1 & IH2 & IH3). split; auto. constructor; auto. apply tw. rewrite (say_all_name _ _ _ _ _ Sa). exact Nr.
    - specialize (IH m n). destruct (call_all took method t l m n) as [[[l1 m1] n1]|e], (call_all took method t l' m n) as [[[l2 m2] n2]|e']; cbn [twins] in IH; try contradiction; cbn [bind twins]; auto.
      destruct IH as (IH1 & IH2 & IH3). split; auto. constructor; auto. now apply tw.
  Qed.

  Lemma run_twins : forall took cs l l', Forall2 twin l l' -> forall m n, twins (run_calls took cs l m n) (run_calls took cs l' m n).
  Proof.
    intros took. induction cs as [|[method t] cs IH]; intros l l' H m n; [cbn; auto|]. cbn [run_calls].
    pose proof (call_twins took method t l l' H m n) as K.
    destruct (call_all took method t l m n) as [[[l1 m1] n1]|e], (call_all took method t l' m n) as [[[l2 m2] n2]|e']; cbn [twins] in K; try contradiction; cbn [bind]; auto.
    destruct K as (K & <- & <-). auto.
  Qed.

  Lemma visit_twins : forall took ks,
    visit_batched took (d_tree M) (map (fun k => fresh U M md (code k)) ks) =
    visit_batched took (d_tree M) (map (fun k => fresh U M md (without (drop k) (code k))) ks).
  Proof.
    intros took ks. unfold visit_batched.
    assert (T : Forall2 twin (map (fun k => fresh U M md (code k)) ks) (map (fun k => fresh U M md (without (drop k) (code k))) ks)).
    { induction ks as [|k ks IH]; cbn [map]; constructor; auto. apply tw. reflexivity. }
    pose proof (run_twins took (calls (d_tree M)) _ _ T [] 0) as K.
    destruct (run_calls _ _ _ _ _) as [[[l1 m1] n1]|e], (run_calls _ _ _ _ _) as [[[l2 m2] n2]|e']; cbn [twins] in K; try contradiction; cbn [bind]; [|congruence].
    destruct K as (K & <- & <-). f_equal. f_equal. clear -K. induction K as [|a b l l' H _ IH]; cbn [map]; f_equal; auto. destruct H. reflexivity.
  Qed.
End Drop.

(** A call of report at a place where a comment silences the rule might as well not be made: nothing that happens depends on it,
    not even with a message missing (which raises elsewhere). *)
Theorem C78_silenced : forall Y drop p autofix opts hook,
  (forall F k md M x, y_wrap Y md = Ok M -> drop k md x = true -> silenced (y_unicode Y) M (y_code Y F k) x) ->
  forall es o, run (fixit_file (tool_of Y) p autofix opts hook) es o <->
               run (fixit_file (tool_of (with_code Y (fun F k => without (drop k) (y_code Y F k)))) p autofix opts hook) es o.
Proof.
  intros Y drop p autofix opts hook H.
  assert (A : alike (fixit_file (tool_of Y) p autofix opts hook) (fixit_file (tool_of (with_code Y (fun F k => without (drop k) (y_code Y F k)))) p autofix opts hook)).
  { apply file_alike. intros F F1 cfg ks d s md _ _. cbn [tool_of t_visit with_code y_wrap y_took y_unicode y_code].
    destruct (y_wrap Y md) as [M|e] eqn:W; [|reflexivity]. cbn [bind]. apply visit_twins. intros k x D. eapply H; eauto. }
  intros es o. split; apply alike_run; auto using alike_sym.
Qed.

(** If everything that selected rules say is silenced, no violation is given and nothing is written. *)
Theorem C78_quiet : forall Y p autofix opts hook es o,
  (forall F, fair_sets (y_world Y F)) ->
  (forall F cfg k md M x, selected Y F cfg k -> y_wrap Y md = Ok M -> ~ loud Y F md M k x) ->
  run (fixit_file (tool_of Y) p autofix opts hook) es o -> violations (results es) = [] /\ written es = [].
Proof.
  intros Y p autofix opts hook es o Fa H R. split.
  - destruct (violations (results es)) as [|v l] eqn:E; [reflexivity|exfalso].
    assert (I : In v (violations (results es))) by (rewrite E; simpl; auto).
    destruct (C78_sound _ _ _ _ _ _ _ _ Fa R I) as (F & content & F1 & cfg & F2 & es' & md & M & k & x & _ & _ & _ & S & _ & W & L & _).
    exact (H _ _ _ _ _ _ S W L).
  - destruct (written es) as [|[q c] l] eqn:E; [reflexivity|exfalso].
    assert (I : In (q, c) (written es)) by (rewrite E; simpl; auto).
    destruct (C78_written _ _ _ _ _ _ _ _ _ Fa R I) as (_ & F & content & F1 & cfg & F2 & F3 & es' & md & M & vs & md' & b & _ & _ & _ & _ & W & Nv & Hv & _).
    destruct vs as [|v vs]; [congruence|]. destruct (Hv v (or_introl eq_refl)) as (k & x & S & L & _). exact (H _ _ _ _ _ _ S W L).
Qed.

(** ** Executing a generator

    [inputs]: what the caller and the system answer, one for each event. *)
Inductive input := IAnswer (a : option bool) | IFiles (F : fs) | IDone (o : res unit) | IText (i : res str).
Fixpoint play {R} (p : prog R) (inputs : list input) : list ev * outcome R :=
  let go (e : ev) (q : list ev * outcome R) := let (es, o) := q in (e :: es, o) in
  match p, inputs with
  | Ret r, _ => ([], Returned r)
  | Raise e, _ => ([], Raised e)
  | Give x k, IAnswer a :: l => go (EGive x a) (play (k a) l)
  | Look k, IFiles F :: l => go (ELook F) (play (k F) l)
  | Write q c k, IDone o :: l => go (EWrite q c o) (play (k o) l)
  | Stdin k, IText i :: l => go (EIn i) (play (k i) l)
  | Stdout c k, IDone o :: l => go (EOut c o) (play (k o) l)
  | Call m k, IDone o :: l => go (ECall m o) (play (k o) l)
  | _, _ => ([], Stopped)
  end.

Lemma play_run : forall R (p : prog R) l es o, play p l = (es, o) -> run p es o.
Proof.
  intros R p. induction p as [r|e|x k IH|k IH|q c k IH|k IH|c k IH|m k IH]; intros l es o H; cbn [play] in H;
    try (injection H as <- <-; constructor);
    destruct l as [|[a|F|w|i] l]; try (injection H as <- <-; constructor);
    match type of H with context [play ?q ?l] => destruct (play q l) as [es' o'] eqn:E end; injection H as <- <-; constructor; eauto.
Qed.

(** ** A concrete case

    Two imports; the rules A and B report every import, A with a fix that removes it. The first import carries a comment that silences A, and
    B is disabled in fixit.toml. *)
Definition U0 : unicode := {| uni_alnum := fun _ => false; uni_lower := fun s => s |}.
Definition text0 : str := u "import a  # lint-ignore: A" ++ nl ++ u "import b" ++ nl.
Definition module0 : module :=
  Mod (Node 0 false [Body None [
    Node 1 true [Ind; Seq true [Node 2 false [Txt (u "import a"); Sep None (u "; ")]]; Txt (u "  # lint-ignore: A" ++ nl)];
    Node 3 true [Ind; Seq true [Node 4 false [Txt (u "import b"); Sep None (u "; ")]]; Txt nl]]]) true nl.
Definition plain_node : ninfo := NInfo None NoBody None None [] [] None false.
Definition line_node (c : option str) : ninfo := NInfo (Some c) NoBody None None [] [] (Some []) false.
Definition meta0 : metadata :=
  Metadata (Cst 0 (u "Module") [(u "body", [Cst 2 (u "Import") []; Cst 4 (u "Import") []])])
    (fun n => Place [plain_node; line_node (if N.eqb n 2 then Some (u "# lint-ignore: A") else None)] [] false)
    (fun n => ex_range).
Definition reporter (name : str) (fix_ : option repl) : rule_code :=
  RuleCode name (Some (u "no imports")) unit tt
    (fun _ method => if str_eqb method (u "visit_Import")
                     then Some (fun t _ => match t with Cst n _ _ => ([Say n None PosDefault fix_], Ok tt) end) else None).
Definition world0 : world := World
  (fun _ n => if str_eqb n (u "m") then ([u "m"], Ok (PyMod [(u "ARule", ORule 1 false); (u "B", ORule 2 false)] None)) else ([], Err ImportError))
  (fun _ _ _ => ([], Err ImportError)) (fun _ => []) (fun _ => []) (fun _ _ => Ok true) (fun _ => Ok tt) (fun l => l) (fun _ => u "/d").
Definition env0 : env :=
  Env (fun _ => Ok [(u "tool", TTab [(u "fixit", TTab [(u "enable", TArr [TStr (u "m")]); (u "disable", TArr [TStr (u "m:B")])])])])
      (fun _ => true) (u "3.10") [] (fun l => l).
Definition system0 : system :=
  MkSystem env0 U0 (fun _ => world0) (PyState [] [] 0)
    (fun _ k => if N.eqb (fst k) 1 then reporter (u "ARule") (Some RRemove) else reporter (u "B") None)
    (fun _ => Ok module0) (fun _ => Ok meta0) (fun _ => 1) (fun _ _ b => b) (fun m => Ok (code m)) (fun _ => None) (fun _ p => Ok [p]).
Definition fs0 : fs := ex_fs text0.
Definition told0 : viol := Violation (u "A") ex_range (u "no imports") 4%N (Some RRemove) (u "import a  # lint-ignore: A" ++ nl).
Definition run0 : list ev :=
  [ELook fs0; ELook fs0; ELook fs0; EGive (Result ex_file (Some told0) None) None; ELook fs0;
   EWrite ex_file (u "import a  # lint-ignore: A" ++ nl) (Ok tt)].

Example C78_example :
  run (fixit_file (tool_of system0) ex_file true None false) run0 (Returned tt) /\
  (forall F, fair_sets (y_world system0 F)) /\ (forall x, In x (results run0) -> x_error x = None) /\
  silenced U0 meta0 (y_code system0 fs0 (1%N, None)) (Say 2 None PosDefault (Some RRemove)) /\
  loud system0 fs0 module0 meta0 (1%N, None) (Say 4 None PosDefault (Some RRemove)) /\
  (* B says something too, but is not selected *)
  loud system0 fs0 module0 meta0 (2%N, None) (Say 2 None PosDefault None) /\
  (forall cfg, generate_config (y_env system0) fs0 ex_file None None = Ok cfg ->
     selected system0 fs0 cfg (1%N, None) /\ ~ selected system0 fs0 cfg (2%N, None)).
Proof.
  split; [apply play_run with (l := [IFiles fs0; IFiles fs0; IFiles fs0; IAnswer None; IFiles fs0; IDone (Ok tt)]); vm_compute; reflexivity|].
  split; [intros F l; apply Permutation.Permutation_refl|].
  split; [intros x [<-|[]]; reflexivity|].
  split; [apply silenced_iff; vm_compute; reflexivity|].
  split; [split; [vm_compute; auto|rewrite silenced_iff; vm_compute; discriminate]|].
  split; [split; [vm_compute; auto|rewrite silenced_iff; vm_compute; discriminate]|].
  intros cfg E.
  assert (C : exists d s, collect_rules (y_world system0 fs0) cfg (y_py system0) = (Ok ([(1%N, None)], d), s)).
  { vm_compute in E. injection E as <-. do 2 eexists. vm_compute. reflexivity. }
  destruct C as (d & s & C). destruct (selected_in system0 fs0 cfg _ d s (fun l => Permutation.Permutation_refl l) C) as [_ S].
  rewrite <- !S. simpl. split; auto. intros [X|[]]. discriminate.
Qed.

(** The silenced report may be dropped; without the other import nothing is left to say. *)
Definition drop0 (k : cls) (md : module) (x : say) : bool := N.eqb (fst k) 1 && N.eqb (s_node x) 2.
Example C78_silenced_example :
  (forall F k md M x, y_wrap system0 md = Ok M -> drop0 k md x = true -> silenced (y_unicode system0) M (y_code system0 F k) x) /\
  says (y_code system0 fs0 (1%N, None)) module0 (calls (d_tree meta0)) tt <>
  says (without (drop0 (1%N, None)) (y_code system0 fs0 (1%N, None))) module0 (calls (d_tree meta0)) tt.
Proof.
  split.
  - intros F k md M x E D. injection E as <-. unfold drop0 in D. apply andb_true_iff in D. destruct D as [D1 D2].
    apply silenced_iff. cbn [y_code system0]. rewrite D1. cbn [reporter k_name d_place meta0]. rewrite D2. vm_compute. reflexivity.
  - vm_compute. discriminate.
Qed.

Definition system1 : system := with_code system0 (fun F k => without (fun _ x => negb (N.eqb (s_node x) 2)) (y_code system0 F k)).
Example C78_quiet_example :
  (forall k x, In k [(1%N, None)] -> ~ loud system1 fs0 module0 meta0 k x) /\
  says (y_code system1 fs0 (1%N, None)) module0 (calls (d_tree meta0)) tt <> [] /\
  run (fixit_file (tool_of system1) ex_file true None false)
    [ELook fs0; ELook fs0; ELook fs0; EGive (Result ex_file None None) None] (Returned tt).
Proof.
  split; [|split; [vm_compute; discriminate|apply play_run with (l := [IFiles fs0; IFiles fs0; IFiles fs0; IAnswer None]); vm_compute; reflexivity]].
  intros k x [<-|[]] [I S]. apply S. vm_compute in I. destruct I as [<-|[]]. apply silenced_iff. vm_compute. reflexivity.
Qed.
