(** * An example for C89: "tuple(tuple((a, b)))" with RewriteToLiteral, fixed twice *)
From Coq Require Import String List NArith ZArith Bool Arith Lia Permutation.
From Verif Require Import Base PyStr Py Rules RulesSpec RulesProps RulesProps2 PyToy Whole WholeSpec WholeFacts WholeProps WholeRuns Ftypes Paths Config Collect CollectSpec
  Suppress SuppressSpec Cst EditFacts Engine EngineProps Batch BatchProps Api ApiSpec System SystemSpec SystemProps SystemSame
  Session SessionSpec SessionProps Cli CliSpec CliProps Commands CommandsSpec DiskSpec DiskProps ProgramSpec ProgramFacts ProgramProps ProgramExamples
  Visitors VisitorsSpec VisitorsFacts VisitorsProps VisitorsExamples MeaningProps.
Import ListNotations.

(** ** A small language: names, calls with one argument, tuples of two *)
Definition shape10 (e : expr) : option (list (option str)) :=
  match e with
  | Name s => Some [Some s]
  | Py.Call _ [(NoStar, None, _)] => Some [None; Some (u "("); None; Some (u ")")]
  | Tuple [(false, _); (false, _)] => Some [Some (u "("); None; Some (u ", "); None; Some (u ")")]
  | Other 0 [_] => Some [None; Some nl]
  | _ => None
  end.
Definition form10 (e : expr) (s : tree) : Prop := exists l, shape10 e = Some l /\ s = Node 0 false (parts_of l).
Fixpoint read10 (t : tree) : expr :=
  match t with
  | Node _ _ [Txt s] => Name s
  | Node _ _ [Req f; Txt _; Req a; Txt _] => Py.Call (read10 f) [plain_arg (read10 a)]
  | Node _ _ [Txt _; Req a; Txt _; Req b; Txt _] => Tuple [(false, read10 a); (false, read10 b)]
  | Node _ _ [Req x; Txt _] => Other 0 [read10 x]
  | _ => Name []
  end.
Fixpoint plant10 (e : expr) : tree :=
  match e with
  | Name s => Node 1 false [Txt s]
  | Py.Call f [(_, _, a)] => Node 1 false [Req (plant10 f); Txt (u "("); Req (plant10 a); Txt (u ")")]
  | Tuple [(_, a); (_, b)] => Node 1 false [Txt (u "("); Req (plant10 a); Txt (u ", "); Req (plant10 b); Txt (u ")")]
  | _ => Node 1 false []
  end.
Fixpoint show10 (e : expr) : str :=
  match e with
  | Name s => s
  | Py.Call f [(_, _, a)] => show10 f ++ u "(" ++ show10 a ++ u ")"
  | Tuple [(_, a); (_, b)] => u "(" ++ show10 a ++ u ", " ++ show10 b ++ u ")"
  | Other _ [x] => show10 x ++ nl
  | _ => []
  end.

Lemma form10_law : form_law form10.
Proof.
  intros f e s (l & E & ->). exists l. split; [|reflexivity]. destruct e; try exact E; cbn [rebuild shape10] in *.
  - destruct args as [|[[[] [|]] ?] [|? ?]]; try discriminate E; exact E.
  - destruct es as [|[[] ?] [|[[] ?] [|? ?]]]; try discriminate E; exact E.
  - destruct n; [|discriminate E]. destruct es as [|? [|? ?]]; try discriminate E; exact E.
Qed.
Lemma laid10 : forall e t, laid node9 form10 t e -> read10 t = e /\ render [] false t = show10 e.
Proof.
  apply (expr_children (fun e => forall t, laid node9 form10 t e -> read10 t = e /\ render [] false t = show10 e)). intros e IH t H. rewrite Forall_forall in IH.
  destruct (laid_inv _ _ _ _ H) as (_ & _ & (l & E & Eo) & Ch). destruct t as [id line ps]. cbn [outline] in Eo. injection Eo as -> Eo. apply fits in Eo.
  assert (Hd : forall t : tree, held node9 t = [t]) by (intros []; reflexivity).
  destruct e; try discriminate E; cbn [shape10] in E.
  - injection E as <-. fit Eo. split; [reflexivity|]. cbn. apply app_nil_r.
  - destruct args as [|[[[] [|]] a] [|? ?]]; try discriminate E. injection E as <-. fit Eo. cbn [below flat_map held_part] in Ch. rewrite !Hd in Ch. cbn [app children map] in Ch.
    inversion Ch as [|? ? ? ? L1 Ch1]; subst. inversion Ch1 as [|? ? ? ? L2 _]; subst. cbn [snd] in *.
    destruct (IH _ ltac:(left; reflexivity) _ L1) as (R1 & T1). destruct (IH a ltac:(right; left; reflexivity) _ L2) as (R2 & T2).
    split; [cbn [read10]; now rewrite R1, R2|]. cbn [render flat_map render_part show10]. now rewrite T1, T2, app_nil_r.
  - destruct es as [|[[] a] [|[[] b] [|? ?]]]; try discriminate E.
    injection E as <-. fit Eo. cbn [below flat_map held_part] in Ch. rewrite !Hd in Ch. cbn [app children map] in Ch.
    inversion Ch as [|? ? ? ? L1 Ch1]; subst. inversion Ch1 as [|? ? ? ? L2 _]; subst. cbn [snd] in *.
    destruct (IH a ltac:(left; reflexivity) _ L1) as (R1 & T1). destruct (IH b ltac:(right; left; reflexivity) _ L2) as (R2 & T2).
    split; [cbn [read10]; now rewrite R1, R2|]. cbn [render flat_map render_part show10]. now rewrite T1, T2, app_nil_r.
  - destruct n; [|discriminate E]. destruct es as [|x [|? ?]]; try discriminate E. injection E as <-. fit Eo. cbn [below flat_map held_part] in Ch. rewrite !Hd in Ch. cbn [app children map] in Ch.
    inversion Ch as [|? ? ? ? L1 _]; subst. destruct (IH _ ltac:(left; reflexivity) _ L1) as (R1 & T1).
    split; [cbn [read10]; now rewrite R1|]. cbn [render flat_map render_part show10]. now rewrite T1, app_nil_r.
Qed.
Lemma read10_law : reads_nodes node9 form10 read10.
Proof. intros t e L. now apply laid10. Qed.

(** ** The programs and the system *)
Definition call10 (f : string) (e : expr) : expr := Py.Call (Name (u f)) [plain_arg e].
Definition pair10 : expr := Tuple [(false, Name (u "a")); (false, Name (u "b"))].
Definition first10 : expr := Other 0 [call10 "f" (call10 "tuple" (call10 "tuple" pair10))].
Definition second10 : expr := Other 0 [call10 "f" (call10 "tuple" pair10)].
Definition third10 : expr := Other 0 [call10 "f" pair10].

Definition wrap10 (i : N) (f : string) (t : tree) : tree := Node i false [Req (word9 (i + 1) f); Txt (u "("); Req t; Txt (u ")")].
Definition two10 : tree := Node 40 false [Txt (u "("); Req (word9 41 "a"); Txt (u ", "); Req (word9 42 "b"); Txt (u ")")].
Definition mod10 (t : tree) : module := Mod (Node 1 false [Req t; Txt nl]) true nl.
Definition mod_first : module := mod10 (wrap10 10 "f" (wrap10 20 "tuple" (wrap10 30 "tuple" two10))).
Definition mod_second : module := mod10 (wrap10 10 "f" (wrap10 20 "tuple" two10)).
Definition mod_third : module := mod10 (wrap10 10 "f" two10).
Definition progs10 : list (expr * module) := [(first10, mod_first); (second10, mod_second); (third10, mod_third)].

Example shown10 : map show10 [first10; second10; third10] = map (fun s => u s ++ nl) ["f(tuple(tuple((a, b))))"; "f(tuple((a, b)))"; "f((a, b))"]%string.
Proof. vm_compute. reflexivity. Qed.

Definition parse10 (s : str) : res module :=
  if str_eqb s (show10 first10) then Ok mod_first else if str_eqb s (show10 second10) then Ok mod_second else if str_eqb s (show10 third10) then Ok mod_third else Err ParserSyntaxError.
Fixpoint cst10 (t : tree) : cst := match t with Node id _ ps => Cst id (type_of other9 (read10 t)) [(u "parts", flat_map cst10_part ps)] end
with cst10_part (p : part) : list cst := match p with Req t => [cst10 t] | _ => [] end.

Definition classes10 : list (rule_code * (expr -> res Rules.report)) :=
  class_codes node9 read10 (fun _ => plant10) (fun _ _ => None) (fun _ => Some (u "Unnecessary call")) same9 isinstance9 (fun _ => false) (fun _ => 0) (fun _ _ _ _ => false).
Definition literal10 : rule_code * (expr -> res Rules.report) := nth 7 classes10 (RuleCode [] None unit tt (fun _ _ => None), fun _ => Ok None).

Definition system10 : system :=
  let Y := system2 (u "rules") (u "rules") in
  MkSystem (y_env Y) (y_unicode Y) (y_world Y) (y_py Y) (fun _ _ => fst literal10) parse10
    (fun md => Ok (Metadata (cst10 (m_tree md)) (fun _ => Place [] [] false) (fun _ => ex_range)))
    (y_took Y) (y_udiff Y) (fun md => Ok (code (Mod (m_tree md) true nl))) (y_style Y) (y_walk Y).
Definition fix10 : cmd N := whole_fix ex_cli system10 [u "d"; u "stdin"] ex_opts false false false [PathArg x_py] session0.
Definition disk10 (e : expr) : fs := put fs2 x_py (Some (show10 e)).
Definition disk1 : fs := disk10 first10.
Definition disk2 : fs := put disk1 x_py (Some (show10 second10)).
Definition disk3 : fs := put disk2 x_py (Some (show10 third10)).
Definition rules10 : list (expr -> res Rules.report) := map snd [literal10].

Lemma in10 : forall c md, parse10 c = Ok md -> exists e, In (e, md) progs10.
Proof. intros c md Ep. unfold parse10 in Ep. repeat (destruct (str_eqb _ _); [injection Ep as <-; eexists; cbn; eauto 10|]). discriminate Ep. Qed.
Ltac all10 I := destruct I as [I|[I|[I|[]]]].

Lemma laid_mod10 : forall e md, In (e, md) progs10 -> laid node9 form10 (m_tree md) e.
Proof.
  intros e md I. repeat (destruct I as [I|I]; [injection I as <- <-; repeat (constructor; [reflexivity|reflexivity|eexists; split; reflexivity|]; cbn; repeat apply Forall2_cons; try apply Forall2_nil)|]). contradiction.
Qed.
Lemma seen10 : forall c md M, y_parse system10 c = Ok md -> y_wrap system10 md = Ok M -> seen node9 other9 read10 md M.
Proof.
  intros c md M Ep Ew. cbn in Ep, Ew. injection Ew as <-. destruct (in10 _ _ Ep) as (e & I).
  all10 I; injection I as <- <-; (split; [cbn; repeat constructor; cbn; intuition discriminate|]; split; [vm_compute; reflexivity|eexists _, _; reflexivity]).
Qed.
Lemma reads10 : forall e, In e (map fst progs10) -> reads node9 form10 system10 (show10 e) e.
Proof.
  intros e I. apply in_map_iff in I. destruct I as ([e' md] & <- & I). cbn [fst]. exists md. eexists. split; [|split; [reflexivity|split; [now apply laid_mod10|split; [|intros C s; apply not_silenced8]]]].
  - all10 I; injection I as <- <-; vm_compute; reflexivity.
  - all10 I; injection I as <- <-; cbn; repeat constructor; cbn; intuition discriminate.
Qed.
Lemma becomes10 : forall e0 e, becomes rules10 e0 e -> In e0 (map fst progs10) -> In e (map fst progs10).
Proof.
  intros e0 e H. induction H as [e|e r e' P B IH]; intro I; auto. apply IH. apply Permutation_sym, Permutation_length_1_inv in P. subst r.
  destruct I as [<-|[<-|[<-|[]]]]; vm_compute; auto.
Qed.
Lemma readable10 : forall e', becomes rules10 first10 e' -> readable node9 form10 system10 x_py (Some ex_opts) e'.
Proof.
  intros e' B F cfg md c Eg L (b & Eb & Fm).
  assert (I : In e' (map fst progs10)) by (apply (becomes10 first10); [exact B|cbn; auto]).
  assert (c = show10 e') as ->.
  { injection Eb as <-. destruct (c_formatter cfg) as [st|]; [destruct Fm as (fmt & E & _); discriminate E|]. subst c. unfold code. cbn [m_newline m_default_newline m_tree].
    rewrite (proj2 (laid10 _ _ L)). destruct I as [<-|[<-|[<-|[]]]]; vm_compute; reflexivity. }
  split; [|now apply reads10]. destruct I as [<-|[<-|[<-|[]]]]; vm_compute; discriminate.
Qed.
Lemma writes10 : forall e r, In e (map fst progs10) -> In r rules10 -> writes_fixes node9 form10 (fun _ => plant10) r e.
Proof.
  intros e r I [<-|[]] t x e' Ix _ Er. change (snd literal10) with (sure to_literal) in Er.
  destruct I as [<-|[<-|[<-|[]]]]; vm_compute in Ix; repeat (destruct Ix as [<-|Ix]; [vm_compute in Er; try discriminate Er; injection Er as <-;
    repeat (constructor; [reflexivity|reflexivity|eexists; split; reflexivity|]; cbn; repeat apply Forall2_cons; try apply Forall2_nil)|]); contradiction.
Qed.
Lemma system10_fair : forall G, fair_sets (y_world system10 G).
Proof. intros G l. apply Permutation_refl. Qed.

Definition cfg10 : res config := generate_config (y_env system10) disk1 x_py None (Some ex_opts).
Lemma selects10 : forall D G, In D [disk1; disk2; disk3] -> (forall q, f_file G q <> f_file D q -> In q [x_py] /\ q <> x_py) -> (forall q, f_isdir G q = f_isdir D q) ->
  selects (system_at system10 session0) G x_py (Some ex_opts) (map fst [literal10]).
Proof.
  intros D G Id Fi Di cfg Eg. change (y_env (system_at system10 session0)) with (y_env system10) in Eg.
  assert (Eg' : cfg10 = Ok cfg).
  { rewrite <- Eg. unfold cfg10. symmetry. rewrite (config_same _ D G) by (auto; intros; now apply same_disk). destruct Id as [<-|[<-|[<-|[]]]]; vm_compute; reflexivity. }
  exists [(1%N, None)].
  destruct (collect_rules (y_world (system_at system10 session0) G) cfg (y_py (system_at system10 session0))) as [r s] eqn:C.
  assert (r = Ok ([(1%N, None)], [])) as ->.
  { unfold cfg10 in Eg'. vm_compute in Eg'. injection Eg' as <-. vm_compute in C. injection C as <- _. reflexivity. }
  assert (Fa : fair_sets (y_world (system_at system10 session0) G)) by (intro l; apply Permutation_refl). destruct (selected_in _ _ _ _ _ _ Fa C) as [Nd Sel].
  split; auto.
Qed.

Definition visit10 (D : fs) (n : nat) : list ev * ApiSpec.outcome unit :=
  play (fixit_file (tool_of (system_at system10 session0)) x_py true (Some ex_opts) false) ([IFiles D; IFiles D; IFiles D] ++ repeat (IAnswer None) n ++ [IFiles D; IDone (Ok tt)]).
Lemma one10 : forall D D' n, In (D, D', n) [(disk1, disk2, 1); (disk2, disk3, 1)] -> one_command system10 ex_opts x_py (map fst [literal10]) D D'.
Proof.
  intros D D' n I.
  assert (Pl : run (fixit_file (tool_of (system_at system10 session0)) x_py true (Some ex_opts) false) (fst (visit10 D n)) (Returned tt)).
  { assert (X : snd (visit10 D n) = Returned tt) by (destruct I as [I|[I|[]]]; injection I as <- <- <-; vm_compute; reflexivity).
    destruct (visit10 D n) as [es o] eqn:E. cbn [fst snd] in *. subst o. exact (play_run _ _ _ _ _ E). }
  assert (X : snd (fst (live fix10 D [])) = Returned 0%N /\ snd (live fix10 D []) = D' /\
              effects (fst (fst (live fix10 D []))) = ELook D :: ELook D :: api_effects (concat (map snd [(session0, fst (visit10 D n))]))).
  { destruct I as [I|[I|[]]]; injection I as <- <- <-; vm_compute; repeat split. }
  destruct (live fix10 D []) as [[vs o] G] eqn:El. destruct (live_run _ _ _ _ _ _ _ El) as (R & L). cbn [fst snd] in X. destruct X as (-> & -> & Ef).
  exists ex_cli, [u "d"; u "stdin"], false, false, [PathArg x_py], session0, vs, 0%N, [x_py], [(session0, fst (visit10 D n))], session0, (fst (visit10 D n)).
  split; [reflexivity|]. split; [exact R|]. split; [exact L|]. split; [reflexivity|]. split; [constructor; [intros []|constructor]|].
  split; [constructor; [exact Pl|constructor]|]. split; [exact Ef|]. split; [left; reflexivity|].
  split; [apply no_errors_check; destruct I as [I|[I|[]]]; injection I as <- <- <-; vm_compute; reflexivity|].
  intros G' Fi Di. apply (selects10 D); auto. destruct I as [I|[I|[]]]; injection I as <- <- <-; cbn; auto.
Qed.

(** Two commands, with a fix in each: "f(tuple(tuple((a, b))))", "f(tuple((a, b)))", "f((a, b))". The last is what C89_seven finds in the file; f is
    called (the log has one entry) before and after. *)
Example C89_example : let P := toy (fun _ => Some TNone) in
  f_file disk1 x_py = Some (u "f(tuple(tuple((a, b))))" ++ nl) /\ reads node9 form10 system10 (show10 first10) first10 /\
  commands system10 ex_opts x_py (map fst [literal10]) 2 disk1 disk3 /\ f_file disk3 x_py = Some (u "f((a, b))" ++ nl) /\
  eval P [] first10 [] = (Ok TNone, [1%N]) /\
  exists new e', f_file disk3 x_py = Some new /\ reads node9 form10 system10 new e' /\ same_meaning P [] first10 e'.
Proof.
  intro P. split; [vm_compute; reflexivity|]. assert (Re : reads node9 form10 system10 (show10 first10) first10) by (apply reads10; cbn; auto). split; [exact Re|].
  assert (C : commands system10 ex_opts x_py (map fst [literal10]) 2 disk1 disk3).
  { eapply cs_one; [apply (one10 disk1 disk2 1); cbn; auto|]. eapply cs_one; [apply (one10 disk2 disk3 1); cbn; auto|constructor]. }
  split; [exact C|]. split; [vm_compute; reflexivity|]. split; [vm_compute; reflexivity|].
  apply (C89_seven P [] TSelf (fun n => TFun (u n)) TTup TLst (TFun (u "list")) (TFun (u "tuple")) (TFun (u "set")) (TFun (u "dict"))
    node9 form10 other9 read10 (fun _ => plant10) (fun _ _ => None) (fun _ => Some (u "Unnecessary call")) same9 isinstance9 (fun _ => false) (fun _ => 0) (fun _ _ _ _ => false)
    system10 ex_opts x_py [literal10] 2 disk1 disk3 (show10 first10) first10).
  - apply toy_assignment.
  - apply toy_function.
  - apply toy_bools.
  - apply toy_free.
  - apply toy_generator.
  - intros old new v s H. repeat (destruct H as [H|H]; [injection H as <- <-; vm_compute; destruct v; reflexivity|]). destruct H.
  - discriminate.
  - intros n _. reflexivity.
  - exact form10_law.
  - exact system10_fair.
  - exact read10_law.
  - exact seen10.
  - intros x [<-|[]]. do 7 right. left. reflexivity.
  - intros x [<-|[]]. vm_compute. tauto.
  - reflexivity.
  - exact Re.
  - intros x t it ifs Ix Ic. vm_compute in Ix. repeat (destruct Ix as [<-|Ix]; [destruct Ic|]); destruct Ix.
  - intros x n Ix _. vm_compute in Ix. repeat (destruct Ix as [<-|Ix]; [split; [intros []|intros ? ? ? []]|]); destruct Ix.
  - intros p q parts Ix. vm_compute in Ix. repeat (destruct Ix as [Ix|Ix]; [discriminate Ix|]); destruct Ix.
  - intros f args Ix _. vm_compute in Ix. repeat (destruct Ix as [Ix|Ix]; [first [discriminate Ix|injection Ix as <- <-; split; [intros a [<-|[]]; reflexivity|discriminate]]|]); destruct Ix.
  - intros args a Ix. vm_compute in Ix. repeat (destruct Ix as [Ix|Ix]; [discriminate Ix|]); destruct Ix.
  - intros e' B. split; [now apply readable10|]. intros r I. apply writes10; [|exact I]. apply (becomes10 first10); [exact B|cbn; auto].
  - exact C.
Qed.
