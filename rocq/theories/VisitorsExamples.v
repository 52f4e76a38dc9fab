(** * An example for C88: "isinstance(x, a) or isinstance(x, b) or isinstance(x, c)" with CollapseIsinstanceChecks *)
From Coq Require Import String List NArith ZArith Bool Arith Lia Permutation.
From Verif Require Import Base PyStr Py Rules RulesSpec Whole WholeSpec WholeFacts WholeProps Ftypes Paths Config Collect CollectSpec
  Suppress SuppressSpec Cst EditFacts Engine EngineProps Batch BatchProps Api ApiSpec System SystemSpec SystemProps SystemSame
  Session SessionSpec SessionProps Cli CliSpec CliProps Commands CommandsSpec DiskSpec DiskProps ProgramSpec ProgramFacts ProgramProps ProgramExamples
  Visitors VisitorsSpec VisitorsFacts VisitorsProps.
Import ListNotations.

(** ** A small language: names, calls with two arguments, "or", tuples of two and three; all nodes are expressions *)
Definition node9 : N -> bool := fun _ => true.

(** Texts and, where there is none, parts *)
Definition shape9 (e : expr) : option (list (option str)) :=
  match e with
  | Name s => Some [Some s]
  | Py.Call _ [(NoStar, None, _); (NoStar, None, _)] => Some [None; Some (u "("); None; Some (u ", "); None; Some (u ")")]
  | BoolOp _ Or _ => Some [None; Some (u " or "); None]
  | Tuple [(false, _); (false, _)] => Some [Some (u "("); None; Some (u ", "); None; Some (u ")")]
  | Tuple [(false, _); (false, _); (false, _)] => Some [Some (u "("); None; Some (u ", "); None; Some (u ", "); None; Some (u ")")]
  | Other 0 [_] => Some [None; Some nl]
  | _ => None
  end.
Definition parts_of (l : list (option str)) : list part := map (fun o => match o with Some s => Txt s | None => Req (Node 1 false []) end) l.
Definition form9 (e : expr) (s : tree) : Prop := exists l, shape9 e = Some l /\ s = Node 0 false (parts_of l).

Fixpoint read9 (t : tree) : expr :=
  match t with
  | Node _ _ [Txt s] => Name s
  | Node _ _ [Req f; Txt _; Req a; Txt _; Req b; Txt _] => Py.Call (read9 f) [plain_arg (read9 a); plain_arg (read9 b)]
  | Node _ _ [Req l; Txt _; Req r] => BoolOp (read9 l) Or (read9 r)
  | Node _ _ [Txt _; Req a; Txt _; Req b; Txt _] => Tuple [(false, read9 a); (false, read9 b)]
  | Node _ _ [Txt _; Req a; Txt _; Req b; Txt _; Req c; Txt _] => Tuple [(false, read9 a); (false, read9 b); (false, read9 c)]
  | Node _ _ [Req x; Txt _] => Other 0 [read9 x]
  | _ => Name []
  end.
(** A new tree for an expression *)
Fixpoint plant (e : expr) : tree :=
  match e with
  | Name s => Node 1 false [Txt s]
  | Py.Call f [(_, _, a); (_, _, b)] => Node 1 false [Req (plant f); Txt (u "("); Req (plant a); Txt (u ", "); Req (plant b); Txt (u ")")]
  | BoolOp l _ r => Node 1 false [Req (plant l); Txt (u " or "); Req (plant r)]
  | Tuple [(_, a); (_, b)] => Node 1 false [Txt (u "("); Req (plant a); Txt (u ", "); Req (plant b); Txt (u ")")]
  | Tuple [(_, a); (_, b); (_, c)] => Node 1 false [Txt (u "("); Req (plant a); Txt (u ", "); Req (plant b); Txt (u ", "); Req (plant c); Txt (u ")")]
  | _ => Node 1 false []
  end.
Fixpoint show9 (e : expr) : str :=
  match e with
  | Name s => s
  | Py.Call f [(_, _, a); (_, _, b)] => show9 f ++ u "(" ++ show9 a ++ u ", " ++ show9 b ++ u ")"
  | BoolOp l _ r => show9 l ++ u " or " ++ show9 r
  | Tuple [(_, a); (_, b)] => u "(" ++ show9 a ++ u ", " ++ show9 b ++ u ")"
  | Tuple [(_, a); (_, b); (_, c)] => u "(" ++ show9 a ++ u ", " ++ show9 b ++ u ", " ++ show9 c ++ u ")"
  | Other _ [x] => show9 x ++ nl
  | _ => []
  end.

Lemma form9_law : form_law form9.
Proof.
  intros f e s (l & E & ->). exists l. split; [|reflexivity]. destruct e; try exact E; cbn [rebuild shape9] in *.
  - destruct args as [|[[[] [|]] ?] [|[[[] [|]] ?] [|? ?]]]; try discriminate E; exact E.
  - destruct es as [|[[] ?] [|[[] ?] [|[[] ?] [|? ?]]]]; try discriminate E; exact E.
  - destruct n; [|discriminate E]. destruct es as [|? [|? ?]]; try discriminate E; exact E.
Qed.

Lemma fits : forall l ps, map (blank_part node9) ps = parts_of l ->
  Forall2 (fun o p => match o with Some s => p = Txt s | None => exists t, p = Req t end) l ps.
Proof.
  induction l as [|o l IH]; intros [|p ps] H; try discriminate H; constructor.
  - cbn [parts_of map] in H. injection H as H _. destruct o as [s|].
    + destruct p as [s0| |t0|[o|]|[o|] d0|b0 l0|b0 l0]; try discriminate H. injection H as ->. reflexivity.
    + destruct p as [s0| |t0|[o|]|[o|] d0|b0 l0|b0 l0]; try discriminate H. eauto.
  - apply IH. cbn [parts_of map] in H. now injection H.
Qed.
Ltac fit H := repeat match type of H with
  | Forall2 _ (Some _ :: _) _ => let X := fresh in inversion H as [|? ? ? ? X H']; subst; clear H; rename H' into H; try subst
  | Forall2 _ (None :: _) _ => let X := fresh in inversion H as [|? ? ? ? X H']; subst; clear H; rename H' into H; destruct X as (? & ->)
  | Forall2 _ [] _ => inversion H; subst; clear H
  end.

(** The tree determines the program and its text. *)
Lemma laid9 : forall e t, laid node9 form9 t e -> read9 t = e /\ render [] false t = show9 e.
Proof.
  apply (expr_children (fun e => forall t, laid node9 form9 t e -> read9 t = e /\ render [] false t = show9 e)). intros e IH t H. rewrite Forall_forall in IH.
  destruct (laid_inv _ _ _ _ H) as (_ & _ & (l & E & Eo) & Ch). destruct t as [id line ps]. cbn [outline] in Eo. injection Eo as -> Eo. apply fits in Eo.
  assert (Hd : forall t : tree, held node9 t = [t]) by (intros []; reflexivity).
  destruct e; try discriminate E; cbn [shape9] in E.
  - injection E as <-. fit Eo. split; [reflexivity|]. cbn. apply app_nil_r.
  - destruct args as [|[[[] [|]] a] [|[[[] [|]] b] [|? ?]]]; try discriminate E. injection E as <-. fit Eo. cbn [below flat_map held_part] in Ch. rewrite !Hd in Ch. cbn [app children map] in Ch.
    inversion Ch as [|? ? ? ? L1 Ch1]; subst. inversion Ch1 as [|? ? ? ? L2 Ch2]; subst. inversion Ch2 as [|? ? ? ? L3 _]; subst. cbn [snd] in *.
    destruct (IH _ ltac:(left; reflexivity) _ L1) as (R1 & T1). destruct (IH a ltac:(right; left; reflexivity) _ L2) as (R2 & T2). destruct (IH b ltac:(right; right; left; reflexivity) _ L3) as (R3 & T3).
    split; [cbn [read9]; now rewrite R1, R2, R3|]. cbn [render flat_map render_part show9]. now rewrite T1, T2, T3, app_nil_r.
  - destruct op; [discriminate E|]. injection E as <-. fit Eo. cbn [below flat_map held_part] in Ch. rewrite !Hd in Ch. cbn [app children map] in Ch.
    inversion Ch as [|? ? ? ? L1 Ch1]; subst. inversion Ch1 as [|? ? ? ? L2 _]; subst.
    destruct (IH _ ltac:(left; reflexivity) _ L1) as (R1 & T1). destruct (IH _ ltac:(right; left; reflexivity) _ L2) as (R2 & T2).
    split; [cbn [read9]; now rewrite R1, R2|]. cbn [render flat_map render_part show9]. now rewrite T1, T2, app_nil_r.
  - destruct es as [|[[] a] [|[[] b] [|[[] c] [|? ?]]]]; try discriminate E.
    + injection E as <-. fit Eo. cbn [below flat_map held_part] in Ch. rewrite !Hd in Ch. cbn [app children map] in Ch.
      inversion Ch as [|? ? ? ? L1 Ch1]; subst. inversion Ch1 as [|? ? ? ? L2 _]; subst. cbn [snd] in *.
      destruct (IH a ltac:(left; reflexivity) _ L1) as (R1 & T1). destruct (IH b ltac:(right; left; reflexivity) _ L2) as (R2 & T2).
      split; [cbn [read9]; now rewrite R1, R2|]. cbn [render flat_map render_part show9]. now rewrite T1, T2, app_nil_r.
    + injection E as <-. fit Eo. cbn [below flat_map held_part] in Ch. rewrite !Hd in Ch. cbn [app children map] in Ch.
      inversion Ch as [|? ? ? ? L1 Ch1]; subst. inversion Ch1 as [|? ? ? ? L2 Ch2]; subst. inversion Ch2 as [|? ? ? ? L3 _]; subst. cbn [snd] in *.
      destruct (IH a ltac:(left; reflexivity) _ L1) as (R1 & T1). destruct (IH b ltac:(right; left; reflexivity) _ L2) as (R2 & T2). destruct (IH c ltac:(right; right; left; reflexivity) _ L3) as (R3 & T3).
      split; [cbn [read9]; now rewrite R1, R2, R3|]. cbn [render flat_map render_part show9]. now rewrite T1, T2, T3, app_nil_r.
  - destruct n; [|discriminate E]. destruct es as [|x [|? ?]]; try discriminate E. injection E as <-. fit Eo. cbn [below flat_map held_part] in Ch. rewrite !Hd in Ch. cbn [app children map] in Ch.
    inversion Ch as [|? ? ? ? L1 _]; subst. destruct (IH _ ltac:(left; reflexivity) _ L1) as (R1 & T1).
    split; [cbn [read9]; now rewrite R1|]. cbn [render flat_map render_part show9]. now rewrite T1, app_nil_r.
Qed.
Lemma read9_law : reads_nodes node9 form9 read9.
Proof. intros t e L. now apply laid9. Qed.

(** ** The programs and the system *)
Definition name9 (s : string) : expr := Name (u s).
Definition check9 (s : string) : expr := Py.Call (name9 "isinstance") [plain_arg (name9 "x"); plain_arg (name9 s)].
Definition before9 : expr := Other 0 [BoolOp (BoolOp (check9 "a") Or (check9 "b")) Or (check9 "c")].
Definition after9 : expr := Other 0 [Py.Call (name9 "isinstance") [plain_arg (name9 "x"); plain_arg (Tuple [(false, name9 "a"); (false, name9 "b"); (false, name9 "c")])]].

Definition word9 (i : N) (s : string) : tree := Node i false [Txt (u s)].
Definition call9 (i : N) (arg : tree) : tree := Node i false [Req (word9 (i + 1) "isinstance"); Txt (u "("); Req (word9 (i + 2) "x"); Txt (u ", "); Req arg; Txt (u ")")].
Definition mod_before : module :=
  Mod (Node 1 false [Req (Node 2 false [Req (Node 3 false [Req (call9 10 (word9 13 "a")); Txt (u " or "); Req (call9 20 (word9 23 "b"))]); Txt (u " or "); Req (call9 30 (word9 33 "c"))]); Txt nl]) true nl.
Definition mod_after : module :=
  Mod (Node 1 false [Req (call9 10 (Node 13 false [Txt (u "("); Req (word9 14 "a"); Txt (u ", "); Req (word9 15 "b"); Txt (u ", "); Req (word9 16 "c"); Txt (u ")")])); Txt nl]) true nl.
Definition progs9 : list (expr * module) := [(before9, mod_before); (after9, mod_after)].

Example shown9 : map show9 [before9; after9] = map (fun s => u s ++ nl) ["isinstance(x, a) or isinstance(x, b) or isinstance(x, c)"; "isinstance(x, (a, b, c))"]%string.
Proof. vm_compute. reflexivity. Qed.

Definition parse9 (s : str) : res module := if str_eqb s (show9 before9) then Ok mod_before else if str_eqb s (show9 after9) then Ok mod_after else Err ParserSyntaxError.
Definition other9 (e : expr) : str := u "Module".
Fixpoint cst9 (t : tree) : cst := match t with Node id _ ps => Cst id (type_of other9 (read9 t)) [(u "parts", flat_map cst9_part ps)] end
with cst9_part (p : part) : list cst := match p with Req t => [cst9 t] | _ => [] end.

Definition same9 (a b : expr) : bool := match a, b with Name s, Name s' => str_eqb s s' | _, _ => false end.
Definition isinstance9 (f : expr) : bool := match f with Name s => str_eqb s (u "isinstance") | _ => false end.
Definition classes9 : list (rule_code * (expr -> res Rules.report)) :=
  class_codes node9 read9 (fun _ => plant) (fun _ _ => None) (fun _ => Some (u "Multiple isinstance calls")) same9 isinstance9 (fun _ => false) (fun _ => 0) (fun _ _ _ _ => false).
Definition collapse9 : rule_code * (expr -> res Rules.report) := nth 2 classes9 (RuleCode [] None unit tt (fun _ _ => None), fun _ => Ok None).

Definition system9 : system :=
  let Y := system2 (u "rules") (u "rules") in
  MkSystem (y_env Y) (y_unicode Y) (y_world Y) (y_py Y) (fun _ _ => fst collapse9) parse9
    (fun md => Ok (Metadata (cst9 (m_tree md)) (fun _ => Place [] [] false) (fun _ => ex_range)))
    (y_took Y) (y_udiff Y) (fun md => Ok (code (Mod (m_tree md) true nl))) (y_style Y) (y_walk Y).
Definition fix9 : cmd N := whole_fix ex_cli system9 [u "d"; u "stdin"] ex_opts false false false [PathArg x_py] session0.
Definition disk_before : fs := put fs2 x_py (Some (show9 before9)).
Definition disk_after : fs := put disk_before x_py (Some (show9 after9)).
Definition rules9 : list (expr -> res Rules.report) := map snd [collapse9].

Lemma in9 : forall c md, parse9 c = Ok md -> exists e, In (e, md) progs9.
Proof. intros c md Ep. unfold parse9 in Ep. repeat (destruct (str_eqb _ _); [injection Ep as <-; eexists; cbn; eauto 10|]). discriminate Ep. Qed.

Lemma laid_mod9 : forall e md, In (e, md) progs9 -> laid node9 form9 (m_tree md) e.
Proof.
  intros e md I. repeat (destruct I as [I|I]; [injection I as <- <-; repeat (constructor; [reflexivity|reflexivity|eexists; split; reflexivity|]; cbn; repeat apply Forall2_cons; try apply Forall2_nil)|]). contradiction.
Qed.

Lemma seen9 : forall c md M, y_parse system9 c = Ok md -> y_wrap system9 md = Ok M -> seen node9 other9 read9 md M.
Proof.
  intros c md M Ep Ew. cbn in Ep, Ew. injection Ew as <-. destruct (in9 _ _ Ep) as (e & I). destruct I as [I|[I|[]]]; injection I as <- <-.
  - split; [cbn; repeat constructor; cbn; intuition discriminate|]. split; [vm_compute; reflexivity|eexists _, _; reflexivity].
  - split; [cbn; repeat constructor; cbn; intuition discriminate|]. split; [vm_compute; reflexivity|eexists _, _; reflexivity].
Qed.

Lemma reads9 : forall e, In e (map fst progs9) -> reads node9 form9 system9 (show9 e) e.
Proof.
  intros e I. apply in_map_iff in I. destruct I as ([e' md] & <- & I). cbn [fst]. exists md. eexists. split; [|split; [reflexivity|split; [now apply laid_mod9|split; [|intros C s; apply not_silenced8]]]].
  - destruct I as [I|[I|[]]]; injection I as <- <-; vm_compute; reflexivity.
  - destruct I as [I|[I|[]]]; injection I as <- <-; cbn; repeat constructor; cbn; intuition discriminate.
Qed.

Lemma becomes9 : forall e0 e, becomes rules9 e0 e -> In e0 (map fst progs9) -> In e (map fst progs9).
Proof.
  intros e0 e H. induction H as [e|e r e' P B IH]; intro I; auto. apply IH. apply Permutation_sym, Permutation_length_1_inv in P. subst r.
  destruct I as [<-|[<-|[]]]; vm_compute; auto.
Qed.

Lemma readable9 : forall e', becomes rules9 before9 e' -> readable node9 form9 system9 x_py (Some ex_opts) e'.
Proof.
  intros e' B F cfg md c Eg L (b & Eb & Fm).
  assert (I : In e' (map fst progs9)) by (apply (becomes9 before9); [exact B|cbn; auto]).
  assert (c = show9 e') as ->.
  { injection Eb as <-. destruct (c_formatter cfg) as [st|]; [destruct Fm as (fmt & E & _); discriminate E|]. subst c. unfold code. cbn [m_newline m_default_newline m_tree].
    rewrite (proj2 (laid9 _ _ L)). destruct I as [<-|[<-|[]]]; vm_compute; reflexivity. }
  split; [|now apply reads9]. destruct I as [<-|[<-|[]]]; vm_compute; discriminate.
Qed.

Lemma writes9 : forall e r, In e (map fst progs9) -> In r rules9 -> writes_fixes node9 form9 (fun _ => plant) r e.
Proof.
  intros e r I [<-|[]] t x e' Ix _ Er. change (snd collapse9) with (sure (collapse same9 isinstance9)) in Er.
  destruct I as [<-|[<-|[]]]; vm_compute in Ix; repeat (destruct Ix as [<-|Ix]; [vm_compute in Er; try discriminate Er; injection Er as <-;
    repeat (constructor; [reflexivity|reflexivity|eexists; split; reflexivity|]; cbn; repeat apply Forall2_cons; try apply Forall2_nil)|]); contradiction.
Qed.

Lemma system9_fair : forall G, fair_sets (y_world system9 G).
Proof. intros G l. apply Permutation_refl. Qed.

Definition cfg9 : res config := generate_config (y_env system9) disk_before x_py None (Some ex_opts).
Lemma selects9 : forall D G, In D [disk_before; disk_after] -> (forall q, f_file G q <> f_file D q -> In q [x_py] /\ q <> x_py) -> (forall q, f_isdir G q = f_isdir D q) ->
  selects (system_at system9 session0) G x_py (Some ex_opts) (map fst [collapse9]).
Proof.
  intros D G Id Fi Di cfg Eg. change (y_env (system_at system9 session0)) with (y_env system9) in Eg.
  assert (Eg' : cfg9 = Ok cfg).
  { rewrite <- Eg. unfold cfg9. symmetry. rewrite (config_same _ D G) by (auto; intros; now apply same_disk). destruct Id as [<-|[<-|[]]]; vm_compute; reflexivity. }
  exists [(1%N, None)].
  destruct (collect_rules (y_world (system_at system9 session0) G) cfg (y_py (system_at system9 session0))) as [r s] eqn:C.
  assert (r = Ok ([(1%N, None)], [])) as ->.
  { unfold cfg9 in Eg'. vm_compute in Eg'. injection Eg' as <-. vm_compute in C. injection C as <- _. reflexivity. }
  assert (Fa : fair_sets (y_world (system_at system9 session0) G)) by (intro l; apply Permutation_refl). destruct (selected_in _ _ _ _ _ _ Fa C) as [Nd Sel].
  split; auto.
Qed.

Definition visit9 (D : fs) (n : nat) : list ev * ApiSpec.outcome unit :=
  play (fixit_file (tool_of (system_at system9 session0)) x_py true (Some ex_opts) false) ([IFiles D; IFiles D; IFiles D] ++ repeat (IAnswer None) n ++ [IFiles D; IDone (Ok tt)]).

Lemma one9 : forall D D' n, In (D, D', n) [(disk_before, disk_after, 1); (disk_after, disk_after, 1)] -> one_command system9 ex_opts x_py (map fst [collapse9]) D D'.
Proof.
  intros D D' n I.
  assert (Pl : run (fixit_file (tool_of (system_at system9 session0)) x_py true (Some ex_opts) false) (fst (visit9 D n)) (Returned tt)).
  { assert (X : snd (visit9 D n) = Returned tt) by (destruct I as [I|[I|[]]]; injection I as <- <- <-; vm_compute; reflexivity).
    destruct (visit9 D n) as [es o] eqn:E. cbn [fst snd] in *. subst o. exact (play_run _ _ _ _ _ E). }
  assert (X : snd (fst (live fix9 D [])) = Returned 0%N /\ snd (live fix9 D []) = D' /\
              effects (fst (fst (live fix9 D []))) = ELook D :: ELook D :: api_effects (concat (map snd [(session0, fst (visit9 D n))]))).
  { destruct I as [I|[I|[]]]; injection I as <- <- <-; vm_compute; repeat split. }
  destruct (live fix9 D []) as [[vs o] G] eqn:El. destruct (live_run _ _ _ _ _ _ _ El) as (R & L). cbn [fst snd] in X. destruct X as (-> & -> & Ef).
  exists ex_cli, [u "d"; u "stdin"], false, false, [PathArg x_py], session0, vs, 0%N, [x_py], [(session0, fst (visit9 D n))], session0, (fst (visit9 D n)).
  split; [reflexivity|]. split; [exact R|]. split; [exact L|]. split; [reflexivity|]. split; [constructor; [intros []|constructor]|].
  split; [constructor; [exact Pl|constructor]|]. split; [exact Ef|]. split; [left; reflexivity|].
  split; [apply no_errors_check; destruct I as [I|[I|[]]]; injection I as <- <- <-; vm_compute; reflexivity|].
  intros G' Fi Di. apply (selects9 D); auto. destruct I as [I|[I|[]]]; injection I as <- <- <-; cbn; auto.
Qed.

(** The class, as it stands in [class_codes], says one thing about the file, not two; and "fixit fix --automatic" leaves "isinstance(x, (a, b, c))". *)
Example C88_example :
  k_name (fst collapse9) = u "CollapseIsinstanceChecks" /\ In collapse9 classes9 /\
  form_law form9 /\ (forall G, fair_sets (y_world system9 G)) /\ reads_nodes node9 form9 read9 /\
  (forall c md M, y_parse system9 c = Ok md -> y_wrap system9 md = Ok M -> seen node9 other9 read9 md M /\ exists e, laid node9 form9 (m_tree md) e) /\
  (forall F k, completes system9 F x_py mod_before (Metadata (cst9 (m_tree mod_before)) (fun _ => Place [] [] false) (fun _ => ex_range)) k) /\
  map s_node (about node9 read9 (fun _ => plant) (fun _ => None) (u "CollapseIsinstanceChecks") (snd collapse9) (m_tree mod_before)) = [2%N] /\
  has_fix (snd collapse9) (read9 (Node 3 false [Req (call9 10 (word9 13 "a")); Txt (u " or "); Req (call9 20 (word9 23 "b"))])) = true /\
  f_file disk_before x_py = Some (u "isinstance(x, a) or isinstance(x, b) or isinstance(x, c)" ++ nl) /\ reads node9 form9 system9 (show9 before9) before9 /\
  (forall e', becomes rules9 before9 e' -> readable node9 form9 system9 x_py (Some ex_opts) e' /\ forall r, In r rules9 -> writes_fixes node9 form9 (fun _ => plant) r e') /\
  (forall n, commands system9 ex_opts x_py (map fst [collapse9]) (1 + n) disk_before disk_after) /\
  f_file disk_after x_py = Some (u "isinstance(x, (a, b, c))" ++ nl) /\ becomes rules9 before9 after9.
Proof.
  split; [reflexivity|]. split; [right; right; left; reflexivity|]. split; [exact form9_law|]. split; [exact system9_fair|]. split; [exact read9_law|].
  split; [intros c md M Ep Ew; split; [exact (seen9 c md M Ep Ew)|destruct (in9 _ _ Ep) as (e & I); exists e; now apply laid_mod9]|].
  split; [intros F k; eexists; vm_compute; reflexivity|]. split; [vm_compute; reflexivity|]. split; [vm_compute; reflexivity|]. split; [vm_compute; reflexivity|].
  split; [apply reads9; cbn; auto|]. split.
  { intros e' B. split; [now apply readable9|]. intros r I. apply writes9; [|exact I]. apply (becomes9 before9); [exact B|cbn; auto]. }
  split.
  { intro n. eapply cs_one; [apply (one9 disk_before disk_after 1); cbn; auto|]. induction n as [|n IH]; [constructor|]. eapply cs_one; [apply (one9 disk_after disk_after 1); cbn; auto|exact IH]. }
  split; [vm_compute; reflexivity|]. eapply bc_run; [apply Permutation_refl|]. vm_compute. constructor.
Qed.
