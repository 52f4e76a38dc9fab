(** * An example for C92, and what the sharing does to base classes *)
From Coq Require Import String List NArith ZArith Bool Arith Lia Permutation.
From Verif Require Import Base PyStr Py Rules Classes Scopes Imports Upgrade UpgradeProps Ftypes Paths Config Collect CollectSpec
  Suppress SuppressSpec Cst Engine EngineProps Batch Api ApiSpec System SystemSpec SystemProps SystemSame
  Session SessionSpec SessionProps Cli CliSpec CliProps CommandsSpec DiskSpec DiskProps Visitors VisitorsSpec VisitorsExamples Statements StatementsSpec StatementsProps Shared SharedSpec SharedProps.
Import ListNotations.

(** ** What C92 says about references *)

(** With FixitRemoveRuleSuffix, FixitDeprecatedImport says nothing about a base class that has one fully qualified name. *)
Theorem C92_base_kept : forall read write code_range md M h0 (P : Prop) c s q xs, P ->
  In (cst_id c) (flat_map (fun c => bases_of (read md (cst_id c))) (all_nodes (d_tree M))) -> read md (cst_id c) = AName s -> h0 (cst_id c) = Some [q] ->
  upgrade_reports read write code_range md M h0 P ImportRule c xs -> xs = [].
Proof.
  intros read write code_range md M h0 P c s q xs Hp Ib Er Eh (names & Lo & Ir). rewrite Er in Ir. rewrite Eh in Lo.
  inversion Lo as [? N|? ? T|]; subst; [exfalso; apply N; auto|]. inversion Ir as [? ? qs E| | | |? X]; subst; [discriminate E|reflexivity|destruct X].
Qed.

(** Everywhere else, and without that rule, every reference to an old name is reported, with the new name. *)
Theorem C92_use_renamed : forall read write code_range md M h0 (P : Prop) c s qs new xs,
  ~ (P /\ In (cst_id c) (flat_map (fun c => bases_of (read md (cst_id c))) (all_nodes (d_tree M)))) ->
  read md (cst_id c) = AName s -> h0 (cst_id c) = Some ((u "fixit." ++ s) :: qs) -> renamed s new ->
  upgrade_reports read write code_range md M h0 P ImportRule c xs ->
  exists text, xs = [Say (cst_id c) (Some text) PosDefault (Some (write md (cst_id c) (ANewName new)))].
Proof.
  intros read write code_range md M h0 P c s qs new xs Np Er Eh R (names & Lo & Ir). rewrite Er in Ir. rewrite Eh in Lo.
  inversion Lo as [? N|? ? T|T]; subst; [|contradiction]. inversion Ir as [? new' qs' E R'|? No| | |? X]; subst; [|exfalso; exact (No new qs eq_refl R)|destruct X].
  assert (new' = new) as -> by (destruct R; inversion R'; reflexivity). eexists. reflexivity.
Qed.

(** ** A file
        from fixit import CSTLintRule, ValidTestCase as Valid
        class FooRule(fixit.LintRule): ...
        class Bar(CSTLintRule): ...
        x = CSTLintRule
        Valid(a, line=1)  *)
Definition text13 : str := u "from fixit import CSTLintRule, ValidTestCase ...".
Definition md13 : module := Mod (Cst.Node 1 false [Txt text13]) true nl.
Definition node13 (i : N) (ty : string) (cs : list cst) : cst := Cst i (u ty) [(u "body", cs)].
Definition cst13 : cst :=
  node13 1 "Module" [node13 2 "ImportFrom" [node13 3 "ImportAlias" []; node13 4 "ImportAlias" []];
                     node13 5 "ClassDef" [node13 6 "Name" []; node13 7 "Attribute" []];
                     node13 8 "ClassDef" [node13 9 "Name" []; node13 10 "Name" []];
                     node13 11 "Name" []; node13 12 "Call" [node13 13 "Name" []]].
Definition M13 : metadata := Metadata cst13 (fun _ => Place [] [] false) (fun _ => ex_range).
Definition read13 (_ : module) (i : N) : item :=
  match i with
  | 2 => AnImportOf (From 0 (Some [u "fixit"]) (Some [Alias (u "CSTLintRule") None; Alias (u "ValidTestCase") (Some (u "Valid"))])) [3; 4]
  | 5 => AClassOf (u "FooRule") 6 [7]
  | 6 => AName (u "FooRule")
  | 8 => AClassOf (u "Bar") 9 [10]
  | 9 => AName (u "Bar")
  | 10 | 11 => AName (u "CSTLintRule")
  | 12 => ACallOf [u "fixit.ValidTestCase"] [plain_arg (Name (u "a")); (NoStar, Some (u "line"), Number (u "1"))]
  | 13 => AName (u "Valid")
  | _ => AnotherItem i
  end%N.
Definition sets13 : sets := fun i =>
  match i with
  | 6 => Some [u "FooRule"] | 7 => Some [u "fixit.LintRule"] | 9 => Some [u "Bar"] | 10 | 11 => Some [u "fixit.CSTLintRule"] | 12 | 13 => Some [u "fixit.ValidTestCase"]
  | _ => None
  end%N.
Definition write13 (_ : module) (i : N) (n : new_item) : repl :=
  RNode (Cst.Node 0 false [Txt (match n with
    | ANewName s => s
    | ANewAlias a => al_name a ++ match al_as a with Some s => u " as " ++ s | None => [] end
    | NewArguments args => u "arguments" ++ [N.of_nat (List.length args)]
    end)]).
Definition msg13 (name : str) : option str := Some name.
Definition range13 (a b : expr) : expr := Py.Call (Name (u "CodeRange")) [plain_arg a; plain_arg b].

(** The classes 1, 2 and 3 of a module are the three rules; which ones are there is a parameter. *)
Definition world13 (rules : list (str * pyobj)) : world := World
  (fun _ n => if str_eqb n (u "rules") then ([u "rules"], Ok (PyMod rules None)) else ([], Err ImportError))
  (fun _ _ _ => ([], Err ImportError)) (fun _ => []) (fun _ => []) (fun _ _ => Ok true) (fun _ => Ok tt) (w_iter world2) (w_posix world2).
Definition all13 : list (str * pyobj) := [(u "A", ORule 1 false); (u "B", ORule 2 false); (u "C", ORule 3 false)].
Definition only13 : list (str * pyobj) := [(u "A", ORule 1 false)].
Definition system13 (rules : list (str * pyobj)) : system :=
  let Y := system2 (u "rules") (u "rules") in
  MkSystem (y_env Y) (y_unicode Y) (fun _ => world13 rules) (y_py Y) (y_code Y) (fun s => if str_eqb s text13 then Ok md13 else Err ParserSyntaxError) (fun _ => Ok M13)
    (y_took Y) (y_udiff Y) (fun md => Ok (code md)) (y_style Y) (y_walk Y).
Definition who13 (_ : fs) (k : cls) : option upgrade_rule :=
  match k with (1, None) => Some ImportRule | (2, None) => Some SuffixRule | (3, None) => Some KeywordsRule | _ => None end%N.
Definition quiet13 : sharing sets := Sharing (u "Q") None unit tt (fun _ _ => None).
Definition code13 (F : fs) (k : cls) : sharing sets := match who13 F k with Some w => upgrade_code read13 write13 range13 msg13 w | None => quiet13 end.
Definition shared13 (_ : fs) (_ : config) (_ : module) : res sets := Ok sets13.
Definition disk13 : fs := put fs2 x_py (Some text13).
Definition tool13 (rules : list (str * pyobj)) : tool := sharing_tool sets (system13 rules) shared13 code13.
Definition lint13 (rules : list (str * pyobj)) (n : nat) : list ev * ApiSpec.outcome unit :=
  play (fixit_file (tool13 rules) x_py false (Some ex_opts) false) ([IFiles disk13; IFiles disk13; IFiles disk13] ++ repeat (IAnswer None) n).
Definition told13 (rules : list (str * pyobj)) (n : nat) : list (str * N * option repl) := map (fun v => (v_rule v, v_node v, v_replacement v)) (violations (results (fst (lint13 rules n)))).
Definition new13 (s : str) : option repl := Some (RNode (Cst.Node 0 false [Txt s])).

Lemma lints13 : forall rules n, In (rules, n) [(all13, 5); (only13, 4)] ->
  run (fixit_file (tool13 rules) x_py false (Some ex_opts) false) (fst (lint13 rules n)) (Returned tt) /\ no_errors (fst (lint13 rules n)).
Proof.
  intros C n I. assert (X : snd (lint13 C n) = Returned tt /\ forallb (fun x => match x_error x with None => true | _ => false end) (results (fst (lint13 C n))) = true).
  { repeat (destruct I as [I|I]; [injection I as <- <-; vm_compute; split; reflexivity|]). destruct I. }
  destruct X as (X & E). split; [|now apply no_errors_check]. destruct (lint13 C n) as [es o] eqn:El. cbn [fst snd] in *. subst o. exact (play_run _ _ _ _ _ El).
Qed.

Lemma read_well13 : well_read read13 md13 M13.
Proof.
  constructor.
  - cbn. repeat constructor; cbn; intuition discriminate.
  - intros x I. cbn in I. repeat (destruct I as [<-|I]; [reflexivity || exact Logic.I|]). destruct I.
  - intros x b I Ib. cbn in I. repeat (destruct I as [<-|I]; [cbn in *; intuition auto|]). destruct I.
  - cbn. repeat constructor; cbn; intuition discriminate.
  - intros x i js m I E Em. cbn in I. repeat (destruct I as [<-|I]; [try discriminate E; injection E as <- <-; injection Em as <-; vm_compute; intuition discriminate|]). destruct I.
Qed.

(** The hypotheses of C92 hold. With all three rules, the base class of Bar (node 10) keeps its old name; with FixitDeprecatedImport alone, it is renamed. *)
Example C92_example :
  (forall rules F, fair_sets (y_world (system13 rules) F)) /\
  (forall rules c md M, y_parse (system13 rules) c = Ok md -> y_wrap (system13 rules) md = Ok M -> well_read read13 md M) /\
  (forall F k, match who13 F k with Some w => code13 F k = upgrade_code read13 write13 range13 msg13 w | None => leaves_alone (code13 F k) end) /\
  (forall (F : fs) (k k' : cls) w, who13 F k = Some w -> who13 F k' = Some w -> k = k') /\
  (forall rules n, In (rules, n) [(all13, 5); (only13, 4)] ->
     run (fixit_file (tool13 rules) x_py false (Some ex_opts) false) (fst (lint13 rules n)) (Returned tt) /\ no_errors (fst (lint13 rules n))) /\
  told13 all13 5 = [(u "FixitDeprecatedImport", 3%N, new13 (u "LintRule")); (u "FixitDeprecatedImport", 4%N, new13 (u "Valid"));
                    (u "FixitDeprecatedImport", 11%N, new13 (u "LintRule"));
                    (u "FixitRemoveRuleSuffix", 6%N, new13 (u "Foo")); (u "FixitDeprecatedTestCaseKeywords", 12%N, new13 (u "arguments" ++ [2%N]))] /\
  told13 only13 4 = [(u "FixitDeprecatedImport", 3%N, new13 (u "LintRule")); (u "FixitDeprecatedImport", 4%N, new13 (u "Valid"));
                     (u "FixitDeprecatedImport", 10%N, new13 (u "LintRule")); (u "FixitDeprecatedImport", 11%N, new13 (u "LintRule"))].
Proof.
  split; [intros rules F l; apply Permutation_refl|]. split.
  { intros rules c md M Ep Ew. change ((if str_eqb c text13 then Ok md13 else Err ParserSyntaxError) = Ok md) in Ep. change (Ok M13 = Ok M) in Ew. injection Ew as <-.
    assert (md = md13) as -> by (destruct (str_eqb c text13); [congruence|discriminate Ep]). exact read_well13. }
  split. { intros F k. unfold code13. destruct (who13 F k); [reflexivity|]. intros md method f c own h xs own' h' E. discriminate E. }
  split.
  { assert (Id : forall F k w, who13 F k = Some w -> k = (match w with ImportRule => 1 | SuffixRule => 2 | KeywordsRule => 3 end%N, None)).
    { intros F [[|[[p|p|]|[p|p|]|]] [g|]] w E; cbn in E; try discriminate E; injection E as <-; reflexivity. }
    intros F k k' w E E'. now rewrite (Id _ _ _ E), (Id _ _ _ E'). }
  split; [exact lints13|]. split; vm_compute; reflexivity.
Qed.

(** It is not the case that every reference to an old name is reported when a file is linted with these rules. *)
Theorem C92_all_renamed_refuted : exists Y shared code md M h0 es c s qs new,
  run (fixit_file (sharing_tool sets Y shared code) x_py false (Some ex_opts) false) es (Returned tt) /\ no_errors es /\
  y_wrap Y md = Ok M /\ (forall F cfg md, shared F cfg md = Ok h0) /\
  (exists F k, code F k = upgrade_code read13 write13 range13 msg13 ImportRule /\ In (trim_rule (c_name (code F k))) (map v_rule (violations (results es)))) /\
  In c (all_nodes (d_tree M)) /\ read13 md (cst_id c) = AName s /\ h0 (cst_id c) = Some ((u "fixit." ++ s) :: qs) /\ renamed s new /\
  d_place M (cst_id c) = Place [] [] false /\
  ~ exists v, In v (violations (results es)) /\ v_node v = cst_id c.
Proof.
  exists (system13 all13), shared13, code13, md13, M13, sets13, (fst (lint13 all13 5)), (node13 10 "Name" []), (u "CSTLintRule"), [], (u "LintRule").
  destruct (lints13 all13 5 (or_introl eq_refl)) as (R & Ne). split; [exact R|]. split; [exact Ne|]. split; [reflexivity|]. split; [reflexivity|].
  split. { exists disk13, (1%N, None). split; [reflexivity|]. vm_compute. now left. }
  split; [cbn; intuition auto|]. split; [reflexivity|]. split; [reflexivity|]. split; [constructor|]. split; [reflexivity|].
  intros (v & I & E). assert (X : existsb (fun v => N.eqb (v_node v) 10) (violations (results (fst (lint13 all13 5)))) = true).
  { apply existsb_exists. exists v. split; [exact I|]. rewrite E. reflexivity. }
  vm_compute in X. discriminate X.
Qed.
