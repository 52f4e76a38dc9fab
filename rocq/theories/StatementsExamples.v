(** * An example for C91: a file with something for several of the rules *)
From Coq Require Import String List NArith ZArith Bool Arith Lia Permutation.
From Verif Require Import Base PyStr Py Rules Classes Scopes Imports Trees TreesSpec Ftypes Paths Config Collect CollectSpec
  Suppress SuppressSpec Cst Engine EngineProps Batch Api ApiSpec System SystemSpec SystemProps SystemSame
  Session SessionSpec SessionProps Cli CliSpec CliProps CommandsSpec DiskSpec DiskProps Visitors VisitorsSpec VisitorsExamples Statements StatementsSpec StatementsProps.
Import ListNotations.

(**     from collections import OrderedDict, Mapping
        class A(object, collections.Sized):
            async def f(cls, x: list):
                time.sleep(1)  *)
Definition text12 : str := u "from collections import OrderedDict, Mapping ...".
Definition md12 : module := Mod (Cst.Node 1 false [Txt text12]) true nl.
Definition node12 (i : N) (ty : string) (cs : list cst) : cst := Cst i (u ty) [(u "body", cs)].
Definition cst12 : cst :=
  node12 1 "Module" [node12 2 "ImportFrom" [];
                     node12 3 "ClassDef" [node12 4 "FunctionDef" [node12 5 "Annotation" [node12 6 "Name" []]; node12 7 "Call" []]]].
Definition M12 : metadata := Metadata cst12 (fun _ => Place [] [] false) (fun _ => ex_range).

Definition mixed12 : import_from := From 0 (Some [u "collections"]) (Some [Alias (u "OrderedDict") None; Alias (u "Mapping") None]).
Definition class12 (bases : list Py.arg) : class_def := ClassDef (u "A") bases [] [] (Block [Line 20 (Compound 0)]).
Definition sized12 (m : expr) : Py.arg := plain_arg (Attribute m (u "Sized")).
Definition read12 (_ : module) (i : N) : thing :=
  match i with
  | 1 => AModule [ImportLine mixed12; OtherStatement 3 []]
  | 2 => AnImport false mixed12
  | 3 => AClass (class12 [plain_arg (Name (u "object")); sized12 (Name (u "collections"))]) (fun _ => false) (fun _ => false) []
  | 4 => AFunction [] (Function false [] [u "cls"] [] (Group []))
  | _ => AnotherThing i
  end%N.
Definition kind12 (_ : module) (i : N) : kind :=
  match i with
  | 2 => ImportFromNode (Some (Name (u "collections"))) (Some [Name (u "OrderedDict"); Name (u "Mapping")])
  | 3 => ClassNode (u "A")
  | 4 => FunctionNode true [u "cls"]
  | 5 => AnnotationNode
  | 6 => NameNode (u "list") [u "builtins.list"] (fun _ => true)
  | 7 => CallNode (Py.Call (Attribute (Name (u "time")) (u "sleep")) [plain_arg (Number (u "1"))]) [u "time.sleep"]
  | _ => OtherNode i
  end%N.
(** The new code is written as one text: what is new in it. *)
Definition write12 (_ : module) (i : N) (n : new_thing) : repl :=
  RNode (Cst.Node 0 false [Txt (match n with
    | NewClass c => u "bases" ++ [N.of_nat (List.length (d_bases c))]
    | NewBody body => u "body" ++ [N.of_nat (List.length body)]
    | _ => u "other"
    end)]).
Definition write_expr12 (_ : module) (_ : N) (e : expr) : repl := RNode (Cst.Node 0 false [Txt (match e with Name s => s | _ => u "other" end)]).
Definition msg12 (name : str) : option str := Some name.

Definition codes12 : list rule_code := statement_codes read12 write12 msg12 (fun _ => None) (fun a _ => a).
Definition object12 : rule_code := nth 0 codes12 (RuleCode [] None unit tt (fun _ _ => None)).
Definition abc12 : rule_code := abc_class read12 write12 (u "DeprecatedABCImport") (Some (u "moved")).
Definition sleep12 : rule_code := sleep_class kind12 write_expr12 msg12.
Definition typing12 : rule_code := typing_class kind12 write_expr12 msg12 (fun y => Some (u "use " ++ y)).

Definition system12 (C : rule_code) : system :=
  let Y := system2 (u "rules") (u "rules") in
  MkSystem (y_env Y) (y_unicode Y) (y_world Y) (y_py Y) (fun _ _ => C) (fun s => if str_eqb s text12 then Ok md12 else Err ParserSyntaxError) (fun _ => Ok M12)
    (y_took Y) (y_udiff Y) (fun md => Ok (code md)) (y_style Y) (y_walk Y).
Definition disk12 : fs := put fs2 x_py (Some text12).
Definition lint12 (C : rule_code) (n : nat) : list ev * ApiSpec.outcome unit :=
  play (fixit_file (tool_of (system12 C)) x_py false (Some ex_opts) false) ([IFiles disk12; IFiles disk12; IFiles disk12] ++ repeat (IAnswer None) n).
Definition told12 (C : rule_code) (n : nat) : list (N * str * option repl) := map (fun v => (v_node v, v_message v, v_replacement v)) (violations (results (fst (lint12 C n)))).

Lemma lints12 : forall C n, In (C, n) [(object12, 1); (abc12, 2); (sleep12, 1); (typing12, 1)] ->
  run (fixit_file (tool_of (system12 C)) x_py false (Some ex_opts) false) (fst (lint12 C n)) (Returned tt) /\ no_errors (fst (lint12 C n)).
Proof.
  intros C n I. assert (X : snd (lint12 C n) = Returned tt /\ forallb (fun x => match x_error x with None => true | _ => false end) (results (fst (lint12 C n))) = true).
  { repeat (destruct I as [I|I]; [injection I as <- <-; vm_compute; split; reflexivity|]). destruct I. }
  destruct X as (X & E). split; [|now apply no_errors_check]. destruct (lint12 C n) as [es o] eqn:El. cbn [fst snd] in *. subst o. exact (play_run _ _ _ _ _ El).
Qed.

(** The hypotheses of C91 hold, and these rules have something to say. *)
Example C91_example :
  (forall C F, fair_sets (y_world (system12 C) F)) /\
  (forall C c md M, y_parse (system12 C) c = Ok md -> y_wrap (system12 C) md = Ok M ->
     shows_things read12 md M /\ shows_kinds kind12 md M /\ own_ids M /\ exists body, one_module read12 md M body) /\
  (forall C n, In (C, n) [(object12, 1); (abc12, 2); (sleep12, 1); (typing12, 1)] ->
     run (fixit_file (tool_of (system12 C)) x_py false (Some ex_opts) false) (fst (lint12 C n)) (Returned tt) /\ no_errors (fst (lint12 C n))) /\
  told12 object12 1 = [(3%N, u "NoInheritFromObject", Some (RNode (Cst.Node 0 false [Txt (u "bases" ++ [1%N])])))] /\
  told12 abc12 2 = [(3%N, u "moved", Some (RNode (Cst.Node 0 false [Txt (u "bases" ++ [2%N])]))); (1%N, u "moved", Some (RNode (Cst.Node 0 false [Txt (u "body" ++ [3%N])])))] /\
  told12 sleep12 1 = [(7%N, u "UseAsyncSleepInAsyncDef", None)] /\
  told12 typing12 1 = [(6%N, u "use List", Some (RNode (Cst.Node 0 false [Txt (u "List")])))].
Proof.
  split; [intros C F l; apply Permutation_refl|]. split.
  { intros C c md M Ep Ew. change ((if str_eqb c text12 then Ok md12 else Err ParserSyntaxError) = Ok md) in Ep. change (Ok M12 = Ok M) in Ew. injection Ew as <-. assert (md = md12) as -> by (destruct (str_eqb c text12); [congruence|discriminate Ep]). split; [|split; [|split]].
    - intros x I. cbn in I. repeat (destruct I as [<-|I]; [split; [reflexivity || exact Logic.I|intros c' nt dc ds lines E B; try discriminate E; injection E as <- <- <- <-; cbn in B; injection B as <-; repeat constructor; intros []]|]). destruct I.
    - intros x I. cbn in I. repeat (destruct I as [<-|I]; [reflexivity || exact Logic.I|]). destruct I.
    - cbn. repeat constructor; cbn; intuition discriminate.
    - eexists. split; [reflexivity|]. intros x I. cbn in I. repeat (destruct I as [<-|I]; [discriminate|]). destruct I. }
  split; [exact lints12|]. vm_compute. repeat split.
Qed.
