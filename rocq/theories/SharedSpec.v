(** * Vocabulary for C92: what the rules of fixit.upgrade are to report *)
From Coq Require Import String List NArith ZArith Bool Arith.
From Verif Require Import Base PyStr Py Ftypes Paths Config Collect Suppress Classes ClassesSpec Imports ImportsProps Upgrade UpgradeProps Cst Engine Batch Api System SystemSpec
  Visitors VisitorsSpec Statements StatementsSpec Shared.
Import ListNotations.

(** LibCST's name for the type of such a node *)
Definition item_type (t : item) (ty : str) : Prop :=
  match t with
  | AName _ => ty = u "Name"
  | AnImportOf _ _ => ty = u "ImportFrom"
  | AClassOf _ _ _ => ty = u "ClassDef"
  | ACallOf _ _ => ty = u "Call"
  | AnotherItem _ => True
  end.
Definition bases_of (t : item) : list N := match t with AClassOf _ _ bs => bs | _ => [] end.

(** The nodes of the file are different objects, read as what they are; the bases of a class are nodes in it, and of no other class; a module's name that is one Name
    has no dot. *)
Record well_read (read : module -> N -> item) (md : module) (M : metadata) : Prop := {
  wr_ids : own_ids M;
  wr_types : forall c, In c (all_nodes (d_tree M)) -> item_type (read md (cst_id c)) (cst_type c);
  wr_bases : forall c b, In c (all_nodes (d_tree M)) -> In b (bases_of (read md (cst_id c))) -> In b (map cst_id (tl (all_nodes c)));
  wr_apart : NoDup (flat_map (fun c => bases_of (read md (cst_id c))) (all_nodes (d_tree M)));
  wr_names : forall c i js m, In c (all_nodes (d_tree M)) -> read md (cst_id c) = AnImportOf i js -> f_module i = Some [m] -> ~ In 46%N m }.

(** The set as it is: [taken] once, or not *)
Inductive left_over (taken : Prop) : option (list str) -> option (list str) -> Prop :=
| lo_all : forall s, ~ taken -> left_over taken s s
| lo_rest : forall q qs, taken -> left_over taken (Some (q :: qs)) (Some qs)
| lo_none : taken -> left_over taken None None.

Section Reports.
  Context (write : module -> N -> new_item -> repl) (code_range : expr -> expr -> expr) (md : module) (i : N).

  Definition rename_say (j : N) (old new : str) (x : new_item) : say :=
    Say j (Some (u "Fixit deprecated import " ++ old ++ u ", use " ++ new ++ u " instead")) PosDefault (Some (write md j x)).

  (** FixitDeprecatedImport: [names]: the set that it finds *)
  Inductive import_reports (names : option (list str)) : item -> list say -> Prop :=
  | ir_name : forall s new qs, names = Some ((u "fixit." ++ s) :: qs) -> renamed s new -> import_reports names (AName s) [rename_say i s new (ANewName new)]
  | ir_no_name : forall s, (forall new qs, names = Some ((u "fixit." ++ s) :: qs) -> ~ renamed s new) -> import_reports names (AName s) []
  | ir_import : forall imp js l sel xs, f_module imp = Some [u "fixit"] -> f_names imp = Some l ->
      keeps (fun aj => exists new, renamed (al_name (fst aj)) new) (combine l js) sel ->
      Forall2 (fun aj x => exists new a', renamed (al_name (fst aj)) new /\ al_name a' = new /\
                 ((al_as (fst aj) = Some new /\ al_as a' = None) \/ (al_as (fst aj) <> Some new /\ al_as a' = al_as (fst aj))) /\
                 x = rename_say (snd aj) (al_name (fst aj)) new (ANewAlias a')) sel xs ->
      import_reports names (AnImportOf imp js) xs
  | ir_no_import : forall imp js, f_module imp <> Some [u "fixit"] \/ f_names imp = None -> import_reports names (AnImportOf imp js) []
  | ir_other : forall t, match t with AName _ | AnImportOf _ _ => False | _ => True end -> import_reports names t [].

  (** FixitRemoveRuleSuffix: once for each base that is LintRule *)
  Inductive suffix_reports (sets : N -> option (list str)) : item -> list say -> Prop :=
  | sr_suffix : forall stem j bs sel, keeps (fun b => exists qs, sets b = Some (u "fixit.LintRule" :: qs)) bs sel ->
      suffix_reports sets (AClassOf (stem ++ u "Rule") j bs) (map (fun _ => Say j None PosDefault (Some (write md j (ANewName stem)))) sel)
  | sr_no_suffix : forall name j bs, (forall stem, name <> stem ++ u "Rule") -> suffix_reports sets (AClassOf name j bs) []
  | sr_other : forall t, match t with AClassOf _ _ _ => False | _ => True end -> suffix_reports sets t [].

  (** FixitDeprecatedTestCaseKeywords *)
  Definition call_reports (t : item) (xs : list say) : Prop :=
    (exists names args l, t = ACallOf names args /\ keyword_reports code_range names args l /\
       xs = map (fun s => Say i None PosDefault (match snd s with Some (NewArgs a) => Some (write md i (NewArguments a)) | _ => None end)) l) \/
    (match t with ACallOf _ _ => False | _ => True end /\ xs = []).
End Reports.

(** A rule that leaves the sets as they are *)
Definition leaves_alone (C : sharing sets) : Prop :=
  forall md method f c own h xs own' h', c_method C md method = Some f -> f c own h = (xs, Ok (own', h')) -> h' = h.

(** The name and MESSAGE of the class, all that counts for comments and messages *)
Definition as_code (C : sharing sets) : rule_code := RuleCode (c_name C) (c_MESSAGE C) unit tt (fun _ _ => None).

(** What such a rule is to report about the node [c]; [with_suffix]: FixitRemoveRuleSuffix is run, too; [h0]: the sets as LibCST gives them *)
Definition upgrade_reports (read : module -> N -> item) (write : module -> N -> new_item -> repl) (code_range : expr -> expr -> expr) (md : module) (M : metadata) (h0 : sets)
  (with_suffix : Prop) (w : upgrade_rule) (c : cst) (xs : list say) : Prop :=
  let i := cst_id c in
  match w with
  | ImportRule => exists names, left_over (with_suffix /\ In i (flat_map (fun c => bases_of (read md (cst_id c))) (all_nodes (d_tree M)))) (h0 i) names /\
      import_reports write md i names (read md i) xs
  | SuffixRule => suffix_reports write md h0 (read md i) xs
  | KeywordsRule => call_reports write code_range md i (read md i) xs
  end.
