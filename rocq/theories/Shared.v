(** * Shared: rules that change what LibCST's metadata holds, in one traversal

    System.v gives every rule its own state. The two rules of fixit/upgrade that ask for the fully qualified names of a node take the answer out of
    the set (deprecated_import.py 120, remove_rule_suffix.py 58: [metadata.pop()]), and the sets are shared: the next who asks finds what is left. *)
From Coq Require Import String List NArith ZArith Bool Arith.
From Verif Require Import Base PyStr Py Ftypes Paths Config Collect Suppress Classes Imports Upgrade Cst Engine Batch Api System Visitors Statements.
Import ListNotations.

Section Sharing.
  Context (H : Type).

  (** As [rule_code], but the methods also see and change what is shared *)
  Record sharing := Sharing {
    c_name : str;
    c_MESSAGE : option str;
    c_own : Type;
    c_first : c_own;
    c_method : module -> str -> option (cst -> c_own -> H -> list say * res (c_own * H)) }.

  (** An instance during the traversal *)
  Record member := Member { m_code : sharing; m_own : c_own m_code; m_rule : rule }.
  Definition new_member (C : sharing) : member := Member C (c_first C) (new_rule (c_name C) (c_MESSAGE C)).

  Section Run.
    Context (U : unicode) (M : metadata) (md : module) (took : nat -> nat).

    (** LibCST's [_BatchedCSTVisitor] and rule.py 267-281, as [call_all] in Batch.v *)
    Fixpoint call_members (method : str) (t : cst) (xs : list member) (h : H) (m : metrics) (n : nat) : res (list member * H * metrics * nat) :=
      match xs with
      | [] => Ok ([], h, m, n)
      | x :: rest =>
          match c_method (m_code x) md method with
          | None => let! '(rest', h', m', n') := call_members method t rest h m n in Ok (x :: rest', h', m', n')
          | Some f =>
              let (says, o) := f t (m_own x) h in
              let! r := say_all U M says (m_rule x) in
              let! oh := o in
              let! '(rest', h', m', n') := call_members method t rest (snd oh) (add_time took (c_name (m_code x)) method n m) (S n) in
              Ok (Member (m_code x) (fst oh) r :: rest', h', m', n')
          end
      end.

    Fixpoint run_members (cs : list (str * cst)) (xs : list member) (h : H) (m : metrics) (n : nat) : res (list member * H * metrics * nat) :=
      match cs with
      | [] => Ok (xs, h, m, n)
      | (method, t) :: cs' => let! '(xs', h', m', n') := call_members method t xs h m n in run_members cs' xs' h' m' n'
      end.
  End Run.

  (** engine.py 81-98 with such rules: [shared]: what is shared when the traversal begins (81-95; computing it may fail) *)
  Definition sharing_tool (Y : system) (shared : fs -> config -> module -> res H) (code : fs -> cls -> sharing) : tool :=
    Tool (y_env Y) (t_class := cls)
      (fun F cfg => let! '(ks, _) := fst (collect_rules (y_world Y F) cfg (y_py Y)) in Ok ks)
      (y_parse Y)
      (fun F cfg md ks =>
         let! h := shared F cfg md in
         let! M := y_wrap Y md in
         let! '(xs, _, m, _) := run_members (y_unicode Y) M md (y_took Y) (calls (d_tree M)) (map (fun k => new_member (code F k)) ks) h [] 0 in
         Ok (map m_rule xs, m))
      (y_udiff Y) (y_bytes Y) (y_style Y) (y_walk Y).
End Sharing.
Arguments c_method {H}. Arguments c_name {H}. Arguments c_MESSAGE {H}. Arguments c_own {H}. Arguments c_first {H}.
Arguments m_code {H}. Arguments m_own {H}. Arguments m_rule {H}. Arguments Sharing {H}. Arguments Member {H}. Arguments new_member {H}.

(** ** The rules of fixit.upgrade *)

(** The fully qualified names of each node, in the order in which [pop] takes them; None: not a set *)
Definition sets : Type := N -> option (list str).
Definition popped (s : option (list str)) : option (list str) := match s with Some (_ :: qs) => Some qs | _ => s end.
Definition pop_at (i : N) (h : sets) : sets := fun j => if N.eqb j i then popped (h j) else h j.

(** What these rules ask about a node. [AnImportOf]: with the ImportAlias nodes; [AClassOf]: its name, the Name node of it, the nodes of the values of its bases *)
Inductive item :=
  | AName (s : str)
  | AnImportOf (i : import_from) (aliases : list N)
  | AClassOf (name : str) (name_node : N) (bases : list N)
  | ACallOf (names : list str) (args : list Py.arg)
  | AnotherItem (n : N).
Inductive new_item := ANewName (s : str) | ANewAlias (a : alias) | NewArguments (args : list Py.arg).

(** deprecated_import.py 20, 110, 129 *)
Definition deprecation_text (old new : str) : str := u "Fixit deprecated import " ++ old ++ u ", use " ++ new ++ u " instead".

(** remove_rule_suffix.py 54-63: the loop over the bases *)
Fixpoint suffix_loop (name : str) (bases : list N) (h : sets) : list str * res sets :=
  match bases with
  | [] => ([], Ok h)
  | b :: bases' =>
      match h b with
      | None => suffix_loop name bases' h
      | Some [] => ([], Err KeyError)
      | Some (q :: _) =>
          let here := if str_eqb q (u "fixit.LintRule") && endswith (u "Rule") name then [firstn (List.length name - 4) name] else [] in
          let (new, o) := suffix_loop name bases' (pop_at b h) in (here ++ new, o)
      end
  end.

Section Upgrades.
  Context (read : module -> N -> item) (write : module -> N -> new_item -> repl) (code_range : expr -> expr -> expr).

  (** deprecated_import.py 90-115 *)
  Definition import_says (md : module) (i : import_from) (aliases : list N) : list say :=
    match f_module i, f_names i with
    | Some [m], Some l =>
        flat_map (fun aj => match dget (m ++ u "." ++ al_name (fst aj)) deprecations, deprecated_alias m (fst aj) with
                            | Some (old, new), Some a' => [Say (snd aj) (Some (deprecation_text old new)) PosDefault (Some (write md (snd aj) (ANewAlias a')))]
                            | _, _ => []
                            end) (combine l aliases)
    | _, _ => []
    end.
  (** 117-131 *)
  Definition name_says (md : module) (i : N) (s : str) (names : option (list str)) : list say :=
    match names with
    | Some (q :: _) =>
        match dget q deprecations with
        | Some (old, new) => if str_eqb s old then [Say i (Some (deprecation_text old new)) PosDefault (Some (write md i (ANewName new)))] else []
        | None => []
        end
    | _ => []
    end.

  (** The three classes: what they say about a node, what they leave in the sets *)
  Inductive upgrade_rule := ImportRule | SuffixRule | KeywordsRule.
  Definition upgrade_says (w : upgrade_rule) (md : module) (i : N) (h : sets) : list say :=
    match w, read md i with
    | ImportRule, AnImportOf imp aliases => import_says md imp aliases
    | ImportRule, AName s => name_says md i s (h i)
    | SuffixRule, AClassOf name j bases => map (fun new => Say j None PosDefault (Some (write md j (ANewName new)))) (fst (suffix_loop name bases h))
    | KeywordsRule, ACallOf names args =>
        flat_map (fun n => if existsb (str_eqb n) [u "fixit.InvalidTestCase"; u "fixit.ValidTestCase"]
                           then match convert_linecol code_range args with Some new => [Say i None PosDefault (Some (write md i (NewArguments new)))] | None => [] end
                           else []) names
    | _, _ => []
    end.
  Definition upgrade_leaves (w : upgrade_rule) (md : module) (i : N) (h : sets) : res sets :=
    match w, read md i with
    | ImportRule, AName _ => Ok (pop_at i h)
    | SuffixRule, AClassOf name _ bases => snd (suffix_loop name bases h)
    | _, _ => Ok h
    end.
  (** The methods they have. Simplification: KeywordsRule's visit_Module, which only remembers the module, is left out. *)
  Definition upgrade_types (w : upgrade_rule) : list str :=
    match w with ImportRule => map u ["ImportFrom"; "Name"]%string | SuffixRule => [u "ClassDef"] | KeywordsRule => [u "Call"] end.
  Definition upgrade_name (w : upgrade_rule) : str :=
    match w with ImportRule => u "FixitDeprecatedImport" | SuffixRule => u "FixitRemoveRuleSuffix" | KeywordsRule => u "FixitDeprecatedTestCaseKeywords" end.

  Definition upgrade_code (msg : str -> option str) (w : upgrade_rule) : sharing sets :=
    Sharing (upgrade_name w) (msg (upgrade_name w)) unit tt
      (fun md method => if is_visit (upgrade_types w) method
                        then Some (fun c own h => (upgrade_says w md (cst_id c) h, let! h' := upgrade_leaves w md (cst_id c) h in Ok (own, h')))
                        else None).
End Upgrades.
