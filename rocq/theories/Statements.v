(** * Statements: the rule classes about statements, and those that keep state, as the engine drives them

    Classes.v, Scopes.v, Imports.v, Rules.v and Trees.v model what these rules do with one node, or with a tree of their own. This file models
    the classes around that: the methods they have and what these do with a node that LibCST gives them. *)
From Coq Require Import String List NArith Bool Arith.
From Verif Require Import Base PyStr Py Rules Classes Scopes Imports Upgrade Trees Suppress Cst Engine Batch System Visitors.
Import ListNotations.

(** What the rules below ask about a node. Metadata that LibCST computes is part of it: any values.
    [AClass]: the statement, whether the qualified names of an expression in it include typing.NamedTuple, or dataclasses.dataclass, by import; its
    Decorator nodes. [AnAnnotation]: one with a subscript, [value[elements]]; whether "Optional" is in scope. *)
Inductive thing :=
  | AClass (c : class_def) (named_tuple dataclass_ : expr -> bool) (decorators : list N)
  | AFunction (outer : list (list str)) (f : function)
  | ATry (handlers : list (option expr))
  | AnIf (test : expr)
  | AnAnnotation (optional_in_scope : bool) (value : expr) (elements : list element)
  | AComment (text : str)
  | ACall (names : list str) (args : list arg)
  | AnImport (in_except : bool) (i : import_from)
  | AnAlias (a : import_alias)
  | AModule (body : list statement)
  | AnotherThing (n : N).

(** What a rule puts in the place of a node. *)
Inductive new_thing :=
  | NewClass (c : class_def)
  | NewDecorator (e : expr)
  | NewFunction (f : function)
  | NewAnnotation (value : expr) (elements : list element)
  | NewArgs (args : list arg)
  | NewImport (i : import_from)
  | NewAlias (a : import_alias)
  | NewBody (body : list statement).

(** A report: None for the node visited, or another node; the replacement *)
Definition said : Type := (option N * option new_thing)%type.

(** ** Methods *)
Definition is_leave (types : list str) (method : str) : bool := existsb (fun ty => str_eqb method (u "leave_" ++ ty)) types.

(** A class with visit methods for the types [enter] and leave methods for the types [leave]; [f]: what these do, first argument true for visit. *)
Definition acts (name : str) (msg : option str) (Own : Type) (first : Own) (enter leave : list str)
  (f : bool -> module -> cst -> Own -> list say * res Own) : rule_code :=
  RuleCode name msg Own first
    (fun md method => if is_visit enter method then Some (f true md) else if is_leave leave method then Some (f false md) else None).

Section Statements.
  Context (read : module -> N -> thing) (write : module -> N -> new_thing -> repl).

  Definition say_it (md : module) (i : N) (x : said) : say :=
    let j := match fst x with Some j => j | None => i end in
    Say j None PosDefault (option_map (write md j) (snd x)).

  (** A class that remembers nothing, with one method: visit or leave *)
  Definition statement_class (name : str) (msg : option str) (enter : bool) (ty : str) (r : thing -> res (list said)) : rule_code :=
    acts name msg unit tt (if enter then [ty] else []) (if enter then [] else [ty])
      (fun _ md c own => match r (read md (cst_id c)) with
                         | Ok l => (map (say_it md (cst_id c)) l, Ok own)
                         | Err e => ([], Err e)
                         end).

  Definition here (x : option new_thing) : list said := match x with Some n => [(None, Some n)] | None => [] end.

  (** no_inherit_from_object.py 48-62 *)
  Definition object_rule (t : thing) : res (list said) :=
    match t with AClass c _ _ _ => Ok (here (option_map NewClass (no_object c))) | _ => Ok [] end.
  (** no_namedtuple.py 171-198: leave_ClassDef *)
  Definition named_tuple_rule (t : thing) : res (list said) :=
    match t with AClass c nt _ _ => Ok (here (option_map NewClass (no_named_tuple nt c))) | _ => Ok [] end.
  (** extra/explicit_frozen_dataclass.py 228-263: reports are about the decorators *)
  Definition frozen_rule (t : thing) : res (list said) :=
    match t with
    | AClass c _ dc ds => Ok (flat_map (fun dj => match frozen_decorator dc (fst dj) with Some d' => [(Some (snd dj), Some (NewDecorator d'))] | None => [] end)
                                       (combine (d_decorators c) ds))
    | _ => Ok []
    end.
  (** sorted_attributes_rule.py 80-119 *)
  Definition sorted_rule (text : expr -> option str) (t : thing) : res (list said) :=
    match t with AClass c _ _ _ => let! x := sorted_attributes text c in Ok (here (option_map NewClass x)) | _ => Ok [] end.
  (** cls_in_classmethod.py 223-290 *)
  Definition cls_rule (t : thing) : res (list said) :=
    match t with AFunction outer f => Ok (match use_cls outer f with Some o => [(None, option_map NewFunction o)] | None => [] end) | _ => Ok [] end.
  (** avoid_or_in_except.py 97-102 *)
  Definition except_rule (t : thing) : res (list said) :=
    match t with ATry hs => Ok (if or_in_except hs then [(None, None)] else []) | _ => Ok [] end.
  (** no_static_if_condition.py 150-152 *)
  Definition static_if_rule (t : thing) : res (list said) :=
    match t with AnIf test => Ok (match no_static_if test with Some _ => [(None, None)] | None => [] end) | _ => Ok [] end.
  (** replace_union_with_optional.py 88-128: leave_Annotation *)
  Definition union_rule (t : thing) : res (list said) :=
    match t with
    | AnAnnotation sc v es => Ok (match union_to_optional sc v es with
                                  | Some o => [(None, option_map (fun p => NewAnnotation (fst p) (snd p)) o)]
                                  | None => []
                                  end)
    | _ => Ok []
    end.
  (** extra/use_lint_fixme_comment.py 58-61 *)
  Definition noqa_rule (t : thing) : res (list said) :=
    match t with AComment s => Ok (if noqa_comment s then [(None, None)] else []) | _ => Ok [] end.
  (** upgrade/deprecated_testcase_keywords.py 69-108: once for every name of the call that matches. Simplification: [self.module], which
      visit_Module sets, is there: LibCST visits the module first. *)
  Definition keywords_rule (code_range : expr -> expr -> expr) (t : thing) : res (list said) :=
    match t with
    | ACall names args =>
        Ok (flat_map (fun n => if existsb (str_eqb n) [u "fixit.InvalidTestCase"; u "fixit.ValidTestCase"]
                               then here (option_map NewArgs (convert_linecol code_range args)) else []) names)
    | _ => Ok []
    end.

  Definition statement_codes (msg : str -> option str) (text : expr -> option str) (code_range : expr -> expr -> expr) : list rule_code :=
    let one name enter ty r := statement_class (u name) (msg (u name)) enter (u ty) r in
    [ one "NoInheritFromObject" true "ClassDef" object_rule;
      one "NoNamedTuple" false "ClassDef" named_tuple_rule;
      one "ExplicitFrozenDataclass" true "ClassDef" frozen_rule;
      one "SortedAttributes" true "ClassDef" (sorted_rule text);
      one "UseClsInClassmethod" true "FunctionDef" cls_rule;
      one "AvoidOrInExcept" true "Try" except_rule;
      one "NoStaticIfCondition" true "If" static_if_rule;
      one "ReplaceUnionWithOptional" false "Annotation" union_rule;
      one "UseLintFixmeComment" true "Comment" noqa_rule;
      one "FixitDeprecatedTestCaseKeywords" true "Call" (keywords_rule code_range) ]%string.

  (** deprecated_abc_import.py 182-366: the state is [imports_names], None as long as [update_module] is false *)
  Definition abc_class (name : str) (msg : option str) : rule_code :=
    acts name msg (option (list str)) None (map u ["ImportFrom"; "ImportAlias"; "ClassDef"]%string) [u "Module"]
      (fun enter md c s =>
         let i := cst_id c in
         if enter then
           match read md i with
           | AnImport b imp => let (s', r) := visit_import s (b, imp) in (map (say_it md i) (here (option_map NewImport r)), Ok s')
           | AnAlias a => (map (say_it md i) (here (option_map NewAlias (abc_alias a))), Ok s)
           | AClass k _ _ _ => (map (fun new => say_it md i (None, Some (NewClass new))) (abc_bases k), Ok s)
           | _ => ([], Ok s)
           end
         else
           match read md i with
           | AModule body => (map (say_it md i) (here (option_map (fun names => NewBody (split_imports names body)) s)), Ok s)
           | _ => ([], Ok s)
           end).

  (** ** Rules that keep state: the visitors of Trees.v *)
  Context (kind_of : module -> N -> kind) (write_expr : module -> N -> expr -> repl).

  (** The tree as Trees.v has it: what is in the attributes of a node, in their order *)
  Fixpoint as_node (md : module) (c : cst) : node :=
    match c with Cst i _ attrs => Trees.Node i (kind_of md i) (flat_map (fun a => match a with (_, cs) => map (as_node md) cs end) attrs) end.

  Definition say_note (text : str -> option str) (md : module) (n : note) : say :=
    Say (n_node n) (text (n_text n)) PosDefault (option_map (write_expr md (n_node n)) (n_repl n)).

  Definition tree_class (name : str) (msg : option str) (enter leave : list str) (text : str -> option str) {Own} (v : Trees.visitor Own) (first : Own) : rule_code :=
    acts name msg Own first enter leave
      (fun e md c s => let (s', ns) := (if e then v_visit v else v_leave v) (as_node md c) s in (map (say_note text md) ns, Ok s')).

  (** use_async_sleep_in_async_def.py 115-138, no_redundant_arguments_super.py 118-150, use_types_from_typing.py 118-154,
      no_string_type_annotation.py 246-315. [text]: the message of UseTypesFromTyping for a type; the others use MESSAGE. *)
  Definition sleep_class (msg : str -> option str) : rule_code :=
    let n := u "UseAsyncSleepInAsyncDef" in
    tree_class n (msg n) (map u ["FunctionDef"; "Call"]%string) [u "FunctionDef"] (fun _ => None) async_sleep false.
  Definition super_class (msg : str -> option str) : rule_code :=
    let n := u "NoRedundantArgumentsSuper" in
    tree_class n (msg n) [u "ClassDef"] (map u ["ClassDef"; "Call"]%string) (fun _ => None) redundant_super [].
  Definition typing_class (msg : str -> option str) (text : str -> option str) : rule_code :=
    let n := u "UseTypesFromTyping" in
    tree_class n (msg n) (map u ["Annotation"; "Name"]%string) [u "Annotation"] text typing_types 0.
  Definition strings_class (msg : str -> option str) : rule_code :=
    let n := u "NoStringTypeAnnotation" in
    tree_class n (msg n) (map u ["ImportFrom"; "Annotation"; "Subscript"; "SimpleString"]%string) (map u ["Annotation"; "Subscript"]%string)
      (fun _ => None) string_types (Strings [] [] false).
End Statements.
