(** * Vocabulary for C91: what the rules about statements are to report *)
From Coq Require Import String List NArith Bool Arith Permutation.
From Verif Require Import Base PyStr Py Rules ReportsSpec Classes ClassesSpec SortedProps DataclassProps Scopes ScopesProps Imports ImportsProps Upgrade UpgradeProps
  Trees TreesSpec Suppress Cst Engine Batch System Visitors VisitorsSpec Statements.
Import ListNotations.

(** The nodes that LibCST goes through, each after those in it ([all_nodes]: each before those in it) *)
Fixpoint ending (c : cst) : list cst := match c with Cst _ _ attrs => flat_map (fun a => match a with (_, cs) => flat_map ending cs end) attrs ++ [c] end.

(** LibCST's name for the type of such a node *)
Definition has_type (t : thing) (ty : str) : Prop :=
  match t with
  | AClass _ _ _ _ => ty = u "ClassDef"
  | AFunction _ _ => ty = u "FunctionDef"
  | ATry _ => ty = u "Try"
  | AnIf _ => ty = u "If"
  | AnAnnotation _ _ _ => ty = u "Annotation"
  | AComment _ => ty = u "Comment"
  | ACall _ _ => ty = u "Call"
  | AnImport _ _ => ty = u "ImportFrom"
  | AnAlias _ => ty = u "ImportAlias"
  | AModule _ => ty = u "Module"
  | AnotherThing _ => True
  end.
Definition has_kind (k : kind) (ty : str) : Prop :=
  match k with
  | FunctionNode _ _ => ty = u "FunctionDef"
  | ClassNode _ => ty = u "ClassDef"
  | CallNode _ _ => ty = u "Call"
  | AnnotationNode => ty = u "Annotation"
  | NameNode _ _ _ => ty = u "Name"
  | ImportFromNode _ _ => ty = u "ImportFrom"
  | SubscriptNode _ => ty = u "Subscript"
  | StringNode _ => ty = u "SimpleString"
  | OtherNode _ => True
  end.
(** The lines in a class are different nodes. *)
Definition own_lines (t : thing) : Prop := forall c nt dc ds lines, t = AClass c nt dc ds -> d_body c = Block lines -> NoDup (map ln_id lines).
Definition shows_things (read : module -> N -> thing) (md : module) (M : metadata) : Prop :=
  forall c, In c (all_nodes (d_tree M)) -> has_type (read md (cst_id c)) (cst_type c) /\ own_lines (read md (cst_id c)).
Definition shows_kinds (kind_of : module -> N -> kind) (md : module) (M : metadata) : Prop := forall c, In c (all_nodes (d_tree M)) -> has_kind (kind_of md (cst_id c)) (cst_type c).

(** A class statement with other bases, decorators or body, otherwise the same *)
Definition same_but_bases (c new : class_def) : Prop := d_name new = d_name c /\ d_keywords new = d_keywords c /\ d_decorators new = d_decorators c /\ d_body new = d_body c.

(** *** What is to be reported about a node *)
Inductive object_reports (c : class_def) : list said -> Prop :=
| object_base : forall new, (exists a, In a (d_bases c) /\ a_value a = Name (u "object")) -> keeps (fun a => a_value a <> Name (u "object")) (d_bases c) (d_bases new) ->
    same_but_bases c new -> object_reports c [(None, Some (NewClass new))]
| no_object_base : (forall a, In a (d_bases c) -> a_value a <> Name (u "object")) -> object_reports c [].

Inductive named_tuple_reports (nt : expr -> bool) (c : class_def) : list said -> Prop :=
| tuple_base : forall new, (exists a, In a (d_bases c) /\ nt (a_value a) = true) -> keeps (fun a => nt (a_value a) = false) (d_bases c) (d_bases new) ->
    d_decorators new = d_decorators c ++ [frozen_dataclass] -> d_name new = d_name c -> d_keywords new = d_keywords c -> d_body new = d_body c ->
    named_tuple_reports nt c [(None, Some (NewClass new))]
| no_tuple_base : (forall a, In a (d_bases c) -> nt (a_value a) = false) -> named_tuple_reports nt c [].

(** A dataclass decorator without "frozen", and with it *)
Definition not_frozen (dc : expr -> bool) (d : expr) : Prop := dc d = true /\ ~ exists f args a, d = Call f args /\ In a args /\ names_frozen a.
Definition made_frozen (d new : expr) : Prop :=
  let frozen := (NoStar, Some (u "frozen"), Name (u "True")) in
  (exists f args, d = Call f args /\ new = Call f (args ++ [frozen])) \/ ((forall f args, d <> Call f args) /\ new = Call d [frozen]).
Definition frozen_reports (dc : expr -> bool) (ds : list (expr * N)) (l : list said) : Prop :=
  exists sel, keeps (fun d => not_frozen dc (fst d)) ds sel /\
    Forall2 (fun d x => exists new, made_frozen (fst d) new /\ x = (Some (snd d), Some (NewDecorator new))) sel l.

(** SortedAttributes: a class that asks for it; its assignments sorted by name, after what comes before them, before the rest *)
Inductive sorted_reports (text : expr -> option str) (c : class_def) : list said -> Prop :=
| not_marked : ~ marked text c -> sorted_reports text c []
| marked_line : forall body, d_body c = OneLine body -> sorted_reports text c []
| marked_sorted : forall lines attrs, d_body c = Block lines -> keeps assignment lines attrs ->
    (List.length attrs <= 1 \/ exists names, Forall2 attribute attrs names /\ in_order names) -> sorted_reports text c []
| marked_unsorted : forall new lines pre attrs names post, marked text c -> d_body c = Block lines -> (forall l, In l pre -> ~ assignment l) ->
    (exists first rest, lines = pre ++ first :: rest /\ assignment first) ->
    keeps (fun l => ~ assignment l) lines (pre ++ post) -> Permutation lines (pre ++ attrs ++ post) -> Forall2 attribute attrs names -> in_order names ->
    (forall s, exists same, keeps (fun l => attribute l s) lines same /\ keeps (fun l => attribute l s) attrs same) -> ~ keeps assignment lines attrs ->
    new = ClassDef (d_name c) (d_bases c) (d_keywords c) (d_decorators c) (Block (pre ++ attrs ++ post)) -> sorted_reports text c [(None, Some (NewClass new))].

(** UseClsInClassmethod *)
Inductive cls_reports (outer : list (list str)) (f : function) : list said -> Prop :=
| cls_fine : fn_classmethod f = false \/ (exists ps, fn_params f = u "cls" :: ps) -> cls_reports outer f []
| cls_missing : fn_classmethod f = true -> fn_params f = [] ->
    cls_reports outer f [(None, Some (NewFunction (Function true (fn_posonly f) [u "cls"] (fn_rest f) (fn_body f))))]
| cls_taken : forall x ps s, fn_classmethod f = true -> fn_params f = x :: ps -> x <> u "cls" -> In s (fn_locals f :: outer) -> In (u "cls") s -> cls_reports outer f [(None, None)]
| cls_other : forall x ps, fn_classmethod f = true -> fn_params f = x :: ps -> x <> u "cls" -> (forall s, In s (fn_locals f :: outer) -> ~ In (u "cls") s) ->
    cls_reports outer f [(None, Some (NewFunction (Function true (fn_posonly f) (u "cls" :: ps) (fn_rest f) (rename x (u "cls") (fn_body f)))))].

Inductive except_reports (hs : list (option expr)) : list said -> Prop :=
| or_handler : forall l r, hs = [Some (BoolOp l Or r)] -> except_reports hs [(None, None)]
| no_or_handler : (forall l r, hs <> [Some (BoolOp l Or r)]) -> except_reports hs [].

Inductive if_reports (test : expr) : list said -> Prop :=
| if_settled : forall b, settled test b -> if_reports test [(None, None)]
| if_open : (forall b, ~ settled test b) -> if_reports test [].

(** [Union[e, None]] or [Union[None, e]] *)
Definition union_of (e : expr) (v : expr) (es : list element) : Prop :=
  v = Name (u "Union") /\ (es = [Index e; Index (Name (u "None"))] \/ es = [Index (Name (u "None")); Index e]).
Inductive union_reports (in_scope : bool) (v : expr) (es : list element) : list said -> Prop :=
| union_fixed : forall e, union_of e v es -> in_scope = true -> e <> Name (u "None") -> union_reports in_scope v es [(None, Some (NewAnnotation (Name (u "Optional")) [Index e]))]
| union_open : forall e, union_of e v es -> in_scope = false \/ e = Name (u "None") -> union_reports in_scope v es [(None, None)]
| union_not : (forall e, ~ union_of e v es) -> union_reports in_scope v es [].

Inductive noqa_reports (s : str) : list said -> Prop :=
| noqa : forall a b, s = a ++ b -> in_any_case (u "# noqa") a -> noqa_reports s [(None, None)]
| no_noqa : (forall a b, s = a ++ b -> ~ in_any_case (u "# noqa") a) -> noqa_reports s [].

(** For each of the names of the test case classes that the call has *)
Definition test_case (n : str) : Prop := n = u "fixit.InvalidTestCase" \/ n = u "fixit.ValidTestCase".
Definition keyword_reports (code_range : expr -> expr -> expr) (names : list str) (args : list arg) (l : list said) : Prop :=
  (l = [] /\ ((forall n, In n names -> ~ test_case n) \/ forall a, In a args -> ~ old_keyword a)) \/
  (exists a, In a args /\ old_keyword a) /\
  exists kept line column calls, keeps (fun a => ~ old_keyword a) args kept /\ keyword_value (u "line") args line /\ keyword_value (u "column") args column /\
    keeps test_case names calls /\
    l = map (fun _ => (None, Some (NewArgs (kept ++ match line with
                                                    | Some e => [(NoStar, Some (u "range"), code_range e (match column with Some c => c | None => Number (u "0") end))]
                                                    | None => []
                                                    end)))) calls.

(** The class [name] is to report [l] about the node [t]. *)
Definition reports_of (text : expr -> option str) (code_range : expr -> expr -> expr) (name : str) (t : thing) (l : list said) : Prop :=
  (forall c nt dc ds, t = AClass c nt dc ds ->
     (name = u "NoInheritFromObject" -> object_reports c l) /\ (name = u "NoNamedTuple" -> named_tuple_reports nt c l) /\
     (name = u "ExplicitFrozenDataclass" -> frozen_reports dc (combine (d_decorators c) ds) l) /\ (name = u "SortedAttributes" -> sorted_reports text c l)) /\
  (forall outer f, t = AFunction outer f -> name = u "UseClsInClassmethod" -> cls_reports outer f l) /\
  (forall hs, t = ATry hs -> name = u "AvoidOrInExcept" -> except_reports hs l) /\
  (forall test, t = AnIf test -> name = u "NoStaticIfCondition" -> if_reports test l) /\
  (forall sc v es, t = AnAnnotation sc v es -> name = u "ReplaceUnionWithOptional" -> union_reports sc v es l) /\
  (forall s, t = AComment s -> name = u "UseLintFixmeComment" -> noqa_reports s l) /\
  (forall names args, t = ACall names args -> name = u "FixitDeprecatedTestCaseKeywords" -> keyword_reports code_range names args l) /\
  (** nothing about any other node *)
  (l <> [] -> match t with
              | AClass _ _ _ _ => In name (map u ["NoInheritFromObject"; "NoNamedTuple"; "ExplicitFrozenDataclass"; "SortedAttributes"]%string)
              | AFunction _ _ => name = u "UseClsInClassmethod"
              | ATry _ => name = u "AvoidOrInExcept"
              | AnIf _ => name = u "NoStaticIfCondition"
              | AnAnnotation _ _ _ => name = u "ReplaceUnionWithOptional"
              | AComment _ => name = u "UseLintFixmeComment"
              | ACall _ _ => name = u "FixitDeprecatedTestCaseKeywords"
              | _ => False
              end).

(** The order: NoNamedTuple and ReplaceUnionWithOptional report a node after the nodes in it, the others before. *)
Definition in_turn (name : str) (c : cst) : list cst :=
  if str_eqb name (u "NoNamedTuple") || str_eqb name (u "ReplaceUnionWithOptional") then ending c else all_nodes c.

(** A report about the node [i], or about another that it names *)
Definition spoken (write : module -> N -> new_thing -> repl) (md : module) (i : N) (x : said) : say :=
  match x with
  | (None, new) => Say i None PosDefault (option_map (write md i) new)
  | (Some j, new) => Say j None PosDefault (option_map (write md j) new)
  end.
(** The reports about these nodes, in order *)
Definition told (write : module -> N -> new_thing -> repl) (md : module) (nodes : list cst) (reports : list (list said)) : list say :=
  flat_map (fun cl => map (spoken write md (cst_id (fst cl))) (snd cl)) (combine nodes reports).

(** *** DeprecatedABCImport: what is to be reported about a node *)
Inductive abc_reports : thing -> list said -> Prop :=
| abc_pure : forall i, pure_import i -> abc_reports (AnImport false i) [(None, Some (NewImport (From (f_dots i) (Some [u "collections"; u "abc"]) (f_names i))))]
| abc_not_pure : forall b i, b = true \/ ~ pure_import i -> abc_reports (AnImport b i) []
| abc_dotted : forall a a' x, abc x -> ia_module a = [u "collections"; x] -> ia_module a' = [u "collections"; u "abc"; x] -> ia_as a' = ia_as a ->
    abc_reports (AnAlias a) [(None, Some (NewAlias a'))]
| abc_not_dotted : forall a, (forall x, abc x -> ia_module a <> [u "collections"; x]) -> abc_reports (AnAlias a) []
| abc_class_bases : forall c nt dc ds bs old, Forall2 base_moved (d_bases c) bs ->
    keeps (fun a => exists x, a_value a = Attribute (Name (u "collections")) x /\ abc x) (d_bases c) old ->
    abc_reports (AClass c nt dc ds) (map (fun _ => (None, Some (NewClass (ClassDef (d_name c) bs (d_keywords c) (d_decorators c) (d_body c))))) old)
| abc_other : forall t, match t with AnImport _ _ | AnAlias _ | AClass _ _ _ _ => False | _ => True end -> abc_reports t [].

(** What is to be reported about the module, at the end: nothing unless there is an import of classes and other names, outside except blocks. Then the
    statements with the names of the last such import are split. *)
Inductive module_reports (things : list thing) (body : list statement) : list said -> Prop :=
| module_fine : (forall i names, In (AnImport false i) things -> ~ mixed_import i names) -> module_reports things body []
| module_mixed : forall l1 i l2 names parts, things = l1 ++ AnImport false i :: l2 -> mixed_import i names ->
    (forall j ns, In (AnImport false j) l2 -> ~ mixed_import j ns) ->
    Forall2 (splits names) body parts -> module_reports things body [(None, Some (NewBody (concat parts)))].

(** The root of the tree is a module, and nothing else is. *)
Definition one_module (read : module -> N -> thing) (md : module) (M : metadata) (body : list statement) : Prop :=
  read md (cst_id (d_tree M)) = AModule body /\ forall c, In c (tl (all_nodes (d_tree M))) -> cst_type c <> u "Module".

(** Nodes are different objects. *)
Definition own_ids (M : metadata) : Prop := NoDup (map cst_id (all_nodes (d_tree M))).
