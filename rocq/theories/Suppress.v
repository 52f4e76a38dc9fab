(** * Suppress: comments, directives and report (fixit/rule.py) *)
From Coq Require Import String List NArith ZArith Bool Arith.
From Verif Require Import Base PyStr Regex Ftypes.
Import ListNotations.
Set Implicit Arguments.

(** ** Nodes as [node_comments] sees them

    A libcst TrailingWhitespace or EmptyLine matters only through its optional comment. *)
Inductive body_kind :=
| NoBody                              (* no [body] attribute, or some other kind of body *)
| SimpleSuite (tw : option str)       (* SimpleStatementSuite.trailing_whitespace *)
| Indented (header : option str).     (* IndentedBlock.header *)

Record ninfo := NInfo {
  n_tw : option (option str);         (* trailing_whitespace; None when absent *)
  n_body : body_kind;
  n_comma : option str;               (* comment on the first line after the comma *)
  n_rbracket : option str;            (* comment on the first line before ']' *)
  n_lbracket : list (option str);     (* empty lines after '[' *)
  n_after_decorators : list (option str);
  n_leading : option (list (option str)); (* leading_lines; None when absent *)
  n_decorator : bool }.               (* isinstance(node, Decorator) *)

(** A node with its position in the module: the node and its ancestors, innermost first,
    up to but excluding the Module; the Module's header; whether the outermost of these
    nodes is the Module's first statement. An empty list is the Module itself. *)
Record place := Place {
  p_nodes : list ninfo;
  p_header : list (option str);
  p_first : bool }.

Definition comments_of (l : list (option str)) : list str :=
  flat_map (fun c => match c with Some x => [x] | None => [] end) l.

(** rule.py 126-166: what one iteration of the loop yields, before [leading_lines] *)
Definition own_comments (n : ninfo) : list str :=
  comments_of
    [match n_tw n with
     | Some c => c
     | None => match n_body n with
               | SimpleSuite c => c
               | Indented c => c
               | NoBody => None
               end
     end]
  ++ comments_of [n_comma n] ++ comments_of [n_rbracket n]
  ++ comments_of (n_lbracket n) ++ comments_of (n_after_decorators n).

(** rule.py 119-192 [LintRule.node_comments] *)
Fixpoint node_comments_from (nodes : list ninfo) (header : list (option str)) (first : bool) : list str :=
  match nodes with
  | [] => comments_of header
  | n :: rest =>
      own_comments n ++
      match n_leading n with
      | Some ll =>
          comments_of ll ++
          (if n_decorator n then node_comments_from rest header first
           else match rest with
                | [] => if first then comments_of header else []
                | _ => []
                end)
      | None => node_comments_from rest header first
      end
  end.

Definition node_comments (p : place) : list str :=
  node_comments_from (p_nodes p) (p_header p) (p_first p).

(** rule.py 202-215, the body of the loop of [ignore_lint]: does this comment silence the rule? *)
Definition comment_ignores (U : unicode) (name comment : str) : bool :=
  match re_search (LintIgnoreRegex U) comment with
  | None => false
  | Some x =>
      match group 2 (st_caps x) with
      | None => true
      | Some names =>
          existsb (fun n => str_eqb n name || str_eqb n (lower U name))
                  (map (fun n => trim_rule (strip n)) (split 44 names))
      end
  end.

(** rule.py 194-217 [LintRule.ignore_lint] *)
Definition ignore_lint (U : unicode) (name : str) (p : place) : bool :=
  existsb (comment_ignores U name) (node_comments p).

(** ** Reporting *)

Record pos := Pos { line : Z; column : Z }.
Record range := Range { rstart : pos; rend : pos }.

(** The [position] argument of report. *)
Inductive position := PosDefault | PosPoint (p : pos) | PosRange (r : range).

Section Report.
  (** nodes and replacements *)
  Context {node repl : Type}.

  (** ftypes.py 255-274 [LintViolation]; the diff is added by the engine. *)
  Record violation := Violation {
    v_rule : str; v_range : range; v_message : str; v_node : node;
    v_replacement : option repl; v_diff : str }.

  (** rule.py 98-102: the state of a rule instance: its name and violations *)
  Record rule_inst := RuleInst {
    r_name : str;
    r_MESSAGE : option str;
    r_violations : list violation }.

  (** rule.py 98-102 [LintRule.__init__] *)
  Definition new_rule (class_name : str) (msg : option str) : rule_inst :=
    RuleInst (trim_rule class_name) msg [].

  Definition truthy_msg (m : option str) : option str :=
    match m with Some [] => None | _ => m end.

  (** rule.py 219-265 [LintRule.report]; [where] is the node's place in the tree, [span] its
      range according to PositionProvider. *)
  Definition report (U : unicode) (r : rule_inst) (nd : node) (where_ : place) (span : range)
      (message : option str) (position : position) (replacement : option repl) : res rule_inst :=
    if ignore_lint U (r_name r) where_ then Ok r
    else
      match (match truthy_msg message with Some m => Some m | None => truthy_msg (r_MESSAGE r) end) with
      | None => Err ValueError
      | Some msg =>
          let rg := match position with
                    | PosDefault => span
                    | PosPoint p => Range p (Pos (line p + 1)%Z 0%Z)
                    | PosRange r => r
                    end in
          Ok (RuleInst (r_name r) (r_MESSAGE r)
                (r_violations r ++ [Violation (r_name r) rg msg nd replacement []]))
      end.
End Report.
Arguments violation : clear implicits.
Arguments rule_inst : clear implicits.
