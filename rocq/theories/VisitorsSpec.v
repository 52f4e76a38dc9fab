(** * Vocabulary for C88: the nodes of a file that the rule classes see *)
From Coq Require Import String List NArith Bool.
From Verif Require Import Base PyStr Py Rules Whole Ftypes Paths Config Collect CollectSpec Suppress Cst Engine Batch Api ApiSpec System SystemSpec Session SessionSpec
  Cli CliSpec Commands CommandsSpec DiskSpec ProgramSpec Visitors.
Import ListNotations.

(** The nodes that LibCST goes through, each before those in it *)
Fixpoint all_nodes (c : cst) : list cst := match c with Cst _ _ attrs => c :: flat_map (fun a => match a with (_, cs) => flat_map all_nodes cs end) attrs end.
Definition cst_type (c : cst) : str := match c with Cst _ ty _ => ty end.

(** The expressions among them are those of the file, with their types. *)
Definition walks (node : N -> bool) (other : expr -> str) (read : tree -> expr) (md : module) (M : metadata) : Prop :=
  filter (fun v => node (fst v)) (map (fun c => (cst_id c, cst_type c)) (all_nodes (d_tree M))) =
  map (fun t => (node_id t, type_of other (read t))) (exprs node (m_tree md)).

(** What a rule that looks at every expression alone says about these nodes *)
Definition says_each (read : tree -> expr) (write : tree -> expr -> tree) (text : expr -> option str) (r : expr -> res Rules.report) (ts : list tree) : list say :=
  flat_map (fun t => match r (read t) with
                     | Ok (Some o) => [Say (node_id t) (text (read t)) PosDefault (option_map (fun e => RNode (write t e)) o)]
                     | _ => []
                     end) ts.

(** The node [t] is the left operand of an "or" in the tree. *)
Definition left_of_or (node : N -> bool) (read : tree -> expr) (root t : tree) : bool :=
  existsb (fun t' => match read t', below node t' with BoolOp _ Or _, tl :: _ => N.eqb (node_id tl) (node_id t) | _, _ => false end) (exprs node root).

(** What the class [name], with the rule [r] on expressions, is to say about a file: what [r] reports for each of its expressions. But
    CollapseIsinstanceChecks looks at "a or b or c" once, not at "a or b" in it again. *)
Definition about (node : N -> bool) (read : tree -> expr) (write : tree -> expr -> tree) (text : expr -> option str) (name : str) (r : expr -> res Rules.report) (root : tree) : list say :=
  says_each read write text r (filter (fun t => negb (str_eqb name (u "CollapseIsinstanceChecks") && left_of_or node read root t)) (exprs node root)).

(** Nodes are read as what they are. *)
Definition reads_nodes (node : N -> bool) (form : expr -> tree -> Prop) (read : tree -> expr) : Prop := forall t e, laid node form t e -> read t = e.

(** A file that holds a program, with its syntax tree as LibCST goes through it *)
Definition seen (node : N -> bool) (other : expr -> str) (read : tree -> expr) (md : module) (M : metadata) : Prop :=
  NoDup (ids (m_tree md)) /\ walks node other read md M /\ exists i attrs, d_tree M = Cst i (u "Module") attrs.

(** The node that is built for the fix of an expression in [e] is the fix. *)
Definition writes_fixes (node : N -> bool) (form : expr -> tree -> Prop) (write : tree -> expr -> tree) (r : expr -> res Rules.report) (e : expr) : Prop :=
  forall t x e', In x (subnodes e) -> laid node form t x -> r x = Ok (Some (Some e')) -> laid node form (write t e') e'.

(** The rules selected for the file are these classes. *)
Definition selects (Y : system) (F : fs) (p : path) (opts : option options) (codes : list rule_code) : Prop :=
  forall cfg, generate_config (y_env Y) F p None opts = Ok cfg ->
    exists ks, NoDup ks /\ (forall k, In k ks <-> selected Y F cfg k) /\ map (y_code Y F) ks = codes.

(** One "fixit fix --automatic" of files, as [one_fix] (ProgramSpec.v), with these classes selected for [p] *)
Definition one_command (Y : system) (opts : options) (p : path) (codes : list rule_code) (F : fs) (F' : fs) : Prop :=
  exists K d m diff paths z vs code ps l zp es,
    first_is_dash paths = false /\ crun (whole_fix K Y d opts m false diff paths z) vs (Returned code) /\ leads F (effects vs) F' /\
    make_plan (y_walk Y F) d false (match paths with [] => [PathArg (k_cwd K)] | _ => paths end) = Ok (Some (Serial ps)) /\ NoDup ps /\
    visits Y true (Some opts) m z ps l /\ effects vs = ELook F :: ELook F :: api_effects (concat (map snd l)) /\
    In (p, (zp, es)) (combine ps l) /\ no_errors es /\
    forall G, (forall q, f_file G q <> f_file F q -> In q ps /\ q <> p) -> (forall q, f_isdir G q = f_isdir F q) -> selects (system_at Y zp) G p (Some opts) codes.

Inductive commands (Y : system) (opts : options) (p : path) (codes : list rule_code) : nat -> fs -> fs -> Prop :=
| cs_none : forall F, commands Y opts p codes 0 F F
| cs_one : forall n F F1 F2, one_command Y opts p codes F F1 -> commands Y opts p codes n F1 F2 -> commands Y opts p codes (S n) F F2.
