(** * Vocabulary for C87: files that hold programs, and fixing them again and again

    Joins the trees of expressions of Py.v, about which the rules are proved (C53-C61, C76), to the syntax trees, rules and commands of
    Cst.v, System.v and Commands.v. *)
From Coq Require Import String List NArith ZArith Bool Arith Permutation.
From Verif Require Import Base PyStr Py Rules RulesSpec Whole WholeSpec WholeFacts Ftypes Paths Config Collect CollectSpec Suppress SuppressSpec Cst Engine
  Batch Api ApiSpec System SystemSpec Session SessionSpec Cli CliSpec Commands CommandsSpec DiskSpec.
Import ListNotations.

Section Laid.
  (** Which nodes of a syntax tree are expressions (or statements: [Other]); the others (arguments, elements, commas, whitespace) only hold them.
      And how a node is written: [form e s] when [s] is the node with its expressions blanked out. *)
  Context (node : N -> bool) (form : expr -> tree -> Prop).

  (** The expressions that a node holds, from the left to the right *)
  Fixpoint held (t : tree) : list tree := match t with Node id _ ps => if node id then [t] else flat_map held_part ps end
  with held_part (p : part) : list tree :=
    match p with
    | Txt _ | Ind | Opt None | Sep None _ => []
    | Req t | Opt (Some t) | Sep (Some t) _ => held t
    | Seq _ l | Body _ l => flat_map held l
    end.
  Definition below (t : tree) : list tree := match t with Node _ _ ps => flat_map held_part ps end.

  Fixpoint blank (t : tree) : tree := match t with Node id line ps => if node id then Node 1 false [] else Node 0 line (map blank_part ps) end
  with blank_part (p : part) : part :=
    match p with
    | Txt s => Txt s
    | Ind => Ind
    | Req t => Req (blank t)
    | Opt None => Opt None
    | Opt (Some t) => Opt (Some (blank t))
    | Sep None d => Sep None d
    | Sep (Some t) d => Sep (Some (blank t)) d
    | Seq pass l => Seq pass (map blank l)
    | Body blk l => Body blk (map blank l)
    end.
  Definition outline (t : tree) : tree := match t with Node _ line ps => Node 0 line (map blank_part ps) end.

  (** The syntax tree [t] is the program [e]. *)
  Inductive laid : tree -> expr -> Prop :=
  | laid_node : forall t e, node (node_id t) = true -> removable t = false -> form e (outline t) -> Forall2 laid (below t) (children e) -> laid t e.

  (** How a node is written does not depend on the expressions in it. *)
  Definition form_law : Prop := forall f e s, form e s -> form (rebuild f e) s.

  (** The node [i] of the tree is the part [x] of the program, and no node around it is a stop. *)
  Inductive reached (stop : expr -> bool) : tree -> expr -> N -> expr -> Prop :=
  | rd_here : forall t e, reached stop t e (node_id t) e
  | rd_below : forall t e t' e' i x, stop e = false -> In (t', e') (combine (below t) (children e)) -> reached stop t' e' i x -> reached stop t e i x.
  Definition at_node : tree -> expr -> N -> expr -> Prop := reached (fun _ => false).

  (** What a rule class says is what the rule [r] on expressions reports: it reports nothing else, the replacements are those of [r], and it
      leaves out nothing, but perhaps inside of nodes that it replaces itself. *)
  Definition has_fix (r : expr -> res Rules.report) (x : expr) : bool := match r x with Ok (Some (Some _)) => true | _ => false end.
  Definition speaks (r : expr -> res Rules.report) (t : tree) (e : expr) (xs : list say) : Prop :=
    (forall s, In s xs -> exists x o, at_node t e (s_node s) x /\ r x = Ok (Some o) /\
       match o, s_replacement s with None, None => True | Some e', Some (RNode t') => laid t' e' | _, _ => False end) /\
    (forall i x o, reached (has_fix r) t e i x -> r x = Ok (Some o) -> exists s, In s xs /\ s_node s = i).

  (** All nodes *)
  Fixpoint ids (t : tree) : list N := match t with Node id _ ps => id :: flat_map ids_part ps end
  with ids_part (p : part) : list N :=
    match p with
    | Txt _ | Ind | Opt None | Sep None _ => []
    | Req t | Opt (Some t) | Sep (Some t) _ => ids t
    | Seq _ l | Body _ l => flat_map ids l
    end.

  (** The module holds the program [e]; no comment silences anything. *)
  Definition holds (Y : system) (md : module) (M : metadata) (e : expr) : Prop :=
    y_wrap Y md = Ok M /\ laid (m_tree md) e /\ NoDup (ids (m_tree md)) /\ forall C s, ~ silenced (y_unicode Y) M C s.
  Definition reads (Y : system) (c : str) (e : expr) : Prop := exists md M, y_parse Y c = Ok md /\ holds Y md M e.

  (** The class [k] does what the rule [r] on expressions does, about a file with the program [e]. *)
  Definition obeys (Y : system) (F : fs) (p : path) (k : cls) (r : expr -> res Rules.report) (e : expr) : Prop :=
    forall c md M, y_parse Y c = Ok md -> holds Y md M e -> completes Y F p md M k ->
      (forall x err, In x (subnodes e) -> r x <> Err err) /\
      let C := y_code Y F k in speaks r (m_tree md) e (says C md (calls (d_tree M)) (k_first C)).

  (** The rules selected for the file are these. *)
  Definition runs_with (Y : system) (F : fs) (p : path) (opts : option options) (rules : list (expr -> res Rules.report)) (e : expr) : Prop :=
    forall cfg, generate_config (y_env Y) F p None opts = Ok cfg ->
      exists ks, NoDup ks /\ (forall k, In k ks <-> selected Y F cfg k) /\ Forall2 (fun k r => obeys Y F p k r e) ks rules.

  (** What is written for the program [e] is not empty and is read as [e] again. *)
  Definition readable (Y : system) (p : path) (opts : option options) (e : expr) : Prop :=
    forall F cfg md c, generate_config (y_env Y) F p None opts = Ok cfg -> laid (m_tree md) e -> formatted Y F cfg p md c -> c <> [] /\ reads Y c e.

  (** What programs become by runs, with the rules in any order *)
  Inductive becomes (rules : list (expr -> res Rules.report)) : expr -> expr -> Prop :=
  | bc_same : forall e, becomes rules e e
  | bc_run : forall e rules' e', Permutation rules' rules -> becomes rules (Whole.fix_run rules' e) e' -> becomes rules e e'.

  (** One "fixit fix --automatic" of files, among them [p], run to its end with no error for [p], while nobody else changes files. [es]: what
      happened to [p]. The rules for [p] are these for all that the program [e] may become, whatever the other files hold. *)
  Definition one_fix (Y : system) (opts : options) (p : path) (rules : list (expr -> res Rules.report)) (e : expr) (F : fs) (es : list ev) (F' : fs) : Prop :=
    exists K d m diff paths z vs code ps l zp,
      first_is_dash paths = false /\ crun (whole_fix K Y d opts m false diff paths z) vs (Returned code) /\ leads F (effects vs) F' /\
      make_plan (y_walk Y F) d false (match paths with [] => [PathArg (k_cwd K)] | _ => paths end) = Ok (Some (Serial ps)) /\ NoDup ps /\
      visits Y true (Some opts) m z ps l /\ effects vs = ELook F :: ELook F :: api_effects (concat (map snd l)) /\
      In (p, (zp, es)) (combine ps l) /\ no_errors es /\
      forall G e', (forall q, f_file G q <> f_file F q -> In q ps /\ q <> p) -> (forall q, f_isdir G q = f_isdir F q) -> becomes rules e e' -> runs_with (system_at Y zp) G p (Some opts) rules e'.

  (** [n] such commands, one after the other *)
  Inductive fixes_again (Y : system) (opts : options) (p : path) (rules : list (expr -> res Rules.report)) (e : expr) : nat -> fs -> fs -> Prop :=
  | fa_none : forall F, fixes_again Y opts p rules e 0 F F
  | fa_one : forall n F es F1 F2, one_fix Y opts p rules e F es F1 -> fixes_again Y opts p rules e n F1 F2 -> fixes_again Y opts p rules e (S n) F F2.
End Laid.
