(** * Cst: concrete syntax trees and LibCST's replacement of nodes

    LibCST is not part of /repo: this file states what fixit/engine.py relies on (LibCST's
    CSTNode.visit, visit_required, visit_optional, visit_sentinel, visit_sequence,
    visit_body_sequence, Module.visit and code generation). It is part of the trusted base. *)
From Coq Require Import String List NArith Bool Arith.
From Verif Require Import Base.
Import ListNotations.
Set Implicit Arguments.

(** A node has an identity (LibCST nodes compare by identity) and generates code from its parts.
    [line] marks a SimpleStatementLine. Simplification: validation in LibCST constructors and code
    generation that depends on more than indentation and "is not the last element" (default
    whitespace, parentheses and stars of nodes built by hand) are not modelled. *)
Inductive tree := Node (id : N) (line : bool) (ps : list part)
with part :=
| Txt (s : str)                              (* a token, whitespace, a comment, a newline *)
| Ind                                        (* the current indentation *)
| Req (t : tree)                             (* a required child *)
| Opt (o : option tree)                      (* an optional child *)
| Sep (o : option tree) (default : str)      (* comma or semicolon; [None]: generated if needed *)
| Seq (pass : bool) (l : list tree)          (* a sequence; [pass]: the small statements of a line *)
| Body (block : option (str * str)) (l : list tree).
    (* the statements of a module or an indented block; for a block, its own indentation and what
       is generated after it when there is no statement ("pass" and a newline) *)

Definition node_id (t : tree) : N := match t with Node id _ _ => id end.

(** [NodeReplacement]: a node, a FlattenSentinel or RemovalSentinel.REMOVE *)
Inductive repl := RNode (t : tree) | RFlat (l : list tree) | RRemove.

Definition nodes (r : repl) : list tree :=
  match r with RNode t => [t] | RFlat l => l | RRemove => [] end.

(** ** Code generation: [CSTNode._codegen] *)

Fixpoint render (ind : str) (more : bool) (t : tree) {struct t} : str :=
  match t with
  | Node _ _ ps => flat_map (render_part ind more) ps
  end
with render_part (ind : str) (more : bool) (p : part) {struct p} : str :=
  match p with
  | Txt s => s
  | Ind => ind
  | Req t => render ind false t
  | Opt None => []
  | Opt (Some t) => render ind false t
  | Sep None d => if more then d else []
  | Sep (Some t) _ => render ind false t
  | Seq pass l =>
      match l with
      | [] => if pass then u "pass" else []
      | _ => (fix go (l : list tree) : str :=
                match l with
                | [] => []
                | x :: l' => render ind (match l' with [] => false | _ => true end) x ++ go l'
                end) l
      end
  | Body None l => flat_map (render ind false) l
  | Body (Some (i, e)) l =>
      match l with
      | [] => (ind ++ i) ++ e
      | _ => flat_map (render (ind ++ i) false) l
      end
  end.

(** ** Visiting with a transformer that replaces some nodes *)

(** [SimpleStatementLine._is_removable]: it has no small statement *)
Definition removable (t : tree) : bool :=
  match t with
  | Node _ line ps => line && forallb (fun p => match p with Seq true (_ :: _) => false | _ => true end) ps
  end.

(** [visit_body_iterable]: a statement that lost its small statements is dropped *)
Definition kept (old : tree) (r : repl) : list tree :=
  filter (fun x => removable old || negb (removable x)) (nodes r).

(** [CSTNode.visit] with a transformer whose on_visit is false and on_leave the replacement for the
    nodes in [acc], and on_leave the updated node for the others. *)
Fixpoint visit (acc : N -> option repl) (t : tree) {struct t} : res repl :=
  match t with
  | Node id line ps =>
      match acc id with
      | Some r => Ok r
      | None =>
          let! ps' := (fix go (ps : list part) : res (list part) :=
                         match ps with
                         | [] => Ok []
                         | p :: ps' => let! q := visit_part acc p in let! qs := go ps' in Ok (q :: qs)
                         end) ps in
          Ok (RNode (Node id line ps'))
      end
  end
with visit_part (acc : N -> option repl) (p : part) {struct p} : res part :=
  match p with
  | Txt s => Ok (Txt s)
  | Ind => Ok Ind
  | Req t =>                                           (* visit_required: a bare Exception *)
      let! r := visit acc t in
      match r with RNode t' => Ok (Req t') | _ => Err (OtherError 0) end
  | Opt None => Ok (Opt None)
  | Opt (Some t) =>                                    (* visit_optional *)
      let! r := visit acc t in
      match r with RNode t' => Ok (Opt (Some t')) | RRemove => Ok (Opt None) | RFlat _ => Err (OtherError 0) end
  | Sep None d => Ok (Sep None d)
  | Sep (Some t) d =>                                  (* visit_sentinel *)
      let! r := visit acc t in
      match r with RNode t' => Ok (Sep (Some t') d) | RRemove => Ok (Sep None d) | RFlat _ => Err (OtherError 0) end
  | Seq pass l =>                                      (* visit_sequence *)
      let! l' := (fix go (l : list tree) : res (list tree) :=
                    match l with
                    | [] => Ok []
                    | x :: l' => let! r := visit acc x in let! rest := go l' in Ok (nodes r ++ rest)
                    end) l in
      Ok (Seq pass l')
  | Body blk l =>                                      (* visit_body_sequence *)
      let! l' := (fix go (l : list tree) : res (list tree) :=
                    match l with
                    | [] => Ok []
                    | x :: l' => let! r := visit acc x in let! rest := go l' in Ok (kept x r ++ rest)
                    end) l in
      Ok (Body blk l')
  end.

(** ** Modules *)

Record module := Mod { m_tree : tree; m_newline : bool; m_default_newline : str }.

(** [Module.with_changes(body=(), header=(), footer=())]: of a module's parts nothing is left *)
Definition emptied_module (t : tree) : tree := match t with Node id line _ => Node id line [] end.

(** [Module.visit]. A FlattenSentinel is returned as it is: [None]. *)
Definition visit_module (acc : N -> option repl) (m : module) : res (option module) :=
  let! r := visit acc (m_tree m) in
  match r with
  | RNode t => Ok (Some (Mod t (m_newline m) (m_default_newline m)))
  | RRemove => Ok (Some (Mod (emptied_module (m_tree m)) (m_newline m) (m_default_newline m)))
  | RFlat _ => Ok None
  end.

(** [Module.code]: a file with a final newline has at least that; without one, the newline
    generated last is taken back. *)
Definition finish (newline : bool) (default_newline : str) (s : str) : str :=
  if newline then match s with [] => default_newline | _ => s end
  else match rev s with
       | 10%N :: 13%N :: r => rev r
       | _ :: r => rev r
       | [] => []
       end.

Definition code (m : module) : str := finish (m_newline m) (m_default_newline m) (render [] false (m_tree m)).
