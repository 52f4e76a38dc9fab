(** * Vocabulary for applying fixes (C26-C28): edits of the source text *)
From Coq Require Import String List NArith Bool Arith.
From Verif Require Import Base Cst.
Import ListNotations.

(** An edit: the text of [e_len] characters at offset [e_at] becomes [e_new]. *)
Record edit := Edit { e_at : nat; e_len : nat; e_new : str }.

(** Carry out edits that are given in source order, on the text starting at offset [pos]. *)
Fixpoint apply_edits (pos : nat) (es : list edit) (s : str) : str :=
  match es with
  | [] => s
  | Edit o n new :: es' => firstn (o - pos) s ++ new ++ apply_edits (o + n) es' (skipn (o - pos + n) s)
  end.

(** In source order, not overlapping, all between [pos] and [last]. *)
Fixpoint in_order (pos : nat) (es : list edit) (last : nat) : Prop :=
  match es with
  | [] => pos <= last
  | Edit o n _ :: es' => pos <= o /\ in_order (o + n) es' last
  end.

(** The text of a list of nodes put where a sequence element was. [more]: elements follow. *)
Fixpoint seq_text (ind : str) (more : bool) (l : list tree) : str :=
  match l with
  | [] => []
  | x :: l' => render ind (match l' with [] => more | _ => true end) x ++ seq_text ind more l'
  end.

(** The text of a sequence that holds [l] and nothing else. *)
Definition whole_seq (ind : str) (l : list tree) : str := seq_text ind false l.

Section Accepted.
  Variable acc : N -> option repl.

  (** The element disappears: it is accepted to be replaced by nothing. *)
  Definition vanishes (t : tree) : bool :=
    match acc (node_id t) with Some r => match nodes r with [] => true | _ => false end | None => false end.

  (** A statement line, not replaced itself, all of whose small statements disappear. *)
  Definition loses_all (t : tree) : bool :=
    match t with
    | Node id line ps =>
        line && match acc id with None => true | Some _ => false end && negb (removable t) &&
        forallb (fun p => match p with Seq true l => forallb vanishes l | _ => true end) ps
    end.

  (** A statement of a block disappears. *)
  Definition stmt_vanishes (t : tree) : bool :=
    match acc (node_id t) with
    | Some r => match kept t r with [] => true | _ => false end
    | None => loses_all t
    end.

  (** [edit_in ind old new at_ t e]: e is an edit inside the text of [t], which starts at offset [at_] and
      is generated with indentation [ind]; [old], [new]: whether elements followed [t] before and
      follow it afterwards. Only outermost accepted nodes lead to edits. *)
  Inductive edit_in (ind : str) (old new : bool) (at_ : nat) : tree -> edit -> Prop :=
  | ei_parts : forall id line ps p qs e before,
      acc id = None -> ps = before ++ p :: qs ->
      edit_part ind old new (at_ + List.length (flat_map (render_part ind old) before)) p e ->
      edit_in ind old new at_ (Node id line ps) e

  with edit_part (ind : str) (old new : bool) (at_ : nat) : part -> edit -> Prop :=
  (* single children: replaced, or changed inside *)
  | ep_req_here : forall t t', acc (node_id t) = Some (RNode t') ->
      edit_part ind old new at_ (Req t) (Edit at_ (List.length (render ind false t)) (render ind false t'))
  | ep_req_in : forall t e, edit_in ind false false at_ t e -> edit_part ind old new at_ (Req t) e
  | ep_opt_here : forall t r, acc (node_id t) = Some r ->
      edit_part ind old new at_ (Opt (Some t))
        (Edit at_ (List.length (render ind false t)) (seq_text ind false (nodes r)))
  | ep_opt_in : forall t e, edit_in ind false false at_ t e -> edit_part ind old new at_ (Opt (Some t)) e
  | ep_sep_here : forall t d t', acc (node_id t) = Some (RNode t') ->
      edit_part ind old new at_ (Sep (Some t) d) (Edit at_ (List.length (render ind false t)) (render ind false t'))
  (* a removed separator is generated again when it is needed *)
  | ep_sep_gone : forall t d, acc (node_id t) = Some RRemove ->
      edit_part ind old new at_ (Sep (Some t) d)
        (Edit at_ (List.length (render ind false t)) (if new then d else []))
  | ep_sep_in : forall t d e, edit_in ind false false at_ t e -> edit_part ind old new at_ (Sep (Some t) d) e
  (* sequences *)
  | ep_seq_all : forall pass l, l <> [] -> forallb vanishes l = true ->
      edit_part ind old new at_ (Seq pass l)
        (Edit at_ (List.length (whole_seq ind l)) (if pass then u "pass" else []))
  | ep_seq_here : forall pass before x after r,
      forallb vanishes (before ++ x :: after) = false -> acc (node_id x) = Some r ->
      let more := match after with [] => false | _ => true end in
      edit_part ind old new at_ (Seq pass (before ++ x :: after))
        (Edit (at_ + List.length (seq_text ind true before)) (List.length (render ind more x))
              (seq_text ind (negb (forallb vanishes after)) (nodes r)))
  | ep_seq_in : forall pass before x after e,
      forallb vanishes (before ++ x :: after) = false ->
      let more := match after with [] => false | _ => true end in
      edit_in ind more (negb (forallb vanishes after)) (at_ + List.length (seq_text ind true before)) x e ->
      edit_part ind old new at_ (Seq pass (before ++ x :: after)) e
  (* statements of a module or a block *)
  | ep_body_all : forall i pass l, l <> [] -> forallb stmt_vanishes l = true ->
      edit_part ind old new at_ (Body (Some (i, pass)) l)
        (Edit at_ (List.length (flat_map (render (ind ++ i) false) l)) ((ind ++ i) ++ pass))
  | ep_body_here : forall blk before x after r,
      (blk <> None -> forallb stmt_vanishes (before ++ x :: after) = false) -> acc (node_id x) = Some r ->
      let ind' := match blk with Some (i, _) => ind ++ i | None => ind end in
      edit_part ind old new at_ (Body blk (before ++ x :: after))
        (Edit (at_ + List.length (flat_map (render ind' false) before)) (List.length (render ind' false x))
              (flat_map (render ind' false) (kept x r)))
  | ep_body_line : forall blk before x after,
      (blk <> None -> forallb stmt_vanishes (before ++ x :: after) = false) -> loses_all x = true ->
      let ind' := match blk with Some (i, _) => ind ++ i | None => ind end in
      edit_part ind old new at_ (Body blk (before ++ x :: after))
        (Edit (at_ + List.length (flat_map (render ind' false) before)) (List.length (render ind' false x)) [])
  | ep_body_in : forall blk before x after e,
      (blk <> None -> forallb stmt_vanishes (before ++ x :: after) = false) -> loses_all x = false ->
      let ind' := match blk with Some (i, _) => ind ++ i | None => ind end in
      edit_in ind' false false (at_ + List.length (flat_map (render ind' false) before)) x e ->
      edit_part ind old new at_ (Body blk (before ++ x :: after)) e.
End Accepted.

(** Separators are written down wherever an element is not the last one, as in every parsed file. *)
Definition explicit_seps (t : tree) : bool :=
  match t with Node _ _ ps => forallb (fun p => match p with Sep None _ => false | _ => true end) ps end.

Inductive parsed : tree -> Prop :=
| pd_node : forall id line ps, (forall p, In p ps -> parsed_part p) -> parsed (Node id line ps)
with parsed_part : part -> Prop :=
| pd_txt : forall s, parsed_part (Txt s)
| pd_ind : parsed_part Ind
| pd_req : forall t, parsed t -> parsed_part (Req t)
| pd_opt : forall o, (forall t, o = Some t -> parsed t) -> parsed_part (Opt o)
| pd_sep : forall o d, (forall t, o = Some t -> parsed t) -> parsed_part (Sep o d)
| pd_seq : forall pass l, (forall t, In t l -> parsed t) ->
    (forall before x after, l = before ++ x :: after -> after <> [] -> explicit_seps x = true) ->
    parsed_part (Seq pass l)
| pd_body : forall blk l, (forall t, In t l -> parsed t) -> parsed_part (Body blk l).
