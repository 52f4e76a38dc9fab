(** * Template: [str.format] of Python on [output-template] (fixit/api.py 66-73)

    [str.format] is not part of /repo: this is Objects/stringlib/unicode_format.h of CPython 3.8 to 3.13 (MarkupIterator_next, parse_field,
    output_markup, build_string), for the call of api.py 66-73, which has keyword arguments only. tools/template.py compares it with the
    Python in the sandbox (Conformance5). Simplifications: attributes, items, [repr], [ascii] and non-empty format specs are given
    functions; a number as field name has ASCII digits and fits into the machine word. *)
From Coq Require Import String List NArith ZArith Bool Arith.
From Verif Require Import Base PyStr Ftypes Paths Config Suppress Cst Engine Api Cli.
Import ListNotations.
Local Open Scope N_scope.

(** ** Taking the template apart *)

(** A piece of a template: text, or a field with its name (and what follows the name), its conversion and its format spec; or something
    that [str.format] refuses with ValueError. *)
Inductive item := Text (s : str) | Field (name : str) (conversion : option N) (spec : str) | Refused.

(** Where the parser is: in text, after one "{", after one "}", in the name of a field, between "[" and "]" in it, after "!", after the
    conversion, in the format spec with so many "{" open. *)
Inductive mode :=
| InText | Opened | Closed | InName (n : str) | InIndex (n : str) | Bang (n : str) | Converted (n : str) (k : N)
| InSpec (n : str) (k : option N) (depth : nat) (spec : str).

Definition lbrace : N := 123.
Definition rbrace : N := 125.
Definition lbracket : N := 91.
Definition rbracket : N := 93.
Definition bang : N := 33.
Definition colon : N := 58.
Definition dot : N := 46.

(** parse_field: one character of the name *)
Definition in_name (n : str) (c : N) : list item * option mode :=
  if c =? lbrace then ([Refused], None)
  else if c =? lbracket then ([], Some (InIndex (n ++ [c])))
  else if c =? rbrace then ([Field n None []], Some InText)
  else if c =? colon then ([], Some (InSpec n None 1 []))
  else if c =? bang then ([], Some (Bang n))
  else ([], Some (InName (n ++ [c]))).

(** One character: the pieces that are complete with it, and where the parser goes on. *)
Definition step (m : mode) (c : N) : list item * option mode :=
  match m with
  | InText => if c =? lbrace then ([], Some Opened) else if c =? rbrace then ([], Some Closed) else ([Text [c]], Some InText)
  | Opened => if c =? lbrace then ([Text [c]], Some InText) else in_name [] c
  | Closed => if c =? rbrace then ([Text [c]], Some InText) else ([Refused], None)
  | InName n => in_name n c
  | InIndex n => if c =? rbracket then ([], Some (InName (n ++ [c]))) else ([], Some (InIndex (n ++ [c])))
  | Bang n => ([], Some (Converted n c))
  | Converted n k =>
      if c =? rbrace then ([Field n (Some k) []], Some InText)
      else if c =? colon then ([], Some (InSpec n (Some k) 1 []))
      else ([Refused], None)
  | InSpec n k d spec =>
      if c =? lbrace then ([], Some (InSpec n k (S d) (spec ++ [c])))
      else if c =? rbrace then match d with
                               | S (S d') => ([], Some (InSpec n k (S d') (spec ++ [c])))
                               | _ => ([Field n k spec], Some InText)
                               end
      else ([], Some (InSpec n k d (spec ++ [c])))
  end.

Fixpoint scan (m : mode) (t : str) : list item :=
  match t with
  | [] => match m with InText => [] | _ => [Refused] end
  | c :: t' => let (is_, m') := step m c in is_ ++ match m' with Some m' => scan m' t' | None => [] end
  end.

(** field_name_split: the name up to the first "." or "[" *)
Fixpoint split_name (n : str) : str * str :=
  match n with
  | [] => ([], [])
  | c :: n' => if (c =? dot) || (c =? lbracket) then ([], n) else let (a, b) := split_name n' in (c :: a, b)
  end.

Definition is_number (n : str) : bool := forallb (fun c => (48 <=? c) && (c <=? 57)) n.

(** ** Filling it *)

(** The objects that are formatted: texts, numbers, paths (with what [str] makes of them), others. *)
Inductive value (O : Type) := VText (s : str) | VNumber (n : Z) | VPath (s : str) | VObject (o : O).
Arguments VText {O} s.
Arguments VNumber {O} n.
Arguments VPath {O} s.
Arguments VObject {O} o.

(** What is not modelled of Python: the attributes and items named by the rest of a field name, [str] of other objects, [repr],
    [ascii], and [format] of other objects or with a format spec. *)
Record python := Python {
  object : Type;
  p_result : result -> object;
  p_access : value object -> str -> res (value object);
  p_str : object -> res str;
  p_repr : value object -> res str;
  p_ascii : value object -> res str;
  p_format : value object -> str -> res str }.

Section Fill.
  Context (P : python).

  (** get_field_object: positional arguments there are none *)
  Definition field_object (vars : list (str * value (object P))) (n : str) : res (value (object P)) :=
    let (name, rest) := split_name n in
    if is_number name then Err IndexError
    else match find (fun x => str_eqb (fst x) name) vars with
         | None => Err KeyError
         | Some x => match rest with [] => Ok (snd x) | _ => p_access P (snd x) rest end
         end.

  (** do_conversion *)
  Definition convert (k : option N) (v : value (object P)) : res (value (object P)) :=
    match k with
    | None => Ok v
    | Some k =>
        if k =? 115 then match v with
                         | VText s => Ok (VText s) | VNumber n => Ok (VText (dec n)) | VPath s => Ok (VText s)
                         | VObject o => let! s := p_str P o in Ok (VText s)
                         end
        else if k =? 114 then let! s := p_repr P v in Ok (VText s)
        else if k =? 97 then let! s := p_ascii P v in Ok (VText s)
        else Err ValueError
    end.

  (** render_field: [format(v, spec)] *)
  Definition format_value (v : value (object P)) (spec : str) : res str :=
    match spec, v with
    | [], VText s => Ok s
    | [], VNumber n => Ok (dec n)
    | [], VPath s => Ok s
    | _, _ => p_format P v spec
    end.

  (** output_markup; [nested] expands a format spec that has fields itself *)
  Definition fill_item (vars : list (str * value (object P))) (nested : str -> res str) (i : item) : res str :=
    match i with
    | Text s => Ok s
    | Refused => Err ValueError
    | Field n k spec =>
        let! v := field_object vars n in
        let! v := convert k v in
        let! spec := if existsb (N.eqb lbrace) spec then nested spec else Ok spec in
        format_value v spec
    end.

  (** build_string, whose recursion_depth is 2 *)
  Fixpoint build (depth : nat) (vars : list (str * value (object P))) (t : str) : res str :=
    match depth with
    | O => Err ValueError
    | S d => let! l := map_res (fill_item vars (build d vars)) (scan InText t) in Ok (concat l)
    end.

  (** api.py 66-73: the keyword arguments *)
  Definition variables (message path : str) (x : result) (rule : str) (col ln : Z) : list (str * value (object P)) :=
    [(u "message", VText message); (u "path", VPath path); (u "result", VObject (p_result P x)); (u "rule_name", VText rule);
     (u "start_col", VNumber col); (u "start_line", VNumber ln)].

  (** api.py 66: a template that is no text has no method [format] *)
  Definition template_format (tmpl : toml) (message path : str) (x : result) (rule : str) (col ln : Z) : res str :=
    match tmpl with
    | TStr t => build 2 (variables message path x rule col ln) t
    | _ => Err AttributeError
    end.
End Fill.

(** The surroundings of a command with this [str.format]. *)
Definition formatting (K : cli) (P : python) : cli := Cli (k_cwd K) (template_format P) (k_metrics K) (k_exn K) (k_traceback K).
