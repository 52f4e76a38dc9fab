(** * What a suppression comment means (docs/guide/quickstart.rst 90-135), independently of
      regular expressions *)
From Coq Require Import String List NArith Bool Arith.
From Verif Require Import Base PyStr Suppress.
Import ListNotations.

Definition spaces (s : str) : Prop := Forall (fun c => is_space c = true) s.
Definition wordlike (U : unicode) (s : str) : Prop := s <> [] /\ Forall (fun c => is_word U c = true) s.
Definition starts_word (U : unicode) (s : str) : Prop := exists c t, s = c :: t /\ is_word U c = true.

(** [s] starts with a directive, followed by [rest]. *)
Definition directive_at (s rest : str) : Prop :=
  exists ws, spaces ws /\
    (s = u "#" ++ ws ++ u "lint-ignore" ++ rest \/ s = u "#" ++ ws ++ u "lint-fixme" ++ rest).

(** [rest] is what follows the first directive of the comment. *)
Definition first_directive (comment rest : str) : Prop :=
  exists pre s, comment = pre ++ s /\ directive_at s rest /\
    forall pre' s' r, comment = pre' ++ s' -> length pre' < length pre -> ~ directive_at s' r.

Definition has_directive (comment : str) : Prop :=
  exists pre s r, comment = pre ++ s /\ directive_at s r.

(** A colon and optional white space, or white space, and then a rule name. *)
Definition separated (U : unicode) (rest names : str) : Prop :=
  starts_word U names /\ exists ws, spaces ws /\
  (rest = u ":" ++ ws ++ names \/ (ws <> [] /\ rest = ws ++ names)).

(** [names_at s l]: [s] starts with the comma separated names [l], and no more of them. *)
Inductive names_at (U : unicode) : str -> list str -> Prop :=
| na_last : forall w rest, wordlike U w -> ~ starts_word U rest ->
    (forall ws r, spaces ws -> starts_word U r -> rest <> u "," ++ ws ++ r) ->
    names_at U (w ++ rest) [w]
| na_more : forall w ws rest ns, wordlike U w -> spaces ws -> names_at U rest ns ->
    names_at U (w ++ u "," ++ ws ++ rest) (w :: ns).

(** A listed name [n] denotes the rule called [name]: literally, lower-cased, or either with
    an additional "Rule" suffix. *)
Definition names_rule (U : unicode) (n name : str) : Prop :=
  exists base, (n = base ++ u "Rule" \/ (n = base /\ forall t, n <> t ++ u "Rule")) /\
    (base = name \/ base = lower U name).

(** The comment silences the rule. *)
Definition silences (U : unicode) (comment name : str) : Prop :=
  exists rest, first_directive comment rest /\
    ((forall names, ~ separated U rest names) \/
     exists names ns n, separated U rest names /\ names_at U names ns /\ In n ns /\ names_rule U n name).

(** ** Scope *)

(** The comment is attached to the node itself. *)
Definition attached (n : ninfo) (c : str) : Prop :=
  n_tw n = Some (Some c)
  \/ (n_tw n = None /\ (n_body n = SimpleSuite (Some c) \/ n_body n = Indented (Some c)))
  \/ n_comma n = Some c \/ n_rbracket n = Some c
  \/ In (Some c) (n_lbracket n) \/ In (Some c) (n_after_decorators n)
  \/ exists ll, n_leading n = Some ll /\ In (Some c) ll.

(** A node where the search ends: it has leading lines and is not a decorator. *)
Definition stops (n : ninfo) : Prop := n_leading n <> None /\ n_decorator n = false.

(** The comments that are consulted for a place. *)
Definition in_scope (p : place) (c : str) : Prop :=
  (exists inner n outer, p_nodes p = inner ++ n :: outer /\ Forall (fun x => ~ stops x) inner /\ attached n c)
  \/ (In (Some c) (p_header p) /\
      (Forall (fun x => ~ stops x) (p_nodes p) \/
       (p_first p = true /\ exists inner n, p_nodes p = inner ++ [n] /\
          Forall (fun x => ~ stops x) inner /\ stops n))).
