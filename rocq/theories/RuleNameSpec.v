(** * The grammar of rule names, as documented (docs/guide/configuration.rst)

    Nothing here refers to the model of the parser. *)
From Coq Require Import String List NArith Bool.
From Verif Require Import Base.
Import ListNotations.
Local Open Scope N_scope.

(** An ASCII letter, digit or underscore. *)
Definition name_char (c : N) : Prop :=
  (48 <= c <= 57) \/ (65 <= c <= 90) \/ (97 <= c <= 122) \/ c = 95.

(** ... or a dash. *)
Definition name_char_dash (c : N) : Prop := name_char c \/ c = 45.

(** A module name: a word, then any number of dot and word (these may contain dashes). *)
Inductive module_name : str -> Prop :=
| mn_word : forall w, w <> [] -> Forall name_char w -> module_name w
| mn_dot : forall m w, module_name m -> w <> [] -> Forall name_char_dash w ->
    module_name (m ++ u "." ++ w).

Definition rule_part (n : option str) : Prop :=
  match n with None => True | Some w => w <> [] /\ Forall name_char_dash w end.

(** [rule_name local m n s]: [s] is the rule name with module part [m] (without the
    leading dot), locality [local] and rule part [n]. *)
Definition rule_name (local : bool) (m : str) (n : option str) (s : str) : Prop :=
  module_name m /\ rule_part n /\
  s = (if local then u "." else []) ++ m ++ (match n with None => [] | Some w => u ":" ++ w end).
