(** * Vocabulary for C81: the language server with the whole of fixit *)
From Coq Require Import String List NArith ZArith Bool Arith.
From Verif Require Import Base PyStr Ftypes Paths Config Collect CollectSpec Suppress SuppressSpec Cst Engine Batch Api ApiSpec System SystemSpec CommandsSpec
  Lsp.
Import ListNotations.

(** Linting a content goes through: the rules can be imported, and if there are any, the content can be parsed and every rule gets
    through it without an exception. *)
Definition workable (Y : system) (F : fs) (cfg : config) (p : path) (content : str) : Prop :=
  (exists r, fst (collect_rules (y_world Y F) cfg (y_py Y)) = Ok r) /\
  ((forall k, ~ selected Y F cfg k) \/
   exists md M, y_parse Y content = Ok md /\ y_wrap Y md = Ok M /\ forall k, selected Y F cfg k -> completes Y F p md M k).

(** [vs] is all that there is to say about the content. *)
Definition verdict (Y : system) (F : fs) (cfg : config) (p : path) (content : str) (vs : list viol) : Prop :=
  ((forall k, ~ selected Y F cfg k) /\ vs = []) \/
  exists md M, y_parse Y content = Ok md /\ y_wrap Y md = Ok M /\ all_complaints Y F cfg p md M vs.

(** The server lints with the whole of fixit. Simplification: the interpreter is in the same state for every request; C79 says when
    what was linted before makes no difference. *)
Definition serves (S : server) (Y : system) : Prop := z_tool S = tool_of Y.
