(** * Vocabulary for C79 *)
From Coq Require Import String List NArith Bool Arith.
From Verif Require Import Base Ftypes Paths Config Collect CollectSpec Suppress Cst Engine Api ApiSpec Session.
Import ListNotations.

(** sys.path while rules are imported for a configuration: C10. *)
Definition import_path (W : world) (cfg : config) (z : session) : list str :=
  ps_path (with_root_import W cfg (PyState (z_path z) [] 0)).

(** The module, or the package that contains it, has been imported in this process. *)
Definition imported (z : session) (name : str) : Prop :=
  exists first, ~ In 46%N first /\ (name = first \/ exists rest, name = first ++ 46%N :: rest) /\ dget first (z_loaded z) <> None.

(** The modules that a configuration names, other than local ones, and that have been imported, mean the same in both search paths. *)
Definition same_modules (W : world) (z : session) (cfg : config) (sp sp' : list str) : Prop :=
  forall q, In q (c_enable cfg ++ c_disable cfg) -> is_local q = false -> imported z (q_module q) ->
    snd (w_import W sp (q_module q)) = snd (w_import W sp' (q_module q)).

(** The file systems looked at in an execution. *)
Definition looks (es : list ev) : list fs := flat_map (fun e => match e with ELook F => [F] | _ => [] end) es.

(** No result is an error. *)
Definition no_errors (es : list ev) : Prop := forall x, In x (results es) -> x_error x = None.
