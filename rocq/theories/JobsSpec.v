(** * Vocabulary for C84: files linted by several processes *)
From Coq Require Import String List NArith ZArith Bool Arith Permutation.
From Verif Require Import Base PyStr Ftypes Paths Config Collect CollectSpec Suppress SuppressSpec Cst Engine Batch Api ApiSpec System SystemSpec
  Session SessionSpec CommandsSpec.
Import ListNotations.

(** Nothing is answered, and the metrics hook does not fail: a worker makes a list of the results (api.py 222-235). *)
Definition unattended (es : list ev) : Prop :=
  (forall x a, In (EGive x a) es -> a = None) /\ (forall m e, ~ In (ECall m (Err e)) es).

(** What happened to a file: which one, the state of the interpreter of the process, and the events. *)
Definition report : Type := path * (session * list ev).
Definition of_file (r : report) : path := fst r.
Definition events (r : report) : list ev := snd (snd r).

(** What a process does: it starts as a copy of the main process, and lints some files one after the other. *)
Definition worker : Type := list path * list (session * list ev).
Definition works (Y : system) (autofix : bool) (opts : option options) (hook : bool) (z : session) (w : worker) : Prop :=
  visits Y autofix opts hook z (fst w) (snd w) /\ Forall (fun v => unattended (snd v)) (snd w).

(** Any number of processes share the files in any way, and the files may be done in any order. *)
Definition pooled (Y : system) (autofix : bool) (opts : option options) (hook : bool) (z : session) (ps : list path) (out : list report) : Prop :=
  exists ws, Forall (works Y autofix opts hook z) ws /\ Permutation (flat_map fst ws) ps /\
    Permutation (flat_map (fun w => combine (fst w) (snd w)) ws) out.

(** The results, in the order of the files. *)
Definition all_results (out : list report) : list result := flat_map (fun r => results (events r)) out.

(** Nobody changes files meanwhile. *)
Definition steady (F : fs) (out : list report) : Prop := forall r G, In r out -> In G (looks (events r)) -> G = F.

(** The configurations of the files agree on enable-root-import. *)
Definition one_project (Y : system) (F : fs) (opts : option options) (ps : list path) : Prop :=
  forall p q cfg cfg', In p ps -> In q ps -> generate_config (y_env Y) F p None opts = Ok cfg -> generate_config (y_env Y) F q None opts = Ok cfg' ->
    c_import cfg = c_import cfg' /\ (c_import cfg = RIFalse \/ c_root cfg = c_root cfg').

Definition no_root_imports (Y : system) (F : fs) (opts : option options) (ps : list path) : Prop :=
  forall p cfg, In p ps -> generate_config (y_env Y) F p None opts = Ok cfg -> c_import cfg = RIFalse.

(** Results that processes may produce for the files while nobody changes them. *)
Definition delivered (Y : system) (opts : option options) (hook : bool) (z : session) (F : fs) (ps : list path) (xs : list result) : Prop :=
  exists out, pooled Y false opts hook z ps out /\ steady F out /\ xs = all_results out.
