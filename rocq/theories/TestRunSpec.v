(** * Vocabulary for C90: what the cases of a rule promise about files *)
From Coq Require Import String List NArith ZArith Bool Arith.
From Verif Require Import Base PyStr Ftypes Paths Config Collect CollectSpec Suppress Cst Engine Batch Api ApiSpec System SystemSpec Testing TestRun.
Import ListNotations.

(** [written_as H src text]: the text meant by a string in a test case: without one newline at its start, dedented. *)
Definition written_as (H : harness) (src text : str) : Prop :=
  (exists s, src = 10%N :: s /\ text = h_dedent H s) \/ ((forall s, src <> 10%N :: s) /\ text = h_dedent H src).

(** The file holds the code of the case. *)
Definition holds_case (H : harness) (t : tcase) (content : str) : Prop :=
  exists text, written_as H (case_code t) text /\ h_encode H text = Ok content.

(** [k] is among the classes that `fixit test NAMES` tests. *)
Definition under_test (Y : system) (H : harness) (F : fs) (names : list str) (k : cls) : Prop :=
  exists qs, map_res (fun s => parse_rule s (h_cwd H)) names = Ok qs /\ selected Y F (test_config (h_cwd H) qs) k.

(** The cases of a class. *)
Definition case_of (H : harness) (F : fs) (k : cls) (t : tcase) : Prop :=
  (exists cs c, h_valid H F k = Some cs /\ In c cs /\ t = TValid (match c with VStr s => s | VCase s => s end)) \/
  (exists cs c, h_invalid H F k = Some cs /\ In c cs /\ t = TInvalid (match c with IStr s => Invalid s None None None | ICase i => i end)).

(** The classes that are run on the file. *)
Definition runs_rules (Y : system) (F : fs) (cfg : config) (ks : list cls) : Prop :=
  exists d s, collect_rules (y_world Y F) cfg (y_py Y) = (Ok (ks, d), s).

(** What a case says about a violation. *)
Definition meets (i : invalid) (v : viol) : Prop :=
  (forall r, n_range i = Some r -> v_range v = r) /\ (forall m, n_message i = Some m -> v_message v = m).

Definition promised (t : tcase) (vs : list viol) : Prop :=
  match t with
  | TValid _ => vs = []
  | TInvalid i => vs <> [] /\ Forall (meets i) vs
  end.

(** The same Python and LibCST. Everything else may differ: the interpreter's state, the configuration, the clock, the files. *)
Definition same_language (Y Y' : system) : Prop :=
  y_unicode Y' = y_unicode Y /\ (forall s, y_parse Y' s = y_parse Y s) /\ (forall m, y_wrap Y' m = y_wrap Y m) /\ (forall m, y_bytes Y' m = y_bytes Y m).

(** A fixed text is written if it is not empty and differs from the content. *)
Definition stored (p : path) (content new : str) (ws : list (path * str)) : Prop :=
  (new <> [] /\ new <> content /\ ws = [(p, new)]) \/ ((new = [] \/ new = content) /\ ws = []).

(** A complete run on a file: what it holds, its configuration, and the rules that are run. Metrics hooks do not raise. *)
Definition linted (Y : system) (p : path) (autofix : bool) (opts : option options) (hook : bool) (es : list ev)
    (content : str) (cfg : config) (F : fs) (ks : list cls) : Prop :=
  run (fixit_file (tool_of Y) p autofix opts hook) es (Returned tt) /\
  (exists F0 F1 es', es = ELook F0 :: ELook F1 :: ELook F :: es' /\ f_file F0 p = Some content /\ generate_config (y_env Y) F1 p None opts = Ok cfg) /\
  runs_rules Y F cfg ks /\ forall m e, ~ In (ECall m (Err e)) es.

(** All fixes are accepted. *)
Definition accepts_all (autofix : bool) (es : list ev) : Prop := autofix = true \/ forall x a, In (x, a) (given es) -> a = Some true.
Definition accepts_none (autofix : bool) (es : list ev) : Prop := autofix = false /\ forall x a, In (x, a) (given es) -> a <> Some true.
