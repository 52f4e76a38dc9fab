(** * Vocabulary for the properties of commands *)
From Coq Require Import String List NArith ZArith Bool Arith.
From Verif Require Import Base PyStr Ftypes Paths Config Suppress Cst Engine Api ApiSpec Cli.
Import ListNotations.
Set Implicit Arguments.

(** What happens during a command. *)
Inductive cev :=
| VPrint (s : stream) (t : str)
| VPrompt (a : option choice)
| VLook (F : fs)
| VWrite (p : path) (c : str) (o : res unit)
| VIn (i : res str)
| VOut (c : str) (o : res unit).

(** All executions; they may stop anywhere. *)
Inductive crun {R} : cmd R -> list cev -> outcome R -> Prop :=
| cr_stop : forall c, crun c [] Stopped
| cr_ret : forall r, crun (CRet r) [] (Returned r)
| cr_fail : forall e, crun (CFail e) [] (Raised e)
| cr_print : forall s t k vs o, crun k vs o -> crun (CPrint s t k) (VPrint s t :: vs) o
| cr_prompt : forall k a vs o, crun (k a) vs o -> crun (CPrompt k) (VPrompt a :: vs) o
| cr_look : forall k F vs o, crun (k F) vs o -> crun (CLook k) (VLook F :: vs) o
| cr_write : forall p c k w vs o, crun (k w) vs o -> crun (CWrite p c k) (VWrite p c w :: vs) o
| cr_stdin : forall k i vs o, crun (k i) vs o -> crun (CStdin k) (VIn i :: vs) o
| cr_stdout : forall c k w vs o, crun (k w) vs o -> crun (CStdout c k) (VOut c w :: vs) o.

(** The status a shell sees: Python exits with 1 after an exception that nobody handles. *)
Definition status (o : outcome N) : option N :=
  match o with Returned c => Some c | Raised _ => Some 1%N | Stopped => None end.

(** The lines printed, the questions answered, and everything else: looking, writing, standard
    input and output. *)
Definition lines (vs : list cev) : list (stream * str) :=
  flat_map (fun v => match v with VPrint s t => [(s, t)] | _ => [] end) vs.
Definition asked (vs : list cev) : list (option choice) :=
  flat_map (fun v => match v with VPrompt a => [a] | _ => [] end) vs.
Definition effects (vs : list cev) : list ev :=
  flat_map (fun v => match v with
                     | VLook F => [ELook F] | VWrite p c o => [EWrite p c o]
                     | VIn i => [EIn i] | VOut c o => [EOut c o] | _ => [] end) vs.
Definition api_effects (es : list ev) : list ev :=
  filter (fun e => match e with EGive _ _ | ECall _ _ => false | _ => true end) es.

(** Everything that arrives on standard output, and the files written. *)
Definition stdout (vs : list cev) : list str :=
  flat_map (fun v => match v with VPrint Std t => [t] | VOut c _ => [c] | _ => [] end) vs.
Definition saved (vs : list cev) : list (path * str) :=
  flat_map (fun v => match v with VWrite p c _ => [(p, c)] | _ => [] end) vs.

(** What is printed for a result: the violation as one line and its diff if wanted; an error with
    its traceback; nothing for a clean file. *)
Definition item (K : cli) (diff : bool) (out : stream) (cfg : config) (x : result) : list (stream * str) :=
  match x_violation x, x_error x with
  | Some v, _ =>
      let path := show_path (k_cwd K) (x_path x) in
      let ln := line (rstart (v_range v)) in
      let col := column (rstart (v_range v)) in
      let msg := if autofixable v then v_message v ++ u " (has autofix)" else v_message v in
      let rest := dec ln ++ u ":" ++ dec col ++ u " " ++ v_rule v ++ u ": " ++ msg in
      (out, match c_format cfg with
            | OFfixit => path ++ u "@" ++ rest
            | OFvscode => path ++ u ":" ++ rest
            | OFcustom => match k_format K (c_template cfg) msg path x (v_rule v) col ln with Ok s => s | Err _ => [] end
            end)
      :: (if diff then match v_diff v with [] => [] | d => [(Std, d)] end else [])
  | None, Some e =>
      let path := show_path (k_cwd K) (x_path x) in
      [(out, path ++ u ": EXCEPTION: " ++ k_exn K e); (out, strip (k_traceback K e))]
  | None, None => []
  end.

(** The lines for an execution of fixit_paths: results, and metrics if wanted. *)
Definition screen (K : cli) (diff : bool) (out : stream) (cfg : config) (es : list ev) : list (stream * str) :=
  flat_map (fun e => match e with
                     | EGive x _ => item K diff out cfg x
                     | ECall m _ => [(Std, k_metrics K m)]
                     | _ => []
                     end) es.

(** The summary, given how many files were checked and have errors, how many fixes are available
    and applied. *)
Definition count (n : nat) (one many : string) : str := decn n ++ u " " ++ u (if Nat.eqb n 1 then one else many).
(** U+1F6E0 U+FE0F and U+1F9FC *)
Definition wrench : str := [128736; 65039]%N.
Definition bubbles : str := [129532]%N.
Definition summary (visited dirty autofixes fixed : nat) : str :=
  if Nat.eqb dirty 0 then bubbles ++ u " " ++ count visited "file" "files" ++ u " clean " ++ bubbles
  else wrench ++ u "  " ++ count visited "file" "files" ++ u " checked, " ++
       count dirty "file" "files" ++ u " with errors" ++
       (if Nat.eqb autofixes 0 then [] else u ", " ++ decn autofixes ++ u (if Nat.eqb autofixes 1 then " auto-fix" else " auto-fixes") ++ u " available") ++
       (if Nat.eqb fixed 0 then [] else u ", " ++ count fixed "fix" "fixes" ++ u " applied") ++ u " " ++ wrench.

(** [l] lists exactly the paths of the results satisfying [f], each once. *)
Definition distinct_paths (f : result -> bool) (xs : list result) (l : list path) : Prop :=
  NoDup l /\ forall p, In p l <-> exists x, In x xs /\ f x = true /\ x_path x = p.

Definition any (x : result) : bool := true.
Definition dirty (x : result) : bool :=
  match x_violation x, x_error x with None, None => false | _, _ => true end.
Definition fixable (x : result) : bool :=
  match x_violation x with Some v => autofixable v | None => false end.
