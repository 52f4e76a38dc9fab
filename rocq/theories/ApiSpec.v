(** * Vocabulary for the API properties: executions and what a caller sees of them *)
From Coq Require Import String List NArith Bool Arith.
From Verif Require Import Base Ftypes Config Suppress Cst Engine Api.
Import ListNotations.
Set Implicit Arguments.

(** What happens during an execution: a result is handed out and answered, the file system is
    looked at, a file written, and so on. *)
Inductive ev :=
| EGive (x : result) (a : option bool)
| ELook (F : fs)
| EWrite (p : path) (c : str) (o : res unit)
| EIn (i : res str)
| EOut (c : str) (o : res unit)
| ECall (m : metrics) (o : res unit).

Inductive outcome (R : Type) := Returned (r : R) | Raised (e : exn) | Stopped.
Arguments Returned {R} r.
Arguments Raised {R} e.
Arguments Stopped {R}.

(** All executions, whatever the answers, the file system and the outcome of writing are; they may
    stop anywhere (the caller gives up, the process dies). *)
Inductive run {R} : prog R -> list ev -> outcome R -> Prop :=
| run_stop : forall p, run p [] Stopped
| run_ret : forall r, run (Ret r) [] (Returned r)
| run_raise : forall e, run (Raise e) [] (Raised e)
| run_give : forall x k a es o, run (k a) es o -> run (Give x k) (EGive x a :: es) o
| run_look : forall k F es o, run (k F) es o -> run (Look k) (ELook F :: es) o
| run_write : forall p c k w es o, run (k w) es o -> run (Write p c k) (EWrite p c w :: es) o
| run_stdin : forall k i es o, run (k i) es o -> run (Stdin k) (EIn i :: es) o
| run_stdout : forall c k w es o, run (k w) es o -> run (Stdout c k) (EOut c w :: es) o
| run_call : forall m k w es o, run (k w) es o -> run (Call m k) (ECall m w :: es) o.

(** The results a caller gets, and with which answers. *)
Fixpoint given (es : list ev) : list (result * option bool) :=
  match es with
  | [] => []
  | EGive x a :: es' => (x, a) :: given es'
  | _ :: es' => given es'
  end.

Definition results (es : list ev) : list result := map fst (given es).

(** The files written, and what is written to standard output. *)
Fixpoint written (es : list ev) : list (path * str) :=
  match es with
  | [] => []
  | EWrite p c _ :: es' => (p, c) :: written es'
  | _ :: es' => written es'
  end.

Fixpoint printed (es : list ev) : list str :=
  match es with
  | [] => []
  | EOut c _ :: es' => c :: printed es'
  | _ :: es' => printed es'
  end.

(** The violations among the results that were answered with True, or all with autofix. *)
Definition accepted (autofix : bool) (xs : list (result * option bool)) : list viol :=
  flat_map (fun xa => match x_violation (fst xa), snd xa with
                      | Some v, Some true => [v]
                      | Some v, _ => if autofix then [v] else []
                      | None, _ => []
                      end) xs.

(** What a file should be reported as: its violations, then an error if one occurred; one clean
    result if there is neither. *)
Definition report_of (p : path) (vs : list viol) (err : option exn) : list result :=
  map (fun v => Result p (Some v) None) vs ++
  match err, vs with
  | Some e, _ => [Result p None (Some e)]
  | None, [] => [Result p None None]
  | None, _ :: _ => []
  end.

(** What running the enabled rules on the content gives: violations, then possibly an exception. *)
Definition lint_of (T : tool) (F : fs) (p : path) (content : str) (cfg : config) : list viol * option exn :=
  match t_collect T F cfg with
  | Err e => ([], Some e)
  | Ok [] => ([], None)
  | Ok rules =>
      match t_parse T content with
      | Err e => ([], Some e)
      | Ok md =>
          let (evs, r) := collect_violations (t_udiff T p) md (t_visit T F cfg md rules) false in
          (flat_map (fun e => match e with Yield v => [v] | Hook _ => [] end) evs,
           match r with Ok _ => None | Err e => Some e end)
      end
  end.

(** The content with fixes applied and formatted. *)
Definition fixed_content (T : tool) (F : fs) (p : path) (content : str) (cfg : config) (vs : list viol) : res str :=
  let! md := t_parse T content in
  let! updated := apply_replacements md vs in
  match updated with
  | Some m =>
      match c_formatter cfg with
      | None => t_bytes T m
      | Some style => match t_style T style with
                      | None => Err KeyError
                      | Some fmt => let! b := t_bytes T m in fmt F b p
                      end
      end
  | None => Err AttributeError
  end.
