(** * Pool: several files at once, and processes that die (api.py 222-235, 297-310) *)
From Coq Require Import String List NArith Bool Arith.
From Verif Require Import Base Ftypes Paths Config Suppress Cst Engine Api ApiSpec.
Import ListNotations.
Set Implicit Arguments.

(** Writing a file ([Path.write_bytes]): opening truncates it, then the content is written piece by
    piece. [WFail]: it cannot be opened; [WPart n]: an error (disk full) after [n] bytes. *)
Inductive wres := WOk | WFail (e : exn) | WPart (e : exn) (n : nat).

Definition upd (F : fs) (p : path) (c : str) : fs :=
  FS (fun q => if path_eqb q p then Some c else f_file F q) (f_isdir F).

(** How writing behaves per file, and what the metrics hook does. *)
Record machine := Machine { m_write : path -> wres; m_hook : metrics -> res unit }.

(** The file system after writing has ended, and the outcome. *)
Definition after_write (M : machine) (F : fs) (p : path) (c : str) : fs * res unit :=
  match m_write M p with
  | WOk => (upd F p c, Ok tt)
  | WFail e => (F, Err e)
  | WPart e n => (upd F p (firstn n c), Err e)
  end.

(** One after the other: a single process runs a generator to its end, answering None.
    Standard input and output do not occur here. *)
Fixpoint exec {R} (M : machine) (q : prog R) (F : fs) : fs * list result * outcome R :=
  match q with
  | Ret r => (F, [], Returned r)
  | Raise e => (F, [], Raised e)
  | Give x k => let '(F', xs, o) := exec M (k None) F in (F', x :: xs, o)
  | Look k => exec M (k F) F
  | Write p c k => let (F', w) := after_write M F p c in exec M (k w) F'
  | Call m k => exec M (k (m_hook M m)) F
  | Stdin _ | Stdout _ _ => (F, [], Stopped)
  end.

(** ** Several processes

    trailrunner.run_iter runs _fixit_file_wrapper (api.py 222-235) for each path in some worker; all
    interleavings are allowed here, the real ones are among them. [t_es]: what the task did so far. *)
Inductive now := Running (q : prog unit) | Writing (w : path) (c : str) (k : res unit -> prog unit).
Record task := Task { t_path : path; t_es : list ev; t_now : now }.
Record pool := Pool { p_fs : fs; p_tasks : list task }.

Definition start_pool (T : tool) (ps : list path) (autofix : bool) (opts : option options) (hook : bool) (F : fs) : pool :=
  Pool F (map (fun p => Task p [] (Running (fixit_file T p autofix opts hook))) ps).

(** One step of one task. [ans]: the answers a result may get; list() in api.py 233 only gives None,
    a single process that is interactive may give any. *)
Inductive task_step (M : machine) (ans : option bool -> Prop) : fs -> task -> fs -> task -> Prop :=
| st_give : forall F p es x k a, ans a ->
    task_step M ans F (Task p es (Running (Give x k))) F (Task p (es ++ [EGive x a]) (Running (k a)))
| st_look : forall F p es k,
    task_step M ans F (Task p es (Running (Look k))) F (Task p (es ++ [ELook F]) (Running (k F)))
| st_call : forall F p es m k,
    task_step M ans F (Task p es (Running (Call m k))) F (Task p (es ++ [ECall m (m_hook M m)]) (Running (k (m_hook M m))))
| st_open : forall F p es w c k,                   (* the file is opened: it is empty now *)
    (forall e, m_write M w <> WFail e) ->
    task_step M ans F (Task p es (Running (Write w c k))) (upd F w []) (Task p es (Writing w c k))
| st_noopen : forall F p es w c k e, m_write M w = WFail e ->
    task_step M ans F (Task p es (Running (Write w c k))) F (Task p (es ++ [EWrite w c (Err e)]) (Running (k (Err e))))
| st_piece : forall F p es w c k n,                (* some of it is on the disk *)
    task_step M ans F (Task p es (Writing w c k)) (upd F w (firstn n c)) (Task p es (Writing w c k))
| st_close : forall F p es w c k,
    task_step M ans F (Task p es (Writing w c k)) (fst (after_write M F w c))
              (Task p (es ++ [EWrite w c (snd (after_write M F w c))]) (Running (k (snd (after_write M F w c))))).

Inductive pool_step (M : machine) (ans : option bool -> Prop) : pool -> pool -> Prop :=
| ps_task : forall F F' ts1 t t' ts2, task_step M ans F t F' t' ->
    pool_step M ans (Pool F (ts1 ++ t :: ts2)) (Pool F' (ts1 ++ t' :: ts2)).

(** Everything that can be observed when the run is interrupted at any time, in any schedule. *)
Inductive reach (M : machine) (ans : option bool -> Prop) (s : pool) : pool -> Prop :=
| reach_here : reach M ans s s
| reach_step : forall s1 s2, reach M ans s s1 -> pool_step M ans s1 s2 -> reach M ans s s2.

Definition done (t : task) : Prop := t_now t = Running (Ret tt).
