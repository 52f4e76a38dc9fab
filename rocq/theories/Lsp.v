(** * Lsp: the language server (fixit/lsp.py) *)
From Coq Require Import String List NArith ZArith Bool Arith.
From Verif Require Import Base PyStr Ftypes Paths Config Suppress Cst Engine Api.
Import ListNotations.
Set Implicit Arguments.

Definition uri := str.

(** lsprotocol: positions, diagnostics (severity and source are constants, left out) and edits *)
Record diagnostic := Diagnostic { g_range : range; g_message : str; g_code : str }.
Record edit := Edit { e_range : range; e_text : str }.

(** The surroundings of the server: how URIs name files, how text is encoded ([str.encode()],
    [bytes.decode()]), the options, and the interval of the debouncer. *)
Record server := Server {
  z_tool : tool;
  z_path : uri -> option path;        (* Path(Uri.to_fs_path(uri)), None if that is empty *)
  z_encode : str -> res str;
  z_decode : str -> res str;
  z_options : options;
  z_interval : N }.                   (* 0 for an interval <= 0 *)

(** ** What a request does

    Every constructor is an action that other threads may come in between: reading the document from
    the workspace of pygls, looking into the configuration cache, looking at the file system, storing
    into and reading from the cache, sending diagnostics, answering the request. *)
Inductive job :=
| JEnd (r : res unit)
| JDoc (k : res str -> job)
| JHas (p : path) (k : bool -> job)
| JLook (k : fs -> job)
| JStore (p : path) (c : config) (k : job)
| JFetch (p : path) (k : option config -> job)
| JPublish (version : Z) (ds : list diagnostic) (k : job)
| JReply (e : option edit) (k : job).

Definition jlift {A} (r : res A) (k : A -> job) : job :=
  match r with Ok a => k a | Err e => JEnd (Err e) end.

(** lsp.py 57-63 [load_config] *)
Definition load_config (S : server) (p : path) (k : config -> job) : job :=
  let fetch := JFetch p (fun c => match c with Some c => k c | None => JEnd (Err KeyError) end) in
  JHas p (fun b =>
    if b then fetch
    else JLook (fun F => jlift (generate_config (t_env (z_tool S)) F p None (Some (z_options S)))
                               (fun c => JStore p c fetch))).

(** Running a generator to its end, with [None] as the answer to every result, collecting the
    results. fixit_bytes without metrics neither writes nor uses standard input, output or the hook. *)
Fixpoint drain {R} (g : prog R) (acc : list result) (k : list result -> R -> job) : job :=
  match g with
  | Ret r => k acc r
  | Raise e => JEnd (Err e)
  | Give x g' => drain (g' None) (acc ++ [x]) k
  | Look g' => JLook (fun F => drain (g' F) acc k)
  | Write _ _ _ | Stdin _ | Stdout _ _ | Call _ _ => JEnd (Err (OtherError 0))
  end.

(** lsp.py 65-83 [diagnostic_generator], and running what it returns *)
Definition with_results (S : server) (uri : uri) (autofix : bool) (none : job)
    (k : list result -> option str -> job) : job :=
  match z_path S uri with
  | None => none
  | Some p =>
      JDoc (fun t => jlift t (fun text => jlift (z_encode S text) (fun content =>
        load_config S p (fun cfg => drain (fixit_bytes (z_tool S) p content cfg autofix false) [] k))))
  end.

(** lsp.py 94-111: one diagnostic *)
Definition diagnostic_of (v : viol) : diagnostic :=
  let r := v_range v in
  Diagnostic (Range (Pos (line (rstart r) - 1) (column (rstart r))) (Pos (line (rend r) - 1) (column (rend r))))
             (v_message v) (v_rule v).

(** lsp.py 85-112 [_validate] *)
Definition validate_job (S : server) (uri : uri) (version : Z) : job :=
  with_results S uri false (JEnd (Ok tt)) (fun xs _ =>
    JPublish version (flat_map (fun x => match x_violation x with Some v => [diagnostic_of v] | None => [] end) xs)
      (JEnd (Ok tt))).

(** [str.splitlines(keepends=True)] *)
Definition is_linebreak (c : N) : bool :=
  ((10 <=? c) && (c <=? 13) || (28 <=? c) && (c <=? 30) || (c =? 133) || (c =? 8232) || (c =? 8233))%N.

Fixpoint splitlines (s : str) : list str :=
  match s with
  | [] => []
  | [c] => [[c]]
  | c :: ((d :: s'') as s') =>
      if (c =? 13)%N && (d =? 10)%N then [c; d] :: splitlines s''
      else if is_linebreak c then [c] :: splitlines s'
      else match splitlines s' with
           | h :: t => (c :: h) :: t
           | [] => [[c]]
           end
  end.

(** lsp.py 135-138: the range of the edit. [doc.lines] is [source.splitlines(True)]. *)
Definition entire_range (lines : list str) : res range :=
  match rev lines with
  | [] => Err IndexError
  | last :: _ => Ok (Range (Pos 0 0) (Pos (Z.of_nat (List.length lines) - 1) (Z.of_nat (List.length last))))
  end.

(** lsp.py 122-140 [format]. Simplification: a document that is not open is read from the disk once
    here, not for each access to [doc.lines]. *)
Definition format_job (S : server) (uri : uri) : job :=
  with_results S uri true (JReply None (JEnd (Ok tt))) (fun _ r =>
    match r with
    | None | Some [] => JReply None (JEnd (Ok tt))
    | Some c =>
        JDoc (fun t => jlift t (fun text => jlift (entire_range (splitlines text)) (fun rg =>
          jlift (z_decode S c) (fun new => JReply (Some (Edit rg new)) (JEnd (Ok tt))))))
    end).

(** ** The server: documents, configuration cache, timers and threads *)

(** lsp.py 155-168 [Debouncer] and threading.Timer. A timer that is due starts its function unless
    cancelled before; then cancelling has no effect. *)
Inductive tstate := Waiting | Cancelled | Started.
Record timer := Timer { tm_version : Z; tm_due : N; tm_state : tstate }.

(** What a job has done so far. *)
Inductive jev :=
| VDoc (t : res str)
| VHas (p : path) (b : bool)
| VLooked (F : fs)
| VStored (p : path) (c : config)
| VFetched (p : path) (c : option config)
| VPublished (version : Z) (ds : list diagnostic)
| VReplied (e : option edit).

(** A thread: its job, what it has done and what is left of the job. *)
Record thread := Thread { h_job : job; h_done : list jev; h_now : job }.

(** Everything of one document: its text if it is open, timers, threads, what was sent to the client. *)
Record document := Document {
  d_text : option str;
  d_timers : list timer;
  d_threads : list thread;
  d_published : list (Z * list diagnostic) }.

Record state := State {
  q_now : N;                             (* the clock *)
  q_fs : fs;
  q_docs : uri -> document;
  q_cache : path -> option config;
  q_main : option (uri * nat) }.         (* the thread the main thread is busy with *)

Definition no_document : document := Document None [] [] [].
Definition init (F : fs) : state := State 0 F (fun _ => no_document) (fun _ => None) None.

(** What can happen. *)
Inductive label :=
| Tick (n : N)                           (* time passes *)
| Files (F : fs)                         (* some program changes files *)
| SetText (u : uri) (t : option str)     (* the client edits, opens or closes a document *)
| Change (u : uri) (version : Z)         (* didOpen or didChange arrives: lsp.py 116-120 *)
| Format (u : uri)                       (* a formatting request arrives: lsp.py 122 *)
| Start (u : uri) (i : nat)              (* the i-th timer of the document fires *)
| Act (u : uri) (i : nat).               (* the i-th thread of the document does its next action *)

Definition set_doc (q : state) (u : uri) (d : document) : state :=
  State (q_now q) (q_fs q) (fun u' => if str_eqb u' u then d else q_docs q u') (q_cache q) (q_main q).
Definition set_main (q : state) (m : option (uri * nat)) : state :=
  State (q_now q) (q_fs q) (q_docs q) (q_cache q) m.
Definition set_cache (q : state) (p : path) (c : config) : state :=
  State (q_now q) (q_fs q) (q_docs q) (fun p' => if path_eqb p' p then Some c else q_cache q p') (q_main q).

Definition set_text (t : option str) (d : document) : document := Document t (d_timers d) (d_threads d) (d_published d).
Definition set_timers (l : list timer) (d : document) : document := Document (d_text d) l (d_threads d) (d_published d).
Definition set_threads (l : list thread) (d : document) : document := Document (d_text d) (d_timers d) l (d_published d).
Definition publish (x : Z * list diagnostic) (d : document) : document :=
  Document (d_text d) (d_timers d) (d_threads d) (d_published d ++ [x]).

Definition spawn (j : job) (d : document) : document := set_threads (d_threads d ++ [Thread j [] j]) d.

(** [timer.cancel()]: no effect once the function has started *)
Definition cancel (t : timer) : timer :=
  match tm_state t with Waiting => Timer (tm_version t) (tm_due t) Cancelled | _ => t end.

Definition update_nth {A} (n : nat) (f : A -> A) (l : list A) : list A :=
  firstn n l ++ match skipn n l with x :: r => f x :: r | [] => [] end.

(** lsp.py 162-168: the debouncer keeps its last timer, cancels it and starts a new one. *)
Definition debounced (interval now : N) (version : Z) (l : list timer) : list timer :=
  update_nth (List.length l - 1) cancel l ++ [Timer version (now + interval) Waiting].

(** pygls: the text of an open document; otherwise the file is read *)
Definition source (S : server) (q : state) (u : uri) : res str :=
  match d_text (q_docs q u) with
  | Some t => Ok t
  | None => match z_path S u with
            | None => Err OSError
            | Some p => match f_file (q_fs q) p with Some b => z_decode S b | None => Err OSError end
            end
  end.

(** The next action of a thread: what it did, what is left, and the new state without that. *)
Definition act (S : server) (q : state) (u : uri) (j : job) : option (jev * job * state) :=
  match j with
  | JEnd _ => None
  | JDoc k => Some (VDoc (source S q u), k (source S q u), q)
  | JHas p k => let b := match q_cache q p with Some _ => true | None => false end in Some (VHas p b, k b, q)
  | JLook k => Some (VLooked (q_fs q), k (q_fs q), q)
  | JStore p c k => Some (VStored p c, k, set_cache q p c)
  | JFetch p k => Some (VFetched p (q_cache q p), k (q_cache q p), q)
  | JPublish v ds k => Some (VPublished v ds, k, set_doc q u (publish (v, ds) (q_docs q u)))
  | JReply e k => Some (VReplied e, k, q)
  end.

Definition ended (j : job) : bool := match j with JEnd _ => true | _ => false end.

(** The main thread waits for the thread it is busy with. *)
Definition release (u : uri) (i : nat) (j : job) (q : state) : state :=
  match q_main q with
  | Some (u', i') => if str_eqb u u' && Nat.eqb i i' && ended j then set_main q None else q
  | None => q
  end.

(** A request that the main thread handles itself: it is busy unless that has ended at once. *)
Definition on_main (u : uri) (j : job) (q : state) : state :=
  let d := q_docs q u in
  let q := set_doc q u (spawn j d) in
  if ended j then q else set_main q (Some (u, List.length (d_threads d))).

(** One step; None if it is not possible. *)
Definition step (S : server) (q : state) (l : label) : option state :=
  match l with
  | Tick n => Some (State (q_now q + n) (q_fs q) (q_docs q) (q_cache q) (q_main q))
  | Files F => Some (State (q_now q) F (q_docs q) (q_cache q) (q_main q))
  | SetText u t => match q_main q with Some _ => None | None => Some (set_doc q u (set_text t (q_docs q u))) end
  | Change u v =>
      match q_main q with
      | Some _ => None
      | None =>
          (* lsp.py 171-183 [debounce] *)
          if (z_interval S =? 0)%N then Some (on_main u (validate_job S u v) q)
          else let d := q_docs q u in
               Some (set_doc q u (set_timers (debounced (z_interval S) (q_now q) v (d_timers d)) d))
      end
  | Format u => match q_main q with Some _ => None | None => Some (on_main u (format_job S u) q) end
  | Start u i =>
      let d := q_docs q u in
      match nth_error (d_timers d) i with
      | Some (Timer v due Waiting) =>
          if (due <=? q_now q)%N
          then Some (set_doc q u (spawn (validate_job S u v)
                 (set_timers (update_nth i (fun t => Timer (tm_version t) (tm_due t) Started) (d_timers d)) d)))
          else None
      | _ => None
      end
  | Act u i =>
      match nth_error (d_threads (q_docs q u)) i with
      | None => None
      | Some (Thread j es now) =>
          match act S q u now with
          | None => None
          | Some (e, j', q') =>
              let d := q_docs q' u in
              Some (release u i j' (set_doc q' u (set_threads (update_nth i (fun _ => Thread j (es ++ [e]) j') (d_threads d)) d)))
          end
      end
  end.

Fixpoint steps (S : server) (q : state) (h : list label) : option state :=
  match h with
  | [] => Some q
  | l :: h' => match step S q l with Some q' => steps S q' h' | None => None end
  end.
