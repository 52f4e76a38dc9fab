(** * Vocabulary for the properties of the language server

    A history is the list of everything that happened: time passing, files and documents changing,
    notifications and requests arriving, timers firing and threads acting. *)
From Coq Require Import String List NArith ZArith Bool Arith.
From Verif Require Import Base PyStr Ftypes Paths Config Suppress Cst Engine Api ApiSpec Lsp.
Import ListNotations.
Set Implicit Arguments.

(** [h] can happen, starting with an empty server, and leads to [q]. *)
Definition reaches (S : server) (F : fs) (h : list label) (q : state) : Prop := steps S (init F) h = Some q.
Definition possible (S : server) (q : state) (l : label) : Prop := step S q l <> None.

(** How much time has passed. *)
Definition clock (h : list label) : N :=
  fold_right (fun l n => match l with Tick k => (k + n)%N | _ => n end) 0%N h.

(** The versions of a document announced so far. *)
Definition changes (u : uri) (h : list label) : list Z :=
  flat_map (fun l => match l with Change u' v => if str_eqb u' u then [v] else [] | _ => [] end) h.

(** The last change of a document came at time [t]. *)
Definition last_change (u : uri) (h : list label) (t : N) : Prop :=
  exists h1 v h2, h = h1 ++ Change u v :: h2 /\ clock h1 = t /\ changes u h2 = [].

(** What concerns a document: its own events, and time and files. *)
Definition about (u : uri) (l : label) : bool :=
  match l with
  | Tick _ | Files _ => true
  | SetText u' _ | Change u' _ | Format u' | Start u' _ | Act u' _ => str_eqb u' u
  end.

(** What there is to know about a document: the time and the files, its text, timers, threads and
    published diagnostics, its configuration, and whether the main thread works on it. *)
Definition view (S : server) (q : state) (u : uri) :=
  (q_now q, q_fs q, q_docs q u,
   match z_path S u with Some p => q_cache q p | None => None end,
   match q_main q with Some (u', i) => if str_eqb u' u then Some i else None | None => None end).

(** No other URI names the same file. *)
Definition own_file (S : server) (u : uri) : Prop :=
  forall u' p, z_path S u = Some p -> z_path S u' = Some p -> u' = u.

(** Executions of a job, by itself: whatever it is told about documents, files and the cache. *)
Inductive did : job -> list jev -> job -> Prop :=
| did_nothing : forall j, did j [] j
| did_doc : forall t k es j, did (k t) es j -> did (JDoc k) (VDoc t :: es) j
| did_has : forall p b k es j, did (k b) es j -> did (JHas p k) (VHas p b :: es) j
| did_look : forall F k es j, did (k F) es j -> did (JLook k) (VLooked F :: es) j
| did_store : forall p c k es j, did k es j -> did (JStore p c k) (VStored p c :: es) j
| did_fetch : forall p c k es j, did (k c) es j -> did (JFetch p k) (VFetched p c :: es) j
| did_publish : forall v ds k es j, did k es j -> did (JPublish v ds k) (VPublished v ds :: es) j
| did_reply : forall e k es j, did k es j -> did (JReply e k) (VReplied e :: es) j.

(** The diagnostics for results: one per violation, in order; lines count from 0. *)
Definition shows (v : viol) (g : diagnostic) : Prop :=
  g_message g = v_message v /\ g_code g = v_rule v /\
  (line (rstart (g_range g)) + 1 = line (rstart (v_range v)))%Z /\
  (line (rend (g_range g)) + 1 = line (rend (v_range v)))%Z /\
  column (rstart (g_range g)) = column (rstart (v_range v)) /\
  column (rend (g_range g)) = column (rend (v_range v)).

Definition violations (xs : list result) : list viol :=
  flat_map (fun x => match x_violation x with Some v => [v] | None => [] end) xs.

(** At some time in [h] the file system was [F], the document had text [t]. *)
Definition was_fs (S : server) (F0 : fs) (h : list label) (F : fs) : Prop :=
  exists h1 h2 q, h = h1 ++ h2 /\ reaches S F0 h1 q /\ q_fs q = F.
Definition was_text (S : server) (F0 : fs) (h : list label) (u : uri) (t : str) : Prop :=
  exists h1 h2 q, h = h1 ++ h2 /\ reaches S F0 h1 q /\ source S q u = Ok t.

(** The server had [c] as the configuration of [p]; [c] is what the files gave at some time. *)
Definition was_cached (S : server) (F0 : fs) (h : list label) (p : path) (c : config) : Prop :=
  exists h1 h2 q, h = h1 ++ h2 /\ reaches S F0 h1 q /\ q_cache q p = Some c.
Definition from_files (S : server) (F0 : fs) (h : list label) (p : path) (c : config) : Prop :=
  exists F, was_fs S F0 h F /\ generate_config (t_env (z_tool S)) F p None (Some (z_options S)) = Ok c.

(** There is nothing left to do. *)
Definition over (j : job) : Prop := exists r, j = JEnd r.

(** A thread has not ended. *)
Definition active (d : document) (i : nat) : Prop :=
  exists t, nth_error (d_threads d) i = Some t /\ ~ over (h_now t).

(** Never do two threads overlap: of one document, of documents that are the same file. *)
Definition no_overlap_of (S : server) (F : fs) (h : list label) (u : uri) : Prop :=
  forall h1 h2 q i j, h = h1 ++ h2 -> reaches S F h1 q ->
    active (q_docs q u) i -> active (q_docs q u) j -> i = j.
Definition no_overlap_on (S : server) (F : fs) (h : list label) (p : path) : Prop :=
  forall h1 h2 q u i u' j, h = h1 ++ h2 -> reaches S F h1 q -> z_path S u = Some p -> z_path S u' = Some p ->
    active (q_docs q u) i -> active (q_docs q u') j -> u = u' /\ i = j.

Inductive subseq {A} : list A -> list A -> Prop :=
| sub_nil : forall l, subseq [] l
| sub_take : forall x l l', subseq l l' -> subseq (x :: l) (x :: l')
| sub_skip : forall x l l', subseq l l' -> subseq l (x :: l').

(** The line end at the end of a text. *)
Fixpoint ending (s : str) : str :=
  match s with
  | [] => []
  | [c] => if (c =? 10)%N || (c =? 13)%N then [c] else []
  | c :: ((d :: s'') as s') => match s'' with
                               | [] => if (c =? 13)%N && (d =? 10)%N then [c; d] else ending s'
                               | _ => ending s'
                               end
  end.

(** ** Applying an edit, as the protocol says

    Lines end with \n, \r\n or \r. A character position counts UTF-16 code units; if it is greater
    than the length of the line (without its end) it means the end of the line. *)
Definition units (c : N) : Z := if (c <? 65536)%N then 1 else 2.

(** The number of code points before position [n] of a line. *)
Fixpoint upto (n : Z) (s : str) : nat :=
  match s with
  | [] => 0
  | c :: s' => if (c =? 10)%N || (c =? 13)%N then 0
               else if (units c <=? n)%Z then S (upto (n - units c) s') else 0
  end.

(** The offset of a position; a line after the last one means the end. *)
Fixpoint offset (l : nat) (n : Z) (s : str) : nat :=
  match l, s with
  | O, _ => upto n s
  | S _, [] => 0
  | S l', c :: s' =>
      if (c =? 13)%N then match s' with
                          | d :: s'' => if (d =? 10)%N then 2 + offset l' n s'' else 1 + offset l' n s'
                          | [] => 1
                          end
      else if (c =? 10)%N then 1 + offset l' n s' else 1 + offset l n s'
  end.

Definition apply_edit (e : edit) (s : str) : str :=
  let at_ p := offset (Z.to_nat (line p)) (column p) s in
  firstn (at_ (rstart (e_range e))) s ++ e_text e ++ skipn (at_ (rend (e_range e))) s.
