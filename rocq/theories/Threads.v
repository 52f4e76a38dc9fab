(** * Threads: rules collected for several requests at once (config.py 202-272, util.py 73-91)

    The language server lints in threads (lsp.py 155-168), which share sys.path and sys.modules. *)
From Coq Require Import String List NArith ZArith Bool Arith.
From Verif Require Import Base PyStr Ftypes Paths Config Collect.
Import ListNotations.

(** What a call of collect_rules has got so far: all_rules, named_enables, disabled_rules *)
Record got := Got { g_all : list cls; g_named : list cls; g_disabled : reasons }.

(** Where a call of collect_rules is. One step is one access to sys.path or one call of find_rules.
    Simplification: other threads do not come in between while find_rules runs; for local rules see Local.v. *)
Inductive place :=
| Testing                                                                   (* util.py 83: the test *)
| Appending (d : str)                                                       (* util.py 84: it was not there *)
| Inside (own : option str) (g : got) (enable disable : list qrule)         (* config.py 228-270; [own]: to be removed at the end *)
| Removing (d : str) (r : list cls * reasons)                               (* util.py 86 *)
| Over (r : res (list cls * reasons)) (leaked : option str).                (* [leaked]: not removed because of an exception *)

Record request := Request { q_config : config; q_place : place }.

(** config.py 254-270: what comes after importing *)
Definition select (W : world) (c : config) (g : got) : res (list cls * reasons) :=
  let '(all, d) := filter_tags W (c_tags c) (g_all g) (g_disabled g) in
  let! '(all, d) := filter_version W (c_python c) all d in
  let ks := w_iter W all in
  let! _ := map_res (fun k => w_new W (fst k)) ks in
  Ok (ks, d).

Definition keep (s : cstate) : got := Got (cs_all s) (cs_named s) (cs_disabled s).
Definition take (g : got) (py : pystate) : cstate := CState (g_all g) (g_named g) (g_disabled g) py.

(** The next step of a request, None if it is over. *)
Definition act (W : world) (py : pystate) (q : request) : option (pystate * request) :=
  let c := q_config q in
  match q_place q with
  | Testing =>
      Some (py, Request c
        (match import_dir W c with
         | None => Inside None (Got [] [] []) (c_enable c) (c_disable c)
         | Some d => if existsb (str_eqb d) (ps_path py) then Inside None (Got [] [] []) (c_enable c) (c_disable c) else Appending d
         end))
  | Appending d =>
      Some (PyState (ps_path py ++ [d]) (ps_modules py) (ps_gen py), Request c (Inside (Some d) (Got [] [] []) (c_enable c) (c_disable c)))
  | Inside own g (x :: en) dis =>
      let s := enable_one W (take g py) x in Some (cs_py s, Request c (Inside own (keep s) en dis))
  | Inside own g [] (x :: dis) =>
      let s := disable_one W (take g py) x in Some (cs_py s, Request c (Inside own (keep s) [] dis))
  | Inside own g [] [] =>
      Some (py, Request c
        (match select W c g with
         | Err e => Over (Err e) own
         | Ok r => match own with Some d => Removing d r | None => Over (Ok r) None end
         end))
  | Removing d r =>
      (* list.remove raises ValueError if there is no such element *)
      if existsb (str_eqb d) (ps_path py)
      then Some (PyState (remove_first d (ps_path py)) (ps_modules py) (ps_gen py), Request c (Over (Ok r) None))
      else Some (py, Request c (Over (Err ValueError) None))
  | Over _ _ => None
  end.

(** Several requests; a schedule says whose turn it is. *)
Record many := Many { m_py : pystate; m_requests : list request }.

Definition start (py : pystate) (cs : list config) : many := Many py (map (fun c => Request c Testing) cs).

Definition turn (W : world) (m : many) (i : nat) : option many :=
  match nth_error (m_requests m) i with
  | None => None
  | Some q => match act W (m_py m) q with
              | None => None
              | Some (py, q') => Some (Many py (firstn i (m_requests m) ++ q' :: skipn (S i) (m_requests m)))
              end
  end.

Fixpoint turns (W : world) (m : many) (l : list nat) : option many :=
  match l with
  | [] => Some m
  | i :: l' => match turn W m i with Some m' => turns W m' l' | None => None end
  end.
