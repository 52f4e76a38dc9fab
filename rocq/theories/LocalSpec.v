(** * What importing the rules of a project should give *)
From Coq Require Import String List NArith ZArith Bool Arith.
From Verif Require Import Base PyStr Ftypes Paths Local.
Import ListNotations.

(** The packages that a module is in, from the outside, and the module: [a], [a; b], [a; b; c] for [a; b; c]. *)
Definition prefixes (n : name) : list name := map (fun k => firstn (S k) n) (seq 0 (List.length n)).

(** The modules whose rules are collected for module [n] of the project [root]: the module and its submodules, all from this project. *)
Definition local_modules (P : projects) (root : path) (n : name) : res (list (name * path)) :=
  let! _ := map_res (l_load P root) (prefixes n) in
  let! subs := map_res (fun x => let! _ := l_load P root x in Ok (x, root)) (map (fun s => n ++ [s]) (l_subs P root n)) in
  Ok ((n, root) :: subs).

(** Everything that can happen with requests for modules of projects. *)
Definition happens (P : projects) (p : option path) (ts : list (path * name)) (m : many) : Prop := exists l, turns P (start p ts) l = Some m.

Definition result_of (q : request) : option (res (list (name * path))) := match q_place q with Over r => Some r | _ => None end.

(** The request has not begun or is over. *)
Definition idle (q : request) : Prop := q_place q = Entering \/ exists r, q_place q = Over r.

(** Nothing of fixit.local is in sys.modules. *)
Definition clean (s : shared) : Prop := s_there s = false /\ s_mods s = [].

(** The module and all the packages it is in can be loaded from the project. *)
Definition loadable (P : projects) (root : path) (n : name) : Prop := forall p, In p (prefixes n) -> l_load P root p = Ok tt.
