(** * Local: importing the rules of projects, in several threads at once (config.py 87-124, 139-142, 177-199)

    Modules of a project are imported as submodules of the package fixit.local, which is shared: its __path__ is set to the root of the project,
    and afterwards everything called fixit.local... is removed from sys.modules. *)
From Coq Require Import String List NArith ZArith Bool Arith.
From Verif Require Import Base PyStr Ftypes Paths.
Import ListNotations.

(** A module of a project: "fixit.local.a.b" is [a; b]; the package fixit.local itself is []. *)
Definition name := list str.
Definition name_eqb : name -> name -> bool := list_eqb str_eqb.

(** The projects, given by their root directories. *)
Record projects := Projects {
  l_load : path -> name -> res unit;            (* finding and executing a module in the directory of its parent: ImportError if there is none *)
  l_subs : path -> name -> list str }.          (* pkgutil.iter_modules(module.__path__) without packages; nothing if it is not a package *)

(** What the threads share. The object that the attribute [local] of the package fixit refers to is the one imported last; it is removed
    from sys.modules but not from the package.
    Simplification: modules of a project do not import each other while they are executed. *)
Record shared := Shared {
  s_there : bool;                               (* "fixit.local" in sys.modules *)
  s_path : option path;                         (* fixit.local.__path__; None: the directory of the installed package, in which there is no module *)
  s_mods : list (name * path) }.                (* the other modules fixit.local.* of sys.modules, with the project they come from *)

Definition entry (s : shared) (n : name) : option path :=
  match find (fun x => name_eqb (fst x) n) (s_mods s) with Some x => Some (snd x) | None => None end.

(** "is it in sys.modules": for the package of a module *)
Definition there (s : shared) (n : name) : bool :=
  match n with [] => s_there s | _ => match entry s n with Some _ => true | None => false end end.

(** The __path__ to look for the submodules of [n] in, as the project; KeyError: not in sys.modules *)
Definition package (s : shared) (n : name) : res (option path) :=
  match n with
  | [] => if s_there s then Ok (s_path s) else Err KeyError
  | _ => match entry s n with Some r => Ok (Some r) | None => Err KeyError end
  end.

(** Where the import of the rules of a module is. [wait]: modules of which this is the package, to be imported after it; [acc]: the modules
    imported so far, whose rules are collected; [todo]: the submodules left, None while the module itself is being imported. *)
Inductive place :=
| Entering                                                                          (* 105: import fixit.local *)
| Setting                                                                           (* 107-118: fixit.local.__path__ = [root] *)
| Needing (n : name) (wait : list name) (acc : list (name * path)) (todo : option (list name))                (* import_module: is it in sys.modules *)
| Loading (n : name) (wait : list name) (acc : list (name * path)) (todo : option (list name))                (* its package has been imported *)
| Binding (n : name) (root : path) (wait : list name) (acc : list (name * path)) (todo : option (list name))  (* setattr(sys.modules[package], ...) *)
| Leaving (r : res (list (name * path)))                                            (* 122: list(sys.modules) *)
| Purging (keys : list name) (r : res (list (name * path)))                         (* 123-124 *)
| Over (r : res (list (name * path))).

Record request := Request { q_root : path; q_name : name; q_place : place }.

(** 188-197: the next submodule *)
Definition continue (acc : list (name * path)) (todo : list name) : place :=
  match todo with [] => Leaving (Ok acc) | t :: ts => Needing t [] acc (Some ts) end.

(** The module [n] has been imported, from the project [root] *)
Definition imported (P : projects) (n : name) (root : path) (wait : list name) (acc : list (name * path)) (todo : option (list name)) : place :=
  match wait with
  | w :: ws => Loading w ws acc todo
  | [] => continue (acc ++ [(n, root)])
            (match todo with None => map (fun x => n ++ [x]) (l_subs P root n) | Some ts => ts end)
  end.

Definition keys_of (s : shared) : list name := (if s_there s then [[]] else []) ++ map fst (s_mods s).
Definition named_in (keys : list name) (n : name) : bool := existsb (name_eqb n) keys.

(** The next step of a request, None if it is over. *)
Definition act (P : projects) (s : shared) (q : request) : option (shared * request) :=
  let at_ p := Request (q_root q) (q_name q) p in
  match q_place q with
  | Entering => Some (if s_there s then s else Shared true None (s_mods s), at_ Setting)
  | Setting => Some (Shared (s_there s) (Some (q_root q)) (s_mods s), at_ (Needing (q_name q) [] [] None))
  | Needing n wait acc todo =>
      match entry s n with
      | Some r => Some (s, at_ (imported P n r wait acc todo))
      | None =>
          if there s (removelast n) then Some (s, at_ (Loading n wait acc todo))
          else match removelast n with
               | [] => Some (Shared true None (s_mods s), at_ (Loading n wait acc todo))    (* fixit.local is imported afresh *)
               | p => Some (s, at_ (Needing p (n :: wait) acc todo))
               end
      end
  | Loading n wait acc todo =>
      match entry s n with
      | Some r => Some (s, at_ (imported P n r wait acc todo))
      | None =>
          match package s (removelast n) with
          | Err e => Some (s, at_ (Leaving (Err e)))
          | Ok None => Some (s, at_ (Leaving (Err ImportError)))
          | Ok (Some r) =>
              match l_load P r n with
              | Err e => Some (s, at_ (Leaving (Err e)))
              | Ok _ => Some (Shared (s_there s) (s_path s) ((n, r) :: s_mods s), at_ (Binding n r wait acc todo))
              end
          end
      end
  | Binding n r wait acc todo =>
      if there s (removelast n) then Some (s, at_ (imported P n r wait acc todo)) else Some (s, at_ (Leaving (Err KeyError)))
  | Leaving r => Some (s, at_ (Purging (keys_of s) r))
  | Purging keys r =>
      Some (Shared (s_there s && negb (named_in keys [])) (s_path s) (filter (fun x => negb (named_in keys (fst x))) (s_mods s)), at_ (Over r))
  | Over _ => None
  end.

(** Several requests; a schedule says whose turn it is. *)
Record many := Many { m_shared : shared; m_requests : list request }.

(** At first nothing of fixit.local is imported; [p] is left from an earlier time. *)
Definition start (p : option path) (ts : list (path * name)) : many :=
  Many (Shared false p []) (map (fun t => Request (fst t) (snd t) Entering) ts).

Definition turn (P : projects) (m : many) (i : nat) : option many :=
  match nth_error (m_requests m) i with
  | None => None
  | Some q => match act P (m_shared m) q with
              | None => None
              | Some (s, q') => Some (Many s (firstn i (m_requests m) ++ q' :: skipn (S i) (m_requests m)))
              end
  end.

Fixpoint turns (P : projects) (m : many) (l : list nat) : option many :=
  match l with
  | [] => Some m
  | i :: l' => match turn P m i with Some m' => turns P m' l' | None => None end
  end.
