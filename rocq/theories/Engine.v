(** * Engine: running rules and applying fixes (fixit/engine.py) *)
From Coq Require Import String List NArith Bool Arith.
From Verif Require Import Base Suppress Cst.
Import ListNotations.
Set Implicit Arguments.

Notation viol := (violation N repl).
Notation rule := (rule_inst N repl).

(** [bool(replacement)]: an empty FlattenSentinel is false, being a sequence; ftypes.py 269-274
    [LintViolation.autofixable] *)
Definition truthy_repl (r : option repl) : bool :=
  match r with None | Some (RFlat []) => false | _ => true end.

Definition autofixable (v : viol) : bool := truthy_repl (v_replacement v).

(** engine.py 124 [{v.node: v.replacement for v in violations if v.replacement}] *)
Definition set_repl (d : N -> option repl) (v : viol) : N -> option repl :=
  if autofixable v then fun n => if N.eqb n (v_node v) then v_replacement v else d n else d.

Definition replacements (vs : list viol) : N -> option repl := fold_left set_repl vs (fun _ => None).

(** engine.py 120-138 [LintRunner.apply_replacements]; [None] when the result is not a module *)
Definition apply_replacements (m : module) (vs : list viol) : res (option module) :=
  visit_module (replacements vs) m.

(** [CSTNode.deep_replace(old, new)] of LibCST: its transformer does not visit the children of
    [old] and returns [new] for it *)
Definition deep_replace (m : module) (old : N) (new : repl) : res (option module) :=
  visit_module (fun n => if N.eqb n old then Some new else None) m.

(** engine.py 32-48 [diff_violation]; [udiff] is moreorless.unified_diff for the file's name.
    Called with a true replacement only. *)
Definition diff_violation (udiff : str -> str -> str) (m : module) (old : N) (new : repl) : res str :=
  let! r := deep_replace m old new in
  match r with
  | Some m' => Ok (udiff (code m) (code m'))
  | None => Err AssertionError
  end.

(** ** collect_violations *)

Definition metrics := dict nat.
Inductive event := Yield (v : viol) | Hook (m : metrics).

Definition count_key (name : str) : str := u "Count." ++ name.
Definition fix_key (name : str) : str := u "FixCount." ++ name.

Definition bump (k : str) (m : metrics) : metrics :=
  dset k (S (match dget k m with Some n => n | None => 0 end)) m.

Definition with_diff (v : viol) (d : str) : viol :=
  Violation (v_rule v) (v_range v) (v_message v) (v_node v) (v_replacement v) d.

(** engine.py 104-112: the violations of one rule *)
Fixpoint yield_all (udiff : str -> str -> str) (md : module) (name : str) (vs : list viol)
    (m : metrics) (count : nat) : list event * res (metrics * nat) :=
  match vs with
  | [] => ([], Ok (m, count))
  | v :: vs' =>
      let go v m := let (evs, r) := yield_all udiff md name vs' m (S count) in (Yield v :: evs, r) in
      match v_replacement v with
      | Some r =>
          if truthy_repl (Some r) then
            match diff_violation udiff md (v_node v) r with
            | Ok d => go (with_diff v d) (bump (fix_key name) m)
            | Err e => ([], Err e)
            end
          else go v m
      | None => go v m
      end
  end.

(** engine.py 100-112: all rules *)
Fixpoint yield_rules (udiff : str -> str -> str) (md : module) (rules : list rule)
    (m : metrics) (count : nat) : list event * res (metrics * nat) :=
  match rules with
  | [] => ([], Ok (m, count))
  | r :: rules' =>
      let m := dset (fix_key (r_name r)) 0 (dset (count_key (r_name r)) (List.length (r_violations r)) m) in
      match yield_all udiff md (r_name r) (r_violations r) m count with
      | (evs, Err e) => (evs, Err e)
      | (evs, Ok (m, count)) => let (evs', res) := yield_rules udiff md rules' m count in (evs ++ evs', res)
      end
  end.

(** engine.py 57-118 [LintRunner.collect_violations]: the events of the generator and its return
    value or exception, when it is run to the end. [visited] is the outcome of setting up metadata
    and of visit_batched (engine.py 81-98): the rules with the violations they reported and the
    metrics with the visitors' durations; [hook]: whether a metrics hook is given. *)
Definition collect_violations (udiff : str -> str -> str) (md : module)
    (visited : res (list rule * metrics)) (hook : bool) : list event * res nat :=
  match visited with
  | Err e => ([], Err e)
  | Ok (rules, m) =>
      match yield_rules udiff md rules m 0 with
      | (evs, Err e) => (evs, Err e)
      | (evs, Ok (m, count)) =>
          let m := dset (count_key (u "Total")) count m in
          (evs ++ (if hook then [Hook m] else []), Ok count)
      end
  end.
