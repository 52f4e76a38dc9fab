(** * Upgrade: the rules of [fixit upgrade] (fixit/upgrade) *)
From Coq Require Import String List NArith Bool Arith.
From Verif Require Import Base PyStr Py Classes Imports.
Import ListNotations.
Set Implicit Arguments.

(** ** deprecated_import.py *)

(** 23-28 [DEPRECATIONS] *)
Definition deprecations : list (str * (str * str)) :=
  [(u "fixit.CstLintRule", (u "CstLintRule", u "LintRule"));
   (u "fixit.CSTLintRule", (u "CSTLintRule", u "LintRule"));
   (u "fixit.InvalidTestCase", (u "InvalidTestCase", u "Invalid"));
   (u "fixit.ValidTestCase", (u "ValidTestCase", u "Valid"))].

(** 94-115: the replacement of one alias of [from module import ...]. Only the name of the module is looked at. *)
Definition deprecated_alias (module : str) (a : alias) : option alias :=
  match dget (module ++ u "." ++ al_name a) deprecations with
  | Some (_, new_name) =>
      Some (Alias new_name (match al_as a with
                            | Some y => if str_eqb y new_name then None else Some y
                            | None => None
                            end))
  | None => None
  end.

(** 90-115 visit_ImportFrom *)
Definition deprecated_imports (i : import_from) : list (alias * alias) :=
  match f_module i, f_names i with
  | Some [module], Some l => flat_map (fun a => match deprecated_alias module a with Some a' => [(a, a')] | None => [] end) l
  | _, _ => []
  end.

(** 117-131 visit_Name: [names] is the set of fully qualified names, in the order in which [pop] returns them. *)
Definition deprecated_name (names : list str) (x : str) : option str :=
  match names with
  | q :: _ => match dget q deprecations with
              | Some (old_name, new_name) => if str_eqb x old_name then Some new_name else None
              | None => None
              end
  | [] => None
  end.

(** ** remove_rule_suffix.py 54-63: the bases with their metadata (None: no set); [pop] of an empty set fails.
    The results are the new names of the reports, and the sets after the pops. *)
Fixpoint remove_suffix (name : str) (bases : list (option (list str))) : res (list str * list (option (list str))) :=
  match bases with
  | [] => Ok ([], [])
  | None :: bases' => let! r := remove_suffix name bases' in Ok (fst r, None :: snd r)
  | Some [] :: bases' => Err KeyError
  | Some (q :: qs) :: bases' =>
      let! r := remove_suffix name bases' in
      let here := if str_eqb q (u "fixit.LintRule") && endswith (u "Rule") name
                  then [firstn (List.length name - 4) name] else [] in
      Ok (here ++ fst r, Some qs :: snd r)
  end.

(** Both rules in one traversal (LibCST's visit_batched shares the metadata sets): the class statement is visited
    before the names in its bases. Each base: a name and its set. The result: the new class names, and what becomes of each base. *)
Definition upgrade_class (name : str) (bases : list (str * list str)) : res (list str * list (option str)) :=
  let! r := remove_suffix name (map (fun b => Some (snd b)) bases) in
  Ok (fst r, map (fun bq => deprecated_name (match snd bq with Some qs => qs | None => [] end) (fst (fst bq)))
                 (combine bases (snd r))).

(** ** deprecated_testcase_keywords.py 75-108; [code_range line col]: the parsed CodeRange(...) expression. *)
Definition keyword_is (ks : list str) (a : arg) : bool :=
  match snd (fst a) with Some k => existsb (str_eqb k) ks | None => false end.
Definition deprecated_keywords : list str := [u "line"; u "column"; u "config"; u "filename"; u "kind"].

Definition last_value (k : str) (args : list arg) : option expr :=
  fold_left (fun acc a => if keyword_is [k] a then Some (a_value a) else acc) args None.

Definition convert_linecol (code_range : expr -> expr -> expr) (args : list arg) : option (list arg) :=
  let kept := filter (fun a => negb (keyword_is deprecated_keywords a)) args in
  let new := match last_value (u "line") args with
             | Some line => kept ++ [(NoStar, Some (u "range"),
                              code_range line (match last_value (u "column") args with Some c => c | None => Number (u "0") end))]
             | None => kept
             end in
  if existsb (keyword_is deprecated_keywords) args then Some new else None.
