(** * Testing: the test cases of rules (fixit/testing.py, the test command) and rule classes (rule.py) *)
From Coq Require Import String List NArith ZArith Bool Arith.
From Verif Require Import Base PyStr Ftypes Suppress Cst Engine Cli.
Import ListNotations.
Set Implicit Arguments.

(** ** Cases *)

(** ftypes.py 63-73 [Invalid], [Valid]; a case can also be a string *)
Inductive vcase := VStr (code : str) | VCase (code : str).
Record invalid := Invalid { n_code : str; n_range : option range; n_message : option str; n_replacement : option str }.
Inductive icase := IStr (code : str) | ICase (i : invalid).
Inductive tcase := TValid (code : str) | TInvalid (i : invalid).

(** A rule class: what is used of it here. [None]: it has no attribute of this name (rule.py 74-78
    only declares them). *)
Record klass := Klass {
  k_id : N; k_name : str; k_message : option str;
  k_valid : option (list vcase); k_invalid : option (list icase) }.

(** Rule instances are objects: a list of them, references are indices. rule.py 98-102 *)
Record inst := Inst { i_class : klass; i_violations : list viol }.
Definition store := list inst.

(** What surrounds a test. *)
Record lab := Lab {
  l_dedent : str -> str;                      (* textwrap.dedent *)
  l_encode : str -> res str;
  l_decode : str -> res str;
  l_parse : str -> res module;                (* libcst.parse_module *)
  l_bytes : module -> res str;                (* Module.bytes *)
  l_udiff : bool -> str -> str -> str;        (* unified_diff for valid.py or invalid.py *)
  l_visit : klass -> module -> res (list viol) }.   (* what visiting the module reports *)

(** testing.py 18-20 [_dedent]: [re.sub(r"\A\n", "", src)] *)
Definition dedent (L : lab) (src : str) : str :=
  l_dedent L (match src with c :: s => if (c =? 10)%N then s else src | [] => [] end).

(** ** Running one test *)
Inductive outcome := Pass | Fail | Error (e : exn).

Definition range_eqb (a b : range) : bool :=
  ((line (rstart a) =? line (rstart b)) && (column (rstart a) =? column (rstart b)) &&
   (line (rend a) =? line (rend b)) && (column (rend a) =? column (rend b)))%Z.

(** testing.py 98-103: one report *)
Definition expected (i : invalid) (v : viol) : bool :=
  match n_range i with Some r => range_eqb r (v_range v) | None => true end &&
  match n_message i with Some m => str_eqb m (v_message v) | None => true end.

Definition or_error {A} (r : res A) (k : A -> outcome) : outcome :=
  match r with Ok a => k a | Err e => Error e end.

(** testing.py 111-114; [diff_violation] raises if there is no replacement *)
Definition check_diff (L : lab) (md : module) (reports : list viol) : outcome :=
  match reports with
  | [v] => or_error (match v_replacement v with
                     | Some r => diff_violation (l_udiff L false) md (v_node v) r
                     | None => Err (OtherError 1)
                     end) (fun d => if str_eqb d (v_diff v) then Pass else Fail)
  | _ => Pass
  end.

(** testing.py 105-114 *)
Definition check_replacement (L : lab) (md : module) (i : invalid) (reports : list viol) : outcome :=
  match n_replacement i with
  | None | Some [] => Pass
  | Some e =>
      or_error (apply_replacements md reports) (fun m =>
        match m with
        | None => Error AttributeError
        | Some m =>
            or_error (l_bytes L m) (fun b => or_error (l_decode L b) (fun modified =>
              if str_eqb (dedent L e) modified then check_diff L md reports else Fail))
        end)
  end.

(** testing.py 78-114: the checks on the reports *)
Definition check (L : lab) (md : module) (t : tcase) (reports : list viol) : outcome :=
  match t with
  | TValid _ => match reports with [] => Pass | _ => Fail end
  | TInvalid i =>
      match reports with
      | [] => Fail
      | _ => if forallb (expected i) reports then check_replacement L md i reports else Fail
      end
  end.

Definition case_code (t : tcase) : str := match t with TValid c => c | TInvalid i => n_code i end.
Definition is_valid (t : tcase) : bool := match t with TValid _ => true | TInvalid _ => false end.

Definition yielded (evs : list event) : list viol :=
  flat_map (fun e => match e with Yield v => [v] | Hook _ => [] end) evs.

Definition append_violations (vs : list viol) (i : inst) : inst := Inst (i_class i) (i_violations i ++ vs).
Definition set_nth {A} (n : nat) (f : A -> A) (l : list A) : list A :=
  firstn n l ++ match skipn n l with x :: r => f x :: r | [] => [] end.

(** testing.py 67-114 [LintRuleTestCase._test_method] with the instance [r]: visiting adds to the
    violations the instance has. Simplification: reports of a visit that raises are forgotten. *)
Definition test_case (L : lab) (st : store) (t : tcase) (r : nat) : outcome * store :=
  let source := dedent L (case_code t) in
  match bind (l_encode L source) (l_parse L) with
  | Err e => (Error e, st)
  | Ok md =>
      match nth_error st r with
      | None => (Error AttributeError, st)
      | Some i =>
          match l_visit L (i_class i) md with
          | Err e => (Error e, st)
          | Ok vs =>
              let st := set_nth r (append_violations vs) st in
              let k := i_class i in
              let inst := RuleInst (trim_rule (k_name k)) (k_message k) (i_violations i ++ vs) in
              match collect_violations (l_udiff L (is_valid t)) md (Ok ([inst], [])) false with
              | (_, Err e) => (Error e, st)
              | (evs, Ok _) => (check L md t (yielded evs), st)
              end
          end
      end
  end.

(** testing.py 181-189 [test_method]: a new instance of the type of the rule *)
Definition test_method (L : lab) (st : store) (data : tcase) (rule : nat) : outcome * store :=
  match nth_error st rule with
  | None => (Error AttributeError, st)
  | Some i => test_case L (st ++ [Inst (i_class i) []]) data (List.length st)
  end.

(** ** Generating tests *)

Fixpoint enum {A} (i : nat) (l : list A) : list (nat * A) :=
  match l with [] => [] | x :: l' => (i, x) :: enum (S i) l' end.

Definition name_of (kind : str) (i : nat) : str := u "test_" ++ kind ++ u "_" ++ dec (Z.of_nat i).

Definition of_vcase (c : vcase) : tcase := match c with VStr s => TValid s | VCase s => TValid s end.
Definition of_icase (c : icase) : tcase :=
  match c with IStr s => TInvalid (Invalid s None None None) | ICase i => TInvalid i end.

Definition add_cases {C} (kind : str) (f : C -> tcase) (cs : list C) : dict tcase :=
  fold_left (fun d ic => dset (name_of kind (fst ic)) (f (snd ic)) d) (enum 0 cs) [].

(** testing.py 117-149 [gen_test_methods_for_rule] *)
Definition gen_test_methods (k : klass) : res (dict tcase) :=
  match k_valid k with
  | None => Err AttributeError
  | Some vs =>
      match k_invalid k with
      | None => Err AttributeError
      | Some is => Ok (dupdate (add_cases (u "VALID") of_vcase vs) (add_cases (u "INVALID") of_icase is))
      end
  end.

(** testing.py 152-196 [gen_all_test_methods], [generate_lint_rule_test_cases]: per rule the name of
    its class, its tests and the rule. Simplification: the collection holds rules only. *)
Record test_class := TestClass { tc_name : str; tc_tests : dict tcase; tc_rule : nat }.

Fixpoint generate (st : store) (rules : list nat) : res (list test_class) :=
  match rules with
  | [] => Ok []
  | r :: rules' =>
      match nth_error st r with
      | None => Err AttributeError
      | Some i =>
          let! d := gen_test_methods (i_class i) in
          let! rest := generate st rules' in
          Ok (TestClass (k_name (i_class i)) d r :: rest)
      end
  end.

(** testing.py 221-223 [add_lint_rule_tests_to_module] *)
Definition add_to_module (attrs : dict test_class) (cs : list test_class) : dict test_class :=
  fold_left (fun d c => dset (tc_name c) c d) cs attrs.

(** Running tests, in some order *)
Fixpoint run_tests (L : lab) (st : store) (ts : list (tcase * nat)) : list outcome * store :=
  match ts with
  | [] => ([], st)
  | (t, r) :: ts' =>
      let (o, st) := test_method L st t r in
      let (os, st) := run_tests L st ts' in (o :: os, st)
  end.

Definition tests_of (cs : list test_class) : list (tcase * nat) :=
  flat_map (fun c => map (fun kv => (snd kv, tc_rule c)) (tc_tests c)) cs.

Definition passed (o : outcome) : bool := match o with Pass => true | _ => false end.

(** cli.py 281-302 [test]: the exit status. [collect]: collect_rules for the names, a new instance for
    each class. The tests of one class are run in the order of their names: [order]. *)
Definition test_command (L : lab) (parse : str -> res qrule) (collect : list qrule -> res (list klass))
    (order : list (tcase * nat) -> list (tcase * nat)) (names : list str) : Z :=
  match (let! qs := map_res parse names in collect qs) with
  | Err _ => 1
  | Ok ks =>
      let st := map (fun k => Inst k []) ks in
      match generate st (seq 0 (List.length ks)) with
      | Err _ => 1
      | Ok cs => if forallb passed (fst (run_tests L st (order (tests_of cs)))) then 0 else 1
      end
  end.

(** ** Rule classes *)
Section Classes.
  Context (provider : Type) (provider_eqb : provider -> provider -> bool) (parent_node : provider).

  (** The attributes a class itself has, as left by its definition. *)
  Record attrs := Attrs { a_invalid : option (list icase); a_autofix : option bool; a_deps : option (list provider) }.

  (** [getattr]: along the method resolution order *)
  Fixpoint lookup {A} (f : attrs -> option A) (mro : list attrs) : option A :=
    match mro with
    | [] => None
    | a :: mro' => match f a with Some x => Some x | None => lookup f mro' end
    end.

  Definition fixes (c : icase) : bool :=
    match c with
    | ICase i => match n_replacement i with Some (_ :: _) => true | _ => false end
    | IStr _ => false
    end.

  (** rule.py 104-112 [LintRule.__init_subclass__]: [body], the attributes the class body defines,
      [mro] the classes it inherits from *)
  Definition init_subclass (body : attrs) (mro : list attrs) : attrs :=
    let deps := match lookup a_deps (body :: mro) with Some d => d | None => [] end in
    let body := if existsb (provider_eqb parent_node) deps then body
                else Attrs (a_invalid body) (a_autofix body) (Some (deps ++ [parent_node])) in
    let invalid := match lookup a_invalid (body :: mro) with Some l => l | None => [] end in
    if existsb fixes invalid then Attrs (a_invalid body) (Some true) (a_deps body) else body.

  (** LibCST: [get_inherited_dependencies], all dependencies of all classes *)
  Definition inherited_dependencies (mro : list attrs) : list provider :=
    flat_map (fun a => match a_deps a with Some d => d | None => [] end) mro.
End Classes.
