(** * When should a test case of a rule pass? *)
From Coq Require Import String List NArith ZArith Bool Arith.
From Verif Require Import Base PyStr Ftypes Suppress Cst Engine Testing.
Import ListNotations.

(** [read_as L src code]: [code] is [src] without one newline at its start, if it has one, dedented. *)
Definition read_as (L : lab) (src code : str) : Prop :=
  (exists s, src = 10%N :: s /\ code = l_dedent L s) \/ ((forall s, src <> 10%N :: s) /\ code = l_dedent L src).

(** The module a case is about. *)
Definition case_module (L : lab) (t : tcase) (md : module) : Prop :=
  exists code content, read_as L (case_code t) code /\ l_encode L code = Ok content /\ l_parse L content = Ok md.

(** A fix can be applied by itself. *)
Definition applicable (md : module) (v : viol) : Prop :=
  autofixable v = true -> exists md', apply_replacements md [v] = Ok (Some md').

(** What the case says about reports [vs] of the rule. *)
Definition as_expected (L : lab) (md : module) (t : tcase) (vs : list viol) : Prop :=
  match t with
  | TValid _ => vs = []
  | TInvalid i =>
      vs <> [] /\
      (forall v, In v vs -> (forall r, n_range i = Some r -> v_range v = r) /\
                            (forall m, n_message i = Some m -> v_message v = m)) /\
      (* an expected replacement that is not empty: all fixes together give it *)
      (forall e, n_replacement i = Some e -> e <> [] ->
         exists md' b code, apply_replacements md vs = Ok (Some md') /\ l_bytes L md' = Ok b /\ l_decode L b = Ok code /\ read_as L e code)
  end.

(** [passes]: a freshly made rule reports what the case says. *)
Definition passes (L : lab) (k : klass) (t : tcase) : Prop :=
  exists md vs, case_module L t md /\ l_visit L k md = Ok vs /\ (forall v, In v vs -> applicable md v) /\ as_expected L md t vs.

(** A single report for a case with a replacement comes with a fix. *)
Definition single_fix (L : lab) (k : klass) (t : tcase) : Prop :=
  forall i e md v, t = TInvalid i -> n_replacement i = Some e -> case_module L t md -> l_visit L k md = Ok [v] -> autofixable v = true.

(** ** Rule classes *)

(** [seen f mro x]: [x] is what the first class of [mro] that has this attribute says. *)
Definition seen {P A} (f : attrs P -> option A) (mro : list (attrs P)) (x : A) : Prop :=
  exists before a after, mro = before ++ a :: after /\ f a = Some x /\ forall b, In b before -> f b = None.

(** A list of cases with an expected replacement that is not empty. *)
Definition shows_fix (cs : list icase) : Prop :=
  exists i e, In (ICase i) cs /\ n_replacement i = Some e /\ e <> [].

(** A rule and the rules it inherits from, the most special one first, given by their class bodies;
    the last one inherits from LintRule. [hierarchy bodies mro]: the classes these become. *)
Inductive hierarchy {P} (eqb : P -> P -> bool) (parent : P) (base : attrs P) : list (attrs P) -> list (attrs P) -> Prop :=
  | H_base : hierarchy eqb parent base [] [base]
  | H_sub : forall body bodies mro, hierarchy eqb parent base bodies mro ->
      hierarchy eqb parent base (body :: bodies) (init_subclass eqb parent body mro :: mro).
