(** * Vocabulary for C78: what a user expects of the whole *)
From Coq Require Import String List NArith ZArith Bool Arith.
From Verif Require Import Base PyStr Ftypes Paths Config Collect CollectSpec Suppress SuppressSpec Cst Engine Batch Api ApiSpec System.
Import ListNotations.

(** The class is selected by the configuration: see C14. *)
Definition selected (Y : system) (F : fs) (cfg : config) (k : cls) : Prop :=
  let W := y_world Y F in
  let (fe, s) := findings W (c_enable cfg) (with_root_import W cfg (y_py Y)) in
  let (fd, _) := findings W (c_disable cfg) s in
  found fe k /\ ~ (found fd k /\ ~ named fe k) /\ tags_ok W cfg k /\ version_ok W cfg k.

(** The name of a rule: that of the class, without "Rule" at the end. *)
Definition called (C : rule_code) (name : str) : Prop :=
  k_name C = name ++ u "Rule" \/ (k_name C = name /\ forall t, name <> t ++ u "Rule").

(** What a rule says about a file when its methods are called in order, whatever comments there are. *)
Fixpoint says (C : rule_code) (md : module) (cs : list (str * cst)) (own : k_own C) : list say :=
  match cs with
  | [] => []
  | (method, t) :: cs' =>
      match k_method C md method with
      | None => says C md cs' own
      | Some f => match f t own with
                  | (xs, Ok own') => xs ++ says C md cs' own'
                  | (xs, Err _) => xs
                  end
      end
  end.

(** A comment in scope of the node silences the rule. *)
Definition silenced (U : unicode) (M : metadata) (C : rule_code) (x : say) : Prop :=
  exists name c, called C name /\ in_scope (d_place M (s_node x)) c /\ silences U c name.

(** The violation says what the rule said. *)
Definition tells (M : metadata) (C : rule_code) (x : say) (v : viol) : Prop :=
  called C (v_rule v) /\ v_node v = s_node x /\ v_replacement v = s_replacement x /\ v_message v <> [] /\
  (s_message x = Some (v_message v) \/ (s_message x = None \/ s_message x = Some []) /\ k_MESSAGE C = Some (v_message v)) /\
  match s_position x with
  | PosDefault => v_range v = d_span M (s_node x)
  | PosRange g => v_range v = g
  | PosPoint p => v_range v = Range p (Pos (line p + 1) 0)
  end.

(** Exactly what is not silenced is told, in order. *)
Inductive heard (U : unicode) (M : metadata) (C : rule_code) : list say -> list viol -> Prop :=
| h_end : heard U M C [] []
| h_silenced : forall x xs vs, silenced U M C x -> heard U M C xs vs -> heard U M C (x :: xs) vs
| h_told : forall x v xs vs, ~ silenced U M C x -> tells M C x v -> heard U M C xs vs -> heard U M C (x :: xs) (v :: vs).

(** A rule says something about the file that is not silenced. *)
Definition loud (Y : system) (F : fs) (md : module) (M : metadata) (k : cls) (x : say) : Prop :=
  let C := y_code Y F k in
  In x (says C md (calls (d_tree M)) (k_first C)) /\ ~ silenced (y_unicode Y) M C x.

(** The same system with other code in the rules. *)
Definition with_code (Y : system) (code : fs -> cls -> rule_code) : system :=
  MkSystem (y_env Y) (y_unicode Y) (y_world Y) (y_py Y) code (y_parse Y) (y_wrap Y) (y_took Y) (y_udiff Y) (y_bytes Y) (y_style Y) (y_walk Y).

(** The same class, but for some of its calls of report. *)
Definition without (drop : module -> say -> bool) (C : rule_code) : rule_code :=
  RuleCode (k_name C) (k_MESSAGE C) (k_own C) (k_first C)
    (fun md method => match k_method C md method with
                      | None => None
                      | Some f => Some (fun t own => (filter (fun x => negb (drop md x)) (fst (f t own)), snd (f t own)))
                      end).

(** The violations among results. *)
Definition violations (xs : list result) : list viol := flat_map (fun x => match x_violation x with Some v => [v] | None => [] end) xs.

(** With a fix, the diff of the file with that fix alone; otherwise no diff. *)
Definition shows_fix (Y : system) (p : path) (md : module) (v : viol) : Prop :=
  match v_replacement v with
  | None | Some (RFlat []) => v_diff v = []
  | Some _ => exists md', apply_replacements md [v] = Ok (Some md') /\ v_diff v = y_udiff Y p (code md) (code md')
  end.
