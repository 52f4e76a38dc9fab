(** * Vocabulary for C96: which rules the configuration files and the command line select *)
From Coq Require Import String List NArith Bool.
From Verif Require Import Base PyStr Ftypes Paths RuleNameSpec Config ConfigSpec Collect CollectSpec.
Import ListNotations.

(** The entry [t] of an enable or disable list, or of --rules, for a module that can be imported by its absolute name, stands for the class [k]: it is the name of a
    module, and the module or one of the modules directly in it provides the class, or it is the name of a module, a colon and the name of the rule ([one]). *)
Inductive stands_for (W : world) (sys_path : list str) : bool -> str -> cls -> Prop :=
| sf_all : forall t a m ms name k, rule_name false t None t -> w_import W sys_path t = (a, Ok m) -> loads m ms -> provides None ms name = Some k ->
    stands_for W sys_path false t k
| sf_one : forall t mm name a m ms k, rule_name false mm (Some name) t -> w_import W sys_path mm = (a, Ok m) -> loads m ms -> provides None ms name = Some k ->
    stands_for W sys_path true t k.

(** No entry is the name of a local rule. *)
Definition absolute (ms : list mention) : Prop := forall x rest, In x ms -> ~ names (u "." ++ rest) x.

(** The attributes of a module have different names. *)
Definition modules_ok (W : world) : Prop :=
  forall sys_path n a m ms, w_import W sys_path n = (a, Ok m) -> loads m ms -> distinct_attrs ms.

(** The configuration files for [p]: the one given with --config-file, or those found from [p] upwards *)
Definition config_files (F : fs) (p : path) (rt : option path) (opts : option options) (files : list path) : Prop :=
  match match opts with Some o => o_config_file o | None => None end with
  | Some f => files = [f]
  | None => locate_configs F (resolve p) (match rt with Some r => Some (resolve r) | None => None end) = Ok files
  end.

Definition no_rules_option (opts : option options) : Prop := match opts with Some o => o_rules o = [] | None => True end.

(** Switched on (off) by the last mention of a text that stands for the class *)
Definition switched (W : world) (sys_path : list str) (ms : list mention) (way one : bool) (k : cls) : Prop :=
  exists t, last_mention t way ms /\ stands_for W sys_path one t k.
