(** * System: fixit put together, from the configuration files to the files written

    Api.v leaves open what collect_rules and the traversal do. Here they are those of Collect.v, Batch.v and Suppress.v. *)
From Coq Require Import String List NArith ZArith Bool Arith.
From Verif Require Import Base PyStr Ftypes Paths Config Collect Suppress Cst Engine Batch Api.
Import ListNotations.

(** A call of [LintRule.report] (rule.py 219-265), with its arguments. *)
Record say := Say { s_node : N; s_message : option str; s_position : position; s_replacement : option repl }.

(** A class derived from LintRule: its name, MESSAGE, the attributes of its own and their first values, and its visit and
    leave methods: arbitrary functions of the module, the node visited and its own attributes, that call report some times and then
    return or raise. Simplification: a method does not catch what report raises and changes its violations by report only. *)
Record rule_code := RuleCode {
  k_name : str;
  k_MESSAGE : option str;
  k_own : Type;
  k_first : k_own;
  k_method : module -> str -> option (cst -> k_own -> list say * res k_own) }.

(** What LibCST's MetadataWrapper knows: the tree as it is traversed, and for each node its position in the tree (parents) and the file. *)
Record metadata := Metadata { d_tree : cst; d_place : N -> place; d_span : N -> range }.

Record system := MkSystem {
  y_env : env;
  y_unicode : unicode;
  y_world : fs -> world;                                   (* the modules that can be imported *)
  y_py : pystate;                                          (* the interpreter when the file's turn comes *)
  y_code : fs -> cls -> rule_code;                         (* the classes in them *)
  y_parse : str -> res module;
  y_wrap : module -> res metadata;
  y_took : nat -> nat;
  y_udiff : path -> str -> str -> str;
  y_bytes : module -> res str;
  y_style : str -> option (fs -> str -> path -> res str);
  y_walk : fs -> path -> res (list path) }.

(** The calls of report that a method makes, one after the other *)
Fixpoint say_all (U : unicode) (M : metadata) (xs : list say) (r : rule) : res rule :=
  match xs with
  | [] => Ok r
  | x :: xs' =>
      let! r' := report U r (s_node x) (d_place M (s_node x)) (d_span M (s_node x)) (s_message x) (s_position x) (s_replacement x) in
      say_all U M xs' r'
  end.

(** rule.py 98-102, 267-281: an instance as the engine uses it, with own attributes [own] and state [r] *)
Definition instance (U : unicode) (M : metadata) (md : module) (C : rule_code) (own : k_own C) (r : rule) : actor :=
  Actor (a_state := (k_own C * rule)%type) (k_name C)
    (fun method =>
       match k_method C md method with
       | None => None
       | Some f => Some (fun t s => let (xs, o) := f t (fst s) in
                                    let! r' := say_all U M xs (snd s) in
                                    let! own' := o in Ok (own', r'))
       end)
    (own, r) snd.

Definition fresh (U : unicode) (M : metadata) (md : module) (C : rule_code) : actor :=
  instance U M md C (k_first C) (new_rule (k_name C) (k_MESSAGE C)).

(** api.py 115 [collect_rules], engine.py 81-98 with what it needs of LibCST *)
Definition tool_of (Y : system) : tool :=
  Tool (y_env Y) (t_class := cls)
    (fun F cfg => let! '(ks, _) := fst (collect_rules (y_world Y F) cfg (y_py Y)) in Ok ks)
    (y_parse Y)
    (fun F _ md ks => let! M := y_wrap Y md in
                      visit_batched (y_took Y) (d_tree M) (map (fun k => fresh (y_unicode Y) M md (y_code Y F k)) ks))
    (y_udiff Y) (y_bytes Y) (y_style Y) (y_walk Y).
