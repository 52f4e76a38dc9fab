(** * C13: rule names *)
From Coq Require Import String List NArith Bool Arith Lia.
From Verif Require Import Base PyStr Regex Ftypes RuleNameSpec RuleNameFacts.
Import ListNotations.

(** parse_rule accepts exactly the grammar (plus one trailing newline), and the fields of the
    result are the parts of the string; a local rule carries the root it was parsed with. *)
Theorem C13_parse_rule_grammar : forall s root q,
  parse_rule s root = Ok q <->
  exists local mm n s0, rule_name local mm n s0 /\ (s = s0 \/ s = s0 ++ [10%N]) /\
    q_module q = (if local then u "." ++ mm else mm) /\ q_name q = n /\
    q_local q = (if local then Some (u ".") else None) /\
    q_root q = (if local then Some root else None).
Proof.
  intros s root q. rewrite parse_rule_ok. split.
  - intros (l & mm & n & s0 & H1 & H2 & ->). exists l, mm, n, s0. destruct l; auto 10.
  - intros (l & mm & n & s0 & H1 & H2 & E1 & E2 & E3 & E4). exists l, mm, n, s0.
    split; auto. split; auto. destruct q; simpl in *; subst. destruct l; reflexivity.
Qed.

(** Anything else is a ConfigError. *)
Theorem C13_parse_rule_rejects : forall s root,
  (forall local mm n s0, rule_name local mm n s0 -> s <> s0 /\ s <> s0 ++ [10%N]) ->
  parse_rule s root = Err ConfigError.
Proof.
  intros s root H. destruct (parse_rule_total s root) as [(q & Hq)|He]; auto.
  apply parse_rule_ok in Hq. destruct Hq as (l & mm & n & s0 & Hr & Hs & _).
  destruct (H _ _ _ _ Hr). tauto.
Qed.

(** str() of a parsed rule gives the string back, up to the newline. *)
Theorem C13_parse_rule_str : forall s root q,
  parse_rule s root = Ok q -> s = qrule_str q \/ s = qrule_str q ++ u "
".
Proof.
  intros s root q H. apply parse_rule_ok in H.
  destruct H as (l & mm & n & s0 & (Hm & Hn & E) & Hs & ->).
  assert (Es : qrule_str (QRule ((if l then u "." else []) ++ mm) n
              (if l then Some (u ".") else None) (if l then Some root else None)) = s0).
  { unfold qrule_str. cbn [q_module q_name]. rewrite E. rewrite <- app_assoc.
    destruct n as [[|c v]|]; simpl; auto. destruct Hn as [Hn _]. congruence. }
  rewrite Es. change (u "
") with [10%N]. tauto.
Qed.

(** The reading is unambiguous: no string has two. *)
Theorem C13_rule_name_unambiguous : forall l1 m1 n1 l2 m2 n2 s,
  rule_name l1 m1 n1 s -> rule_name l2 m2 n2 s -> l1 = l2 /\ m1 = m2 /\ n1 = n2.
Proof. exact rule_name_unique. Qed.

(** The exact round trip str(parse_rule(s)) == s fails: [$] accepts a trailing newline. *)
Theorem C13_exact_roundtrip_refuted : exists s root q,
  parse_rule s root = Ok q /\ s <> qrule_str q.
Proof.
  exists (u "foo
"), [], (QRule (u "foo") None None None). split; [vm_compute; reflexivity | discriminate].
Qed.

Example C13_ex_local : parse_rule (u ".rules.use-fstring:UseFstring") [u "repo"] =
  Ok (QRule (u ".rules.use-fstring") (Some (u "UseFstring")) (Some (u ".")) (Some [u "repo"])).
Proof. vm_compute. reflexivity. Qed.

Example C13_ex_plain : parse_rule (u "fixit.rules") [u "repo"] =
  Ok (QRule (u "fixit.rules") None None None).
Proof. vm_compute. reflexivity. Qed.

Example C13_ex_bad : map (fun s => parse_rule (u s) []) ["foo..bar"; "foo:"; ""; ".."; "foo-bar"; "a:b:c"; "a b"]%string
  = [Err ConfigError; Err ConfigError; Err ConfigError; Err ConfigError; Err ConfigError; Err ConfigError; Err ConfigError].
Proof. vm_compute. reflexivity. Qed.

Print Assumptions C13_parse_rule_grammar.
Print Assumptions C13_parse_rule_rejects.
Print Assumptions C13_parse_rule_str.
Print Assumptions C13_rule_name_unambiguous.
Print Assumptions C13_exact_roundtrip_refuted.
