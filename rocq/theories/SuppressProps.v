(** * C22, C23, C24: suppression comments and reporting *)
From Coq Require Import String List NArith ZArith Bool Arith Lia.
From Verif Require Import Base PyStr Regex Ftypes Suppress SuppressSpec SuppressFacts.
Import ListNotations.

(** C22: a comment silences a rule exactly as specified, whatever the text. *)
Theorem C22_directive : forall U name comment,
  comment_ignores U name comment = true <-> silences U comment name.
Proof. exact comment_ignores_iff. Qed.

(** No directive, no effect. *)
Theorem C22_no_directive : forall U name comment,
  ~ has_directive comment -> comment_ignores U name comment = false.
Proof.
  intros U name comment H. destruct (comment_ignores U name comment) eqn:E; auto.
  apply comment_ignores_iff in E. destruct E as (rest & (pre & t & E & Hd & _) & _).
  exfalso. apply H. exists pre, t, rest. auto.
Qed.

(** The reading of a directive's name list is unique and always exists, so that "lists the rule"
    is not ambiguous. *)
Theorem C22_names_unique : forall U s ns ns', names_at U s ns -> names_at U s ns' -> ns = ns'.
Proof. exact names_at_unique. Qed.
Theorem C22_names_total : forall U rest names, separated U rest names -> exists ns, names_at U names ns.
Proof. intros U rest names [H _]. apply names_at_exists. exact H. Qed.

(** C23: the comments consulted for a node. *)
Theorem C23_scope : forall p c, In c (node_comments p) <-> in_scope p c.
Proof. exact node_comments_iff. Qed.

(** A violation is suppressed iff some comment in scope silences the rule. *)
Theorem C23_ignore_lint : forall U name p,
  ignore_lint U name p = true <-> exists c, in_scope p c /\ silences U c name.
Proof.
  intros U name p. unfold ignore_lint. rewrite existsb_exists. split.
  - intros (c & Hc & H). exists c. split; [now apply C23_scope | now apply C22_directive].
  - intros (c & Hc & H). exists c. split; [now apply C23_scope | now apply C22_directive].
Qed.

(** Comments on anything outside the innermost statement (e.g. on an enclosing def or class)
    play no role: replacing everything above the first stopping node changes nothing, except
    for the module header. *)
Theorem C23_outer_irrelevant : forall U name inner n outer outer' h f,
  stops n -> outer <> [] -> outer' <> [] ->
  ignore_lint U name (Place (inner ++ n :: outer) h f) =
  ignore_lint U name (Place (inner ++ n :: outer') h f).
Proof.
  intros U name inner n outer outer' h f [Hn Hd] Ho Ho'. unfold ignore_lint, node_comments.
  cbn [p_nodes p_header p_first].
  assert (E : node_comments_from (inner ++ n :: outer) h f = node_comments_from (inner ++ n :: outer') h f);
    [|now rewrite E].
  induction inner as [|x inner IH]; cbn [node_comments_from app].
  - destruct (n_leading n); [|congruence]. rewrite Hd. destruct outer, outer'; congruence.
  - rewrite IH. destruct (n_leading x); auto. destruct (n_decorator x); auto.
    destruct inner; reflexivity.
Qed.

(** C24: one report call. *)
Theorem C24_report : forall node repl U (r : rule_inst node repl) nd pl span msg position rp,
  (ignore_lint U (r_name r) pl = true -> report U r nd pl span msg position rp = Ok r) /\
  (ignore_lint U (r_name r) pl = false ->
    forall text,
    (* the message: the argument if it is a non-empty string, else the class's MESSAGE *)
    (msg = Some text /\ text <> [] \/
     (msg = None \/ msg = Some []) /\ r_MESSAGE r = Some text /\ text <> []) ->
    exists v, report U r nd pl span msg position rp =
        Ok (RuleInst (r_name r) (r_MESSAGE r) (r_violations r ++ [v])) /\
      v_rule v = r_name r /\ v_message v = text /\ v_node v = nd /\ v_replacement v = rp /\
      match position with
      | PosDefault => v_range v = span
      | PosRange g => v_range v = g
      | PosPoint p => rstart (v_range v) = p /\ rend (v_range v) = Pos (line p + 1) 0
      end) /\
  (ignore_lint U (r_name r) pl = false ->
    (msg = None \/ msg = Some []) -> (r_MESSAGE r = None \/ r_MESSAGE r = Some []) ->
    report U r nd pl span msg position rp = Err ValueError).
Proof.
  intros node repl U r nd pl span msg position rp. unfold report. split; [|split].
  - intros ->. reflexivity.
  - intros -> text H.
    assert (E : (match truthy_msg msg with Some m => Some m | None => truthy_msg (r_MESSAGE r) end) = Some text).
    { destruct H as [[-> H]|[Hm [E H]]].
      - destruct text; [congruence|reflexivity].
      - rewrite E. destruct Hm as [-> | ->]; simpl; destruct text; congruence. }
    rewrite E. eexists. split; [reflexivity|]. cbn [v_rule v_message v_node v_replacement v_range].
    repeat split; auto. destruct position; simpl; auto.
  - intros -> [-> | ->] [H | H]; rewrite H; reflexivity.
Qed.

(** C24: the history of a rule instance: after any sequence of report calls the violations are
    those it had, followed by one per unsuppressed call, in call order. *)
Record call node repl := Call { c_node : node; c_place : place; c_span : range;
  c_msg : option str; c_pos : position; c_repl : option repl }.

Fixpoint report_all {node repl} U (r : rule_inst node repl) (cs : list (call node repl)) : res (rule_inst node repl) :=
  match cs with
  | [] => Ok r
  | c :: cs' => let! r' := report U r (c_node _ _ c) (c_place _ _ c) (c_span _ _ c) (c_msg _ _ c) (c_pos _ _ c) (c_repl _ _ c) in
                report_all U r' cs'
  end.

Theorem C24_history : forall node repl U (cs : list (call node repl)) r r',
  report_all U r cs = Ok r' ->
  r_name r' = r_name r /\
  exists vs, r_violations r' = r_violations r ++ vs /\
    map (@v_node node repl) vs =
      map (c_node node repl) (filter (fun c => negb (ignore_lint U (r_name r) (c_place _ _ c))) cs) /\
    map (@v_replacement node repl) vs =
      map (c_repl node repl) (filter (fun c => negb (ignore_lint U (r_name r) (c_place _ _ c))) cs) /\
    Forall (fun v => v_rule v = r_name r /\ v_message v <> []) vs.
Proof.
  intros node repl U. induction cs as [|c cs IH]; intros r r' H.
  - simpl in H. injection H as <-. split; auto. exists []. rewrite app_nil_r. simpl. auto.
  - cbn [report_all] in H. apply bind_ok in H. destruct H as (r1 & H1 & H2).
    apply IH in H2. destruct H2 as (En & vs & Ev & Em & Er & Ef).
    unfold report in H1. cbn [filter].
    destruct (ignore_lint U (r_name r) (c_place _ _ c)) eqn:Ei; cbn [negb].
    + injection H1 as <-. split; auto. exists vs. auto.
    + destruct (match truthy_msg (c_msg _ _ c) with Some m => Some m | None => truthy_msg (r_MESSAGE r) end) as [t|] eqn:Et; [|discriminate].
      injection H1 as <-. cbn [r_name r_violations] in *. split; auto.
      eexists (_ :: vs). rewrite Ev, <- app_assoc. split; [reflexivity|].
      cbn [map v_node v_replacement]. rewrite Em, Er. repeat split; auto.
      constructor; auto. simpl. split; auto.
      destruct (c_msg _ _ c) as [[|? ?]|]; destruct (r_MESSAGE r) as [[|? ?]|]; simpl in Et; congruence.
Qed.

(** ** Concrete cases *)

Definition blank : ninfo := NInfo None NoBody None None [] [] None false.
(** [x = Foo(object)  # lint-ignore: NoInheritFromObject] : expression inside a statement line *)
Definition ex_stmt : ninfo := NInfo (Some (Some (u "# lint-ignore: NoInheritFromObjectRule, Other"))) NoBody None None [] [] (Some []) false.
Definition ex_def : ninfo := NInfo None (Indented (Some (u "# lint-ignore"))) None None [] [] (Some []) false.

Example C22_ex : forall U,
  ignore_lint U (u "NoInheritFromObject") (Place [blank; ex_stmt; blank; ex_def] [] true) = true /\
  ignore_lint U (u "Other") (Place [blank; ex_stmt; blank; ex_def] [] true) = true /\
  ignore_lint U (u "UseFstring") (Place [blank; ex_stmt; blank; ex_def] [] true) = false /\
  ignore_lint U (u "UseFstring") (Place [blank; ex_def] [] true) = true.
Proof. intro U. repeat split; vm_compute; reflexivity. Qed.

(** Only the first directive of a comment counts: the English claim "any directive in the
    comment" is false. *)
Theorem C22_every_directive_refuted : forall U, exists comment rest,
  has_directive comment /\ directive_at (u "# lint-ignore: B") rest /\
  comment = u "# lint-ignore: A " ++ u "# lint-ignore: B" /\
  comment_ignores U (u "B") (u "# lint-ignore: B") = true /\
  comment_ignores U (u "B") comment = false.
Proof.
  intro U. exists (u "# lint-ignore: A # lint-ignore: B"), (u ": B").
  split; [|split; [|split; [|split]]]; try (vm_compute; reflexivity).
  - exists [], (u "# lint-ignore: A # lint-ignore: B"), (u ": A # lint-ignore: B"). split; auto.
    exists (u " "). split; [repeat constructor | left; reflexivity].
  - exists (u " "). split; [repeat constructor | left; reflexivity].
Qed.

(** A word starting with the directive counts as a bare directive and silences everything;
    a reason after a bare directive is read as a rule name. *)
Example C22_prefix_quirk : forall U name, comment_ignores U name (u "# lint-ignored elsewhere") = true.
Proof. intros. reflexivity. Qed.
Example C22_reason_quirk : forall U, comment_ignores U (u "UseFstring") (u "# lint-ignore because reasons") = false.
Proof. intros. vm_compute. reflexivity. Qed.

Print Assumptions C22_directive.
Print Assumptions C22_no_directive.
Print Assumptions C22_names_unique.
Print Assumptions C22_names_total.
Print Assumptions C22_every_directive_refuted.
Print Assumptions C23_scope.
Print Assumptions C23_ignore_lint.
Print Assumptions C23_outer_irrelevant.
Print Assumptions C24_report.
Print Assumptions C24_history.
