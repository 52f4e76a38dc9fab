(** * C50: the --rules option; C48: the status of validate-config *)
From Coq Require Import String List NArith ZArith Bool Arith Lia Permutation Sorted.
From Verif Require Import Base PyStr Regex Ftypes Paths RuleNameSpec RuleNameFacts RuleNameProps TagsProps
  Config ConfigSpec ConfigFacts ConfigMentions ConfigProps ConfigDiscover Suppress Cst Engine Api Collect Cli.
Import ListNotations.
Set Implicit Arguments.

(** ** Specification *)

(** [t] is one of the entries of the text: a part between commas, without surrounding white space
    and not empty. *)
Definition entry (s t : str) : Prop := exists l p, pieces s l /\ In p l /\ stripped p t /\ t <> [].

Definition is_rule_name (t : str) : Prop := exists local mm n, rule_name local mm n t.

(** ** Proofs *)

Definition entries (s : str) : list str := filter (fun r => negb (str_eqb r [])) (map strip (split 44 s)).

Lemma entries_in : forall s t, In t (entries s) <-> entry s t.
Proof.
  intros s t. unfold entries, entry. rewrite filter_In, in_map_iff, negb_true_iff, str_eqb_neq. split.
  - intros [(p & <- & Hp) N]. exists (split 44 s), p. split; [apply split_pieces|]. split; [auto|]. split; [apply strip_stripped|auto].
  - intros (l & p & P & Hp & S & N). apply pieces_unique in P. subst l. split; auto. exists p. split; auto. symmetry. now apply stripped_unique.
Qed.

Lemma entry_no_newline : forall s t, entry s t -> forall r, t <> r ++ [10%N].
Proof. intros s t (l & p & _ & _ & (a & b & _ & _ & _ & _ & L) & _) r ->. specialize (L 10%N r eq_refl). discriminate. Qed.

Lemma entry_parse : forall s t cwd q, entry s t -> parse_rule t cwd = Ok q -> qrule_str q = t.
Proof.
  intros s t cwd q He H. apply C13_parse_rule_str in H. destruct H as [H|H]; auto.
  exfalso. eapply entry_no_newline; eauto.
Qed.

Lemma fold_sadd : forall qs acc, Forall wfq qs -> Forall wfq acc -> sset qrule_eqb acc ->
  let s := fold_left (fun s q => sadd qrule_eqb q s) qs acc in
  Forall wfq s /\ sset qrule_eqb s /\ (forall t, In t (texts s) <-> In t (texts acc) \/ In t (texts qs)) /\
  (forall q, In q s -> In q acc \/ In q qs).
Proof.
  induction qs as [|q qs IH]; intros acc Wq Wa Sa; cbn [fold_left]; cbv zeta.
  - split; auto. split; auto. split; [intro t; simpl; tauto|auto].
  - inversion Wq; subst. destruct (IH (sadd qrule_eqb q acc)) as (A & B & C & D); auto.
    + now apply sadd_wf.
    + apply sset_sadd; auto using qrule_eqb_sym.
    + split; auto. split; auto. split.
      * intro t. rewrite C, sadd_text by auto. simpl. intuition.
      * intros x Hx. apply D in Hx. destruct Hx as [Hx|Hx]; [|simpl; auto].
        unfold sadd in Hx. destruct (smem qrule_eqb q acc); auto. apply in_app_iff in Hx. simpl in *. intuition.
Qed.

(** What is parsed: exactly the entries, each once, in order of their text; a local rule is
    relative to the current directory. *)
Theorem C50_rules : forall iter cwd s rs, (forall l, Permutation (iter l) l) ->
  parse_rules_option iter cwd s = Ok rs ->
  StronglySorted str_lt (map qrule_str rs) /\
  (forall t, In t (map qrule_str rs) <-> entry s t) /\
  (forall q, In q rs -> parse_rule (qrule_str q) cwd = Ok q) /\
  (rs = [] <-> forall t, ~ entry s t).
Proof.
  intros iter cwd s rs Hi H. unfold parse_rules_option in H. fold (entries s) in H. apply bind_ok in H. destruct H as (qs & H & E). injection E as <-.
  apply map_res_ok in H.
  assert (Pq : forall q, In q qs -> parse_rule (qrule_str q) cwd = Ok q /\ entry s (qrule_str q)).
  { intros q Hq. assert (X : exists t, In t (entries s) /\ parse_rule t cwd = Ok q).
    { clear -H Hq. induction H as [|t x l l' Hx H IH]; [contradiction|]. destruct Hq as [->|Hq]; [exists t; simpl; auto|].
      destruct (IH Hq) as (t' & A & B). exists t'. simpl. auto. }
    destruct X as (t & Ht & X). apply entries_in in Ht. rewrite (@entry_parse _ _ _ _ Ht X). auto. }
  assert (Qp : forall t, entry s t -> exists q, In q qs /\ qrule_str q = t).
  { intros t Ht. pose proof Ht as Ht'. apply entries_in in Ht. clear -H Ht Ht'. induction H as [|t' x l l' Hx H IH]; [contradiction|].
    destruct Ht as [->|Ht]; [exists x; split; [simpl; auto|eapply entry_parse; eauto]|]. destruct (IH Ht) as (q & A & B). exists q. simpl. auto. }
  assert (W : Forall wfq qs) by (apply Forall_forall; intros q Hq; apply Pq in Hq; unfold wfq; intuition eauto).
  destruct (fold_sadd W (@Forall_nil _ _) (@sset_nil _ qrule_eqb)) as (A & B & C & D). cbv zeta in *.
  set (st := fold_left (fun s q => sadd qrule_eqb q s) qs []) in *.
  assert (P : Permutation (sorted qrule_leb (iter st)) st) by (eapply perm_trans; [apply Permutation_sym, sorted_perm|apply Hi]).
  assert (Te : forall t, In t (map qrule_str (sorted qrule_leb (iter st))) <-> entry s t).
  { intro t. transitivity (In t (texts st)).
    - split; apply Permutation_in; [apply Permutation_map; exact P|apply Permutation_map, Permutation_sym; exact P].
    - rewrite C. unfold texts at 2. rewrite in_map_iff. simpl. split.
      + intros [[]|(q & <- & Hq)]. now apply Pq.
      + intro Ht. destruct (Qp t Ht) as (q & Hq & E). right. eauto. }
  split; [|split; [exact Te|split]].
  - apply strictly; [apply sorted_sorted; [apply qrule_leb_total|apply qrule_leb_trans]|].
    apply Permutation_NoDup with (l := texts st); [apply Permutation_map, Permutation_sym; exact P|]. now apply sset_texts_nodup.
  - intros q Hq. apply (Permutation_in _ P) in Hq. apply D in Hq. destruct Hq as [[]|Hq]. now apply Pq.
  - split.
    + intros Z t Ht. apply Te in Ht. rewrite Z in Ht. contradiction.
    + intro N. destruct (sorted qrule_leb (iter st)) as [|q l]; auto. exfalso. apply (N (qrule_str q)). apply Te. simpl. auto.
Qed.

Lemma entries_parse : forall cwd s,
  (map_res (fun r => parse_rule r cwd) (entries s) = Err ConfigError /\ exists t, entry s t /\ ~ is_rule_name t) \/
  ((exists qs, map_res (fun r => parse_rule r cwd) (entries s) = Ok qs) /\ forall t, entry s t -> is_rule_name t).
Proof.
  intros cwd s. assert (G : forall l, (forall t, In t l -> entry s t) ->
      (map_res (fun r => parse_rule r cwd) l = Err ConfigError /\ exists t, In t l /\ ~ is_rule_name t) \/
      ((exists qs, map_res (fun r => parse_rule r cwd) l = Ok qs) /\ forall t, In t l -> is_rule_name t)).
    { induction l as [|t l IH]; intro Hl; cbn [map_res].
      - right. split; eauto. intros t [].
      - destruct (parse_rule_total t cwd) as [(q & Hq)|He].
        + rewrite Hq. cbn [bind]. assert (Nt : is_rule_name t).
          { assert (Eq : qrule_str q = t) by (eapply entry_parse; [apply Hl; simpl; auto|exact Hq]).
            destruct (wfq_text (ex_intro _ t (ex_intro _ cwd Hq))) as (lo & mm & n & R & _). rewrite Eq in R. exists lo, mm, n. auto. }
          destruct IH as [(E & t' & A & B)|((qs & E) & A)]; [intros; apply Hl; simpl; auto| |]; rewrite E; cbn [bind].
          * left. split; auto. exists t'. simpl. auto.
          * right. split; eauto. intros t' [<-|H]; auto.
        + rewrite He. cbn [bind]. left. split; auto. exists t. split; [simpl; auto|]. intros (lo & mm & n & R).
          assert (Y : exists q, parse_rule t cwd = Ok q); [|destruct Y; congruence].
          exists (QRule (if lo then u "." ++ mm else mm) n (if lo then Some (u ".") else None) (if lo then Some cwd else None)).
          apply C13_parse_rule_grammar. exists lo, mm, n, t. cbn [q_module q_name q_local q_root]. auto 10. }
    destruct (G (entries s)) as [(E & t & A & B)|(E & A)]; [intros t Ht; now apply entries_in| |].
    - left. split; auto. exists t. split; auto. now apply entries_in.
    - right. split; auto. intros t Ht. apply A. now apply entries_in.
Qed.

(** It fails exactly if an entry is not a rule name, with a configuration error. *)
Theorem C50_rejects : forall iter cwd s,
  (parse_rules_option iter cwd s = Err ConfigError \/ exists rs, parse_rules_option iter cwd s = Ok rs) /\
  ((exists rs, parse_rules_option iter cwd s = Ok rs) <-> forall t, entry s t -> is_rule_name t).
Proof.
  intros iter cwd s. unfold parse_rules_option. fold (entries s).
  pose proof (entries_parse cwd s) as X.
  destruct X as [(-> & t & A & B)|((qs & ->) & A)]; cbn [bind].
  - split; auto. split; [intros (? & ?); discriminate|]. intro H. exfalso. auto.
  - split; eauto. split; eauto.
Qed.

(** Order, repetitions and empty entries do not matter, nor does the order in which a set is iterated. *)
Theorem C50_canonical : forall iter1 iter2 cwd s1 s2, (forall l, Permutation (iter1 l) l) -> (forall l, Permutation (iter2 l) l) ->
  (forall t, entry s1 t <-> entry s2 t) ->
  parse_rules_option iter1 cwd s1 = parse_rules_option iter2 cwd s2.
Proof.
  intros iter1 iter2 cwd s1 s2 H1 H2 E.
  destruct (C50_rejects iter1 cwd s1) as [D1 R1]. destruct (C50_rejects iter2 cwd s2) as [D2 R2].
  destruct D1 as [D1|(r1 & D1)]; destruct D2 as [D2|(r2 & D2)]; try congruence.
  - exfalso. assert (X : exists rs, parse_rules_option iter1 cwd s1 = Ok rs) by (apply R1; intros t Ht; apply (proj1 R2 (ex_intro _ _ D2)), E; auto).
    destruct X; congruence.
  - exfalso. assert (X : exists rs, parse_rules_option iter2 cwd s2 = Ok rs) by (apply R2; intros t Ht; apply (proj1 R1 (ex_intro _ _ D1)), E; auto).
    destruct X; congruence.
  - rewrite D1, D2. f_equal. apply (@C50_rules _ _ _ _ H1) in D1. apply (@C50_rules _ _ _ _ H2) in D2.
    destruct D1 as (S1 & T1 & P1 & _). destruct D2 as (S2 & T2 & P2 & _).
    assert (Te : map qrule_str r1 = map qrule_str r2).
    { assert (N : forall l, StronglySorted str_lt l -> NoDup l).
      { induction 1 as [|x l H IH Hx]; constructor; auto. intro I. rewrite Forall_forall in Hx. destruct (Hx _ I). congruence. }
      assert (L : forall l, StronglySorted str_lt l -> StronglySorted (fun a b => str_leb a b = true) l).
      { induction 1 as [|x l H IH Hx]; constructor; auto. eapply Forall_impl; [|exact Hx]. intros y [Y _]. exact Y. }
      apply sorted_unique with (leb := str_leb); auto.
      - apply NoDup_Permutation; auto. intro t. rewrite T1, T2. apply E.
      - intros x y _ _ A B. now apply str_leb_antisym. }
    clear -Te P1 P2. revert r2 Te P2. induction r1 as [|q r1 IH]; intros [|q' r2] Te P2; try discriminate; auto.
    cbn [map] in Te. injection Te as A B. f_equal.
    + assert (X : Ok q = Ok q') by (rewrite <- (P1 q), <- (P2 q') by (simpl; auto); now rewrite A). congruence.
    + apply IH; auto; intros; [apply P1|apply P2]; simpl; auto.
Qed.

Example C50_example : parse_rules_option (fun l => rev l) [u "d"] (u " fixit.rules , .mine:A,, fixit.rules") =
  Ok [QRule (u ".mine") (Some (u "A")) (Some (u ".")) (Some [u "d"]); QRule (u "fixit.rules") None None None].
Proof. vm_compute. reflexivity. Qed.

(** ** validate-config: status 0 exactly if there is nothing to report *)
Theorem C48_status : forall W E F p py,
  (snd (validate_command W E F p py) = 0%N <-> fst (validate_config W E F p py) = []) /\
  (snd (validate_command W E F p py) = 0%N \/ snd (validate_command W E F p py) = 255%N) /\
  fst (validate_command W E F p py) = fst (validate_config W E F p py).
Proof. intros. unfold validate_command. destruct (fst (validate_config W E F p py)); cbn; repeat split; auto; discriminate. Qed.

(** ** The command line as a whole *)

Lemma some_token : forall U v, exists tok, token U v tok.
Proof.
  intros U v. assert (N : tags_tokens U v <> []).
  { unfold tags_tokens. assert (G : forall l a, a <> [] \/ l <> [] -> fold_left (fun s t => sadd str_eqb t s) l a <> []).
    { induction l as [|x l IH]; intros a H; cbn [fold_left]; [destruct H; congruence|]. apply IH. left. unfold sadd.
      destruct (smem str_eqb x a) eqn:M; [destruct a; [discriminate|congruence]|destruct a; discriminate]. }
    apply G. right. destruct (lower U v) as [|n w]; [discriminate|]. cbn. destruct (_ =? _)%N; [discriminate|]. destruct (split 44 w); discriminate. }
  destruct (tags_tokens U v) as [|t l] eqn:E; [congruence|]. exists t. apply tokens_in. rewrite E. simpl. auto.
Qed.

(** What --rules, --tags, --output-format and --output-template mean: with [c0] the configuration
    from the files alone, the rules are those of --rules if there is an entry, and a rule passes
    the tag filter according to the tokens of --tags if it is not empty. *)
Theorem C50_main : forall U iter cwd tags rules fmt tmpl o E F path root c0, (forall l, Permutation (iter l) l) ->
  main_options U iter cwd None tags rules fmt tmpl = Ok o -> generate_config E F path root None = Ok c0 ->
  exists c, generate_config E F path root (Some o) = Ok c /\
    ((exists t, entry rules t) -> (forall t, In t (map qrule_str (c_enable c)) <-> entry rules t) /\
       (forall q, In q (c_enable c) -> parse_rule (qrule_str q) cwd = Ok q) /\ c_disable c = []) /\
    ((forall t, ~ entry rules t) -> c_enable c = c_enable c0 /\ c_disable c = c_disable c0) /\
    (tags = [] -> c_tags c = c_tags c0) /\
    (tags <> [] -> forall l, tags_contains (c_tags c) (TagColl l) = true <->
       (forall x tok, In x l -> token U tags tok -> ~ negative tok x) /\
       ((forall tok, token U tags tok -> exists y, negative tok y) \/
        exists x, In x l /\ token U tags x /\ forall y, ~ negative x y)) /\
    c_format c = (match fmt with Some f => f | None => c_format c0 end) /\
    c_template c = (match tmpl with [] => c_template c0 | t => TStr t end).
Proof.
  intros U iter cwd tags rules fmt tmpl o E F path root c0 Hi H G. unfold main_options in H.
  apply bind_ok in H. destruct H as (t & Ht & H). apply bind_ok in H. destruct H as (qs & Hq & H). injection H as <-.
  assert (C : exists c, generate_config E F path root (Some (Options None (Some t) qs fmt tmpl)) = Ok c).
  { unfold generate_config in *. cbn [o_config_file]. apply bind_ok in G. destruct G as (ps & -> & G). cbn [bind].
    apply bind_ok in G. destruct G as (raws & -> & G). cbn [bind]. apply bind_ok in G. destruct G as ((c1 & w) & -> & G). cbn [bind]. eauto. }
  destruct C as (c & C). exists c. split; auto. apply C11_options in C; [|reflexivity]. destruct C as (c1 & G1 & A1 & A2 & A3 & A4 & A5 & _).
  rewrite G in G1. injection G1 as <-. cbn [o_rules o_tags o_format o_template] in *.
  apply (@C50_rules _ _ _ _ Hi) in Hq. destruct Hq as (_ & Q2 & Q3 & Q4).
  split; [|split; [|split; [|split; [|split]]]].
  - intros (x & Hx). destruct A2 as [-> ->]; [intro Z; apply (proj1 Q4 Z x Hx)|]. auto.
  - intro N. apply A1, Q4, N.
  - intros ->. injection Ht as <-. exact A3.
  - intros N l. destruct (@C21_parse _ _ _ Ht N) as (I1 & X1 & _).
    assert (Ne : match t_include t, t_exclude t with [], [] => c_tags c0 | _, _ => t end = t).
    { destruct (t_include t) as [|a i] eqn:Ei; auto. destruct (t_exclude t) as [|b e] eqn:Ee; auto. exfalso.
      destruct (some_token U tags) as (tok & Tk). assert (Z : forall y, ~ negative tok y).
      { intros y Hy. apply (proj2 (X1 y)). exists tok. auto. }
      apply (proj2 (I1 tok)). auto. }
    rewrite Ne in A3. rewrite A3, C21_contains. split.
    + intros [K1 K2]. split.
      * intros x tok Hx Tk Ng. apply (K1 x Hx). apply X1. eauto.
      * destruct K2 as [K2|(x & Hx & K2)].
        -- left. intros tok Tk. destruct tok as [|d y].
           ++ exfalso. destruct (@C21_parse_fails_iff U tags N) as [_ Ok_]. apply (proj1 Ok_); eauto.
           ++ destruct (is_neg d) eqn:Ed; [exists y; apply is_neg_negative; eauto|]. exfalso.
              assert (Z : In (d :: y) (t_include t)).
              { apply I1. split; auto. intros z Hz. apply is_neg_negative in Hz. destruct Hz as (d' & Hz & Hd). injection Hz as -> ->. congruence. }
              rewrite K2 in Z. contradiction.
        -- right. exists x. split; auto. now apply I1.
    + intros [K1 K2]. split.
      * intros x Hx Z. apply X1 in Z. destruct Z as (tok & Tk & Ng). eapply K1; eauto.
      * destruct K2 as [K2|(x & Hx & K2)].
        -- left. destruct (t_include t) as [|a i] eqn:Ei; auto. exfalso.
           assert (Z : In a (t_include t)) by (rewrite Ei; simpl; auto). rewrite Ei in Z. apply I1 in Z. destruct Z as [Z1 Z2].
           destruct (K2 a Z1) as (y & Hy). eapply Z2; eauto.
        -- right. exists x. split; auto. now apply I1.
  - destruct fmt; auto.
  - destruct tmpl; exact A5.
Qed.

(** The command line is rejected exactly if --tags has an empty entry (but is not empty itself), or
    an entry of --rules is not a rule name. *)
Theorem C50_main_fails : forall U iter cwd cf tags rules fmt tmpl e,
  main_options U iter cwd cf tags rules fmt tmpl = Err e <->
  (tags <> [] /\ token U tags [] /\ e = IndexError) \/
  ((tags = [] \/ ~ token U tags []) /\ (exists t, entry rules t /\ ~ is_rule_name t) /\ e = ConfigError).
Proof.
  intros U iter cwd cf tags rules fmt tmpl e. unfold main_options. destruct (C50_rejects iter cwd rules) as [D1 D2].
  assert (T : (tags <> [] /\ token U tags [] /\ tags_parse U tags = Err IndexError) \/ ((tags = [] \/ ~ token U tags []) /\ exists t, tags_parse U tags = Ok t)).
  { destruct tags as [|c v]; [right; split; [auto|]; eexists; reflexivity|]. destruct (@C21_parse_fails_iff U (c :: v)) as [A B]; [discriminate|].
    destruct (tags_parse U (c :: v)) as [t|x] eqn:P.
    - right. split; [right; apply B; eauto|eauto].
    - left. split; [discriminate|]. assert (X : token U (c :: v) []).
      { destruct (in_dec str_eq_dec [] (tags_tokens U (c :: v))) as [I|I]; [now apply tokens_in|]. exfalso. rewrite tokens_in in I. apply B in I. destruct I. congruence. }
      split; auto. now apply A. }
  assert (Ru : (exists t, entry rules t /\ ~ is_rule_name t) -> parse_rules_option iter cwd rules = Err ConfigError).
  { intros (t & A & B). destruct D1 as [D1|D1]; auto. exfalso. apply B. now apply D2. }
  destruct T as [(T1 & T2 & ->)|(T1 & t & ->)]; cbn [bind].
  - split.
    + intro X. injection X as <-. left. auto.
    + intros [(_ & _ & ->)|([X|X] & _)]; auto; contradiction.
  - split.
    + intro X. right. destruct (entries_parse cwd rules) as [(Z & B)|(_ & Z)].
      * unfold parse_rules_option in X. fold (entries rules) in X. rewrite Z in X. cbn [bind] in X. injection X as <-. auto.
      * apply D2 in Z. destruct Z as (rs & Z). rewrite Z in X. discriminate.
    + intros [(A & B & _)|(_ & R & ->)]; [destruct T1; contradiction|]. now rewrite (Ru R).
Qed.

Example C50_main_example : forall U,
  option_map (fun c => (map qrule_str (c_enable c), c_disable c, c_tags c))
    (match main_options U (fun l => rev l) [u "d"] None (u "Fast, !slow") (u "b,a") None [] with
     | Ok o => match generate_config (ex_env ex_load) ex_fs [u "p"; u "s"; u "a.py"] None (Some o) with Ok c => Some c | Err _ => None end
     | Err _ => None end) =
  Some ([u "a"; u "b"], [], Tags [u "fast"] [u "slow"]).
Proof. intro U. vm_compute. reflexivity. Qed.
Example C50_main_fails_example : forall U, main_options U (fun l => l) [u "d"] None (u "a,") (u "b") None [] = Err IndexError /\
  main_options U (fun l => l) [u "d"] None [] (u "b,-") None [] = Err ConfigError.
Proof. intro U. split; vm_compute; reflexivity. Qed.

(** ** C51: fixit upgrade is the shortcut that the documentation says it is, for [fixit --rules fixit.upgrade fix --automatic] *)
Theorem C51_shortcut : forall U iter cwd cf tags rules fmt tmpl o K T d m paths, (forall l, Permutation (iter l) l) ->
  main_options U iter cwd cf tags rules fmt tmpl = Ok o ->
  exists o', main_options U iter cwd cf tags (u "fixit.upgrade") fmt tmpl = Ok o' /\
    upgrade K T d o m paths = fix_ K T d o' m false false paths.
Proof.
  intros U iter cwd cf tags rules fmt tmpl o K T d m paths Pm H. unfold main_options in *.
  destruct (tags_parse U tags) as [t|e]; [|discriminate]. cbn [bind] in *.
  assert (X : parse_rules_option iter cwd (u "fixit.upgrade") = Ok [QRule (u "fixit.upgrade") None None None]).
  { unfold parse_rules_option.
    change (filter (fun r => negb (str_eqb r [])) (map strip (split 44 (u "fixit.upgrade")))) with [u "fixit.upgrade"].
    assert (Y : map_res (fun r => parse_rule r cwd) [u "fixit.upgrade"] = Ok [QRule (u "fixit.upgrade") None None None]) by reflexivity.
    rewrite Y. cbn [bind]. match goal with |- context [iter ?l] => change l with [QRule (u "fixit.upgrade") None None None] end. rewrite (Permutation_length_1_inv (Permutation_sym (Pm [QRule (u "fixit.upgrade") None None None]))). reflexivity. }
  rewrite X. cbn [bind]. eexists. split; [reflexivity|]. destruct (parse_rules_option iter cwd rules) as [rs|e]; [|discriminate]. injection H as <-. reflexivity.
Qed.
