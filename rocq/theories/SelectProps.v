(** * C96: which rules the configuration files and the command line select *)
From Coq Require Import String List NArith ZArith Bool Arith Lia Permutation.
From Verif Require Import Base PyStr Regex Ftypes Paths RuleNameSpec RuleNameFacts RuleNameProps Config ConfigSpec ConfigFacts ConfigMentions ConfigProps ConfigDiscover
  Collect CollectSpec CollectFacts CollectSelect CollectProps Cli OptionProps SelectSpec.
Import ListNotations.

(** ** What an entry finds *)

Definition finds (W : world) (sp : list str) (q : qrule) (k : cls) : Prop :=
  exists a m ms, w_import W sp (q_module q) = (a, Ok m) /\ loads m ms /\
    match q_name q with Some (c :: n) => provides None ms (c :: n) = Some k | _ => exists name, provides None ms name = Some k end.

Lemma forall2_in_r : forall A B (R : A -> B -> Prop) l m, Forall2 R l m -> forall y, In y m -> exists x, In x l /\ R x y.
Proof. intros A B R l m H. induction H; intros z Hz; [contradiction|]. destruct Hz as [->|Hz]; [exists x; simpl; auto|]. destruct (IHForall2 z Hz) as (x0 & ? & ?). exists x0. simpl. auto. Qed.
Lemma forall2_in_l : forall A B (R : A -> B -> Prop) l m, Forall2 R l m -> forall x, In x l -> exists y, In y m /\ R x y.
Proof. intros A B R l m H. induction H; intros z Hz; [contradiction|]. destruct Hz as [->|Hz]; [exists y; simpl; auto|]. destruct (IHForall2 z Hz) as (y0 & ? & ?). exists y0. simpl. auto. Qed.

Lemma finds_iff : forall W q s k, modules_ok W -> is_local q = false ->
  ((exists ks, fst (find_rules W q s) = Ok ks /\ In k ks) <-> finds W (ps_path s) q k).
Proof.
  intros W q s k Ok_ L. assert (O : outcome W q s = snd (w_import W (ps_path s) (q_module q))) by (unfold outcome; now rewrite L).
  assert (G : generation q s = None) by (unfold generation; now rewrite L). unfold finds.
  destruct (w_import W (ps_path s) (q_module q)) as [a r] eqn:Ei. cbn [snd] in O. destruct r as [m|e].
  2:{ split.
      - intros (ks & Hk & _). destruct (C18_import_failure W q s) as (C & _). rewrite (C e O) in Hk. discriminate.
      - intros (a' & m & ms & X & _). congruence. }
  destruct (walk_module None m) as [dct|e] eqn:Ew.
  2:{ assert (NL : forall ms, ~ loads m ms). { intros ms Hl. destruct (loads_walk None Hl) as (d' & X). congruence. }
      split.
      - intros (ks & Hk & _). destruct (C18_import_failure W q s) as (_ & C & _). destruct (C m O NL) as (e' & X & _). congruence.
      - intros (a' & m' & ms & X & Hl & _). injection X as <- <-. exfalso. exact (NL ms Hl). }
  destruct (walk_spec None m Ew) as (ms & Hl & _ & _). pose proof (Ok_ _ _ _ _ _ Ei Hl) as D.
  assert (Hn : (q_name q = None \/ q_name q = Some []) \/ exists c n, q_name q = Some (c :: n)).
  { destruct (q_name q) as [[|c n]|]; eauto. }
  destruct Hn as [Hn|(c & n & Hn)].
  - destruct (C18_whole_module W q s m ms Hn O Hl D) as (nms & ks & Hk & F2 & _ & All). rewrite G in F2, All. split.
    + intros (ks' & Hk' & Hi). assert (ks' = ks) by congruence. subst. exists a, m, ms. split; auto. split; auto.
      destruct (forall2_in_r _ _ _ _ _ F2 k Hi) as (x & _ & Hx). destruct Hn as [->| ->]; exists x; exact Hx.
    + intros (a' & m' & ms' & X & Hl' & Hp). injection X as <- <-. rewrite (loads_unique Hl' Hl) in Hp. exists ks. split; auto.
      assert (exists name, provides None ms name = Some k) as (name & Hp'). { destruct Hn as [Hn|Hn]; rewrite Hn in Hp; exact Hp. }
      assert (Hin : In name nms) by (apply All; congruence).
      destruct (forall2_in_l _ _ _ _ _ F2 name Hin) as (y & Hy & Hyp). congruence.
  - pose proof (C18_named W q s (c :: n) m ms Hn ltac:(discriminate) O Hl D) as Hk. rewrite G in Hk. rewrite Hn. split.
    + intros (ks & Hk' & Hi). exists a, m, ms. split; auto. split; auto. destruct (provides None ms (c :: n)) as [k'|]; [|congruence].
      rewrite Hk in Hk'. injection Hk' as <-. destruct Hi as [->|[]]. reflexivity.
    + intros (a' & m' & ms' & X & Hl' & Hp). injection X as <- <-. rewrite (loads_unique Hl' Hl) in Hp. rewrite Hp in Hk. exists [k]. simpl. auto.
Qed.

Lemma findings_finds : forall W qs s fs s1, modules_ok W -> (forall q, In q qs -> is_local q = false) -> findings W qs s = (fs, s1) ->
  forall k, (found fs k <-> exists q, In q qs /\ finds W (ps_path s) q k) /\
            (named fs k <-> exists q n, In q qs /\ q_name q = Some n /\ n <> [] /\ finds W (ps_path s) q k).
Proof.
  intros W qs s fs s1 Mo. revert s fs s1. induction qs as [|q qs IH]; intros s fs s1 L H k; cbn [findings] in H.
  - injection H as <- <-. split; split.
    + intros (q & ks & [] & _).
    + intros (q & [] & _).
    + intros (q & ks & n & [] & _).
    + intros (q & n & [] & _).
  - destruct (find_rules W q s) as [r p] eqn:E. destruct (findings W qs p) as [fs' s3] eqn:E3. injection H as <- <-.
    assert (Lq : is_local q = false) by (apply L; left; reflexivity).
    pose proof (find_rules_path W q s) as Pp. rewrite E in Pp. cbn [snd] in Pp.
    pose proof (finds_iff W q s k Mo Lq) as Fq. rewrite E in Fq. cbn [fst] in Fq.
    destruct (IH p fs' s3 (fun q' Hq' => L q' (or_intror Hq')) E3 k) as [IA IB]. rewrite Pp in IA, IB. split; split.
    + intros (q' & ks & [X|Hi] & Hk).
      * injection X as -> ->. exists q'. split; [left; reflexivity|]. apply Fq. eauto.
      * destruct (proj1 IA) as (q2 & Hq2 & F2); [exists q', ks; auto|]. exists q2. split; [right|]; assumption.
    + intros (q' & [<-|Hq'] & F').
      * apply Fq in F'. destruct F' as (ks & -> & Hk). exists q, ks. split; [left; reflexivity|assumption].
      * destruct (proj2 IA) as (q2 & ks & Hi & Hk); [eauto|]. exists q2, ks. split; [right|]; assumption.
    + intros (q' & ks & n & [X|Hi] & Hk & Hn & Hne).
      * injection X as -> ->. exists q', n. split; [left; reflexivity|]. split; auto. split; auto. apply Fq. eauto.
      * destruct (proj1 IB) as (q2 & n2 & Hq2 & F2); [exists q', ks, n; auto|]. exists q2, n2. split; [right|]; assumption.
    + intros (q' & n & [<-|Hq'] & Hn & Hne & F').
      * apply Fq in F'. destruct F' as (ks & -> & Hk). exists q, ks, n. split; [left; reflexivity|auto].
      * destruct (proj2 IB) as (q2 & ks & n2 & Hi & Hk); [exists q', n; auto|]. exists q2, ks, n2. split; [right|]; assumption.
Qed.

(** ** Entries and their texts *)

Definition is_one (q : qrule) : bool := match q_name q with Some (_ :: _) => true | _ => false end.

(** an entry as the parser makes it from a text *)
Definition as_text (q : qrule) : Prop :=
  exists local mm n, rule_name local mm n (qrule_str q) /\ q_module q = (if local then u "." else []) ++ mm /\ q_name q = n /\
    q_local q = (if local then Some (u ".") else None).

Lemma stands_finds : forall W sp q k, as_text q -> is_local q = false ->
  (finds W sp q k <-> stands_for W sp (is_one q) (qrule_str q) k).
Proof.
  intros W sp q k (local & mm & n & R & Em & En & El) L.
  assert (local = false) by (destruct local; auto; unfold is_local in L; rewrite El in L; discriminate). subst local. cbn [app] in Em. simpl in Em.
  unfold finds, is_one. rewrite Em, En. destruct n as [[|c n]|].
  - destruct R as (_ & (X & _) & _). congruence.
  - split.
    + intros (a & m & ms & Hi & Hl & Hp). apply (sf_one W sp _ mm (c :: n) a m ms k R Hi Hl Hp).
    + intro S_. inversion S_ as [|t mm' nm a m ms k' R' Hi Hl Hp]; subst. destruct (rule_name_unique R R') as (_ & -> & X). injection X as <-. eauto 6.
  - assert (Et : qrule_str q = mm). { destruct R as (_ & _ & ->). cbn [app]. now rewrite app_nil_r. } rewrite Et in *. split.
    + intros (a & m & ms & Hi & Hl & name & Hp). apply (sf_all W sp mm a m ms name k R Hi Hl Hp).
    + intro S_. inversion S_ as [t a m ms name k' R' Hi Hl Hp|]; subst. eauto 7.
Qed.

Lemma stands_rule_name : forall W sp one t k, stands_for W sp one t k -> exists mm n, rule_name false mm n t.
Proof. intros W sp one t k H. inversion H; subst; eauto. Qed.

Lemma stands_one : forall W sp one t k q, stands_for W sp one t k -> as_text q -> qrule_str q = t -> is_local q = false /\ is_one q = one.
Proof.
  intros W sp one t k q S_ (local & mm & n & R & Em & En & El) Et. rewrite Et in R. unfold is_local, is_one. rewrite El, En.
  inversion S_ as [t' a m ms name k' R' Hi Hl Hp|t' mm' nm a m ms k' R' Hi Hl Hp]; subst; destruct (rule_name_unique R R') as (-> & _ & ->); split; auto.
  destruct R' as (_ & (X & _) & _). destruct nm; congruence.
Qed.

Section Lists.
  Context (W : world) (sp : list str) (qs : list qrule) (P : str -> Prop).
  Context (texts : forall q, In q qs -> as_text q) (globals : forall q, In q qs -> is_local q = false).
  Context (which : forall t mm n, rule_name false mm n t -> (In t (map qrule_str qs) <-> P t)).

  Lemma list_one : forall k, (exists q n, In q qs /\ q_name q = Some n /\ n <> [] /\ finds W sp q k) <-> exists t, P t /\ stands_for W sp true t k.
  Proof.
    intro k. split.
    - intros (q & n & Hq & Hn & Hne & Hf). apply (stands_finds W sp q k (texts q Hq) (globals q Hq)) in Hf.
      assert (O : is_one q = true) by (unfold is_one; rewrite Hn; destruct n; congruence). rewrite O in Hf.
      exists (qrule_str q). split; auto. destruct (stands_rule_name _ _ _ _ _ Hf) as (mm & n' & R). apply (which _ _ _ R). now apply in_map.
    - intros (t & Ht & S_). destruct (stands_rule_name _ _ _ _ _ S_) as (mm & n & R). apply (which _ _ _ R) in Ht. apply in_map_iff in Ht. destruct Ht as (q & Et & Hq).
      destruct (stands_one _ _ _ _ _ q S_ (texts q Hq) Et) as [L O]. assert (O' := O). unfold is_one in O'. destruct (q_name q) as [[|c n']|] eqn:En; try discriminate.
      exists q, (c :: n'). split; auto. split; auto. split; [discriminate|]. apply (stands_finds W sp q k (texts q Hq) L). rewrite O, Et. exact S_.
  Qed.

  Lemma list_any : forall k, (exists q, In q qs /\ finds W sp q k) <-> exists one t, P t /\ stands_for W sp one t k.
  Proof.
    intro k. split.
    - intros (q & Hq & Hf). apply (stands_finds W sp q k (texts q Hq) (globals q Hq)) in Hf. exists (is_one q), (qrule_str q). split; auto.
      destruct (stands_rule_name _ _ _ _ _ Hf) as (mm & n' & R). apply (which _ _ _ R). now apply in_map.
    - intros (one & t & Ht & S_). destruct (stands_rule_name _ _ _ _ _ S_) as (mm & n & R). apply (which _ _ _ R) in Ht. apply in_map_iff in Ht. destruct Ht as (q & Et & Hq).
      destruct (stands_one _ _ _ _ _ q S_ (texts q Hq) Et) as [L O]. exists q. split; auto. apply (stands_finds W sp q k (texts q Hq) L). rewrite O, Et. exact S_.
  Qed.
End Lists.

(** ** The configuration files *)

Lemma generate_inv : forall E F p rt opts c files raws, generate_config E F p rt opts = Ok c -> config_files F p rt opts files -> read_configs E F files = Ok raws ->
  exists c0 w, merge_configs E (resolve p) raws (match rt with Some r => Some (resolve r) | None => None end) = Ok (c0, w) /\
    c = match opts with Some o => apply_options o c0 | None => c0 end.
Proof.
  intros E F p rt opts c files raws H Cf Rd. unfold generate_config in H. unfold config_files in Cf. cbv zeta in H.
  assert (X : forall fs', (let! raws := read_configs E F fs' in
     let! '(c, _) := merge_configs E (resolve p) raws (match rt with Some r => Some (resolve r) | None => None end) in
     Ok match opts with Some o => apply_options o c | None => c end) = Ok c -> fs' = files ->
     exists c0 w, merge_configs E (resolve p) raws (match rt with Some r => Some (resolve r) | None => None end) = Ok (c0, w) /\
       c = match opts with Some o => apply_options o c0 | None => c0 end).
  { intros fs' Hf ->. rewrite Rd in Hf. cbn [bind] in Hf.
    destruct (merge_configs E (resolve p) raws (match rt with Some r => Some (resolve r) | None => None end)) as [[c0 w]|e]; [|discriminate]. cbn [bind] in Hf.
    exists c0, w. split; auto. congruence. }
  destruct opts as [o|].
  - destruct (o_config_file o) as [f|].
    + cbn [bind] in H. apply (X [f]); auto.
    + rewrite Cf in H. cbn [bind] in H. apply (X files); auto.
  - rewrite Cf in H. cbn [bind] in H. apply (X files); auto.
Qed.

Lemma same_lists : forall opts c0, no_rules_option opts -> let c := match opts with Some o => apply_options o c0 | None => c0 end in
  c_enable c = c_enable c0 /\ c_disable c = c_disable c0.
Proof. intros [o|] c0 H; cbn; auto. cbn in H. rewrite H. auto. Qed.

(** Which rules run, from the text of the configuration files: those switched on by the last mention of a text that names the rule, and those switched on by the last
    mention of a text that stands for all rules of a module, if no text that stands for them was last mentioned to be switched off; of these, those that the tags and
    the Python version allow. The others are called disabled, if they are switched off and not switched on by a text that names the rule. *)
Theorem C96_exact : forall W E F p rt opts c s ks d s' files raws ls,
  fair_iteration E -> fair_sets W -> modules_ok W ->
  generate_config E F p rt opts = Ok c -> no_rules_option opts ->
  config_files F p rt opts files -> read_configs E F files = Ok raws -> layers (resolve p) raws ls -> absolute (mentions ls) ->
  collect_rules W c s = (Ok (ks, d), s') ->
  let on := switched W (ps_path (with_root_import W c s)) (mentions ls) true in
  let off := switched W (ps_path (with_root_import W c s)) (mentions ls) false in
  forall k,
    (In k ks <-> (on true k \/ (on false k /\ ~ off true k /\ ~ off false k)) /\ tags_ok W c k /\ version_ok W c k) /\
    (rget k d = Some RDisabled <-> (off true k \/ off false k) /\ ~ on true k).
Proof.
  intros W E F p rt opts c s ks d s' files raws ls Fe Fs Mo G Nr Cf Rd Ly Ab Cr on off k.
  destruct (generate_inv _ _ _ _ _ _ _ _ G Cf Rd) as (c0 & w & Mc & Ec).
  destruct (same_lists opts c0 Nr) as [En Di]. rewrite <- Ec in En, Di.
  assert (Tx : forall q, In q (c_enable c) \/ In q (c_disable c) -> as_text q). { rewrite En, Di. intros q Hq. exact (C05_only_names E _ _ _ c0 w q Fe Mc Hq). }
  assert (WE : forall t mm n, rule_name false mm n t -> (In t (map qrule_str (c_enable c)) <-> last_mention t true (mentions ls))).
  { intros t mm n R. rewrite En. exact (C05_enable E _ _ _ c0 w ls false mm n t Fe Mc Ly R). }
  assert (WD : forall t mm n, rule_name false mm n t -> (In t (map qrule_str (c_disable c)) <-> last_mention t false (mentions ls))).
  { intros t mm n R. rewrite Di. exact (C05_disable E _ _ _ c0 w ls false mm n t Fe Mc Ly R). }
  assert (Gl : forall q, In q (c_enable c) \/ In q (c_disable c) -> is_local q = false).
  { intros q Hq. destruct (Tx q Hq) as (local & mm & n & R & _ & _ & El). unfold is_local. rewrite El. destruct local; auto. exfalso.
    assert (X : exists way, last_mention (qrule_str q) way (mentions ls)).
    { destruct Hq as [Hq|Hq].
      - exists true. apply (C05_enable E _ _ _ c0 w ls true mm n _ Fe Mc Ly R). rewrite <- En. now apply in_map.
      - exists false. apply (C05_disable E _ _ _ c0 w ls true mm n _ Fe Mc Ly R). rewrite <- Di. now apply in_map. }
    destruct X as (way & be & x & af & Em & Nx & _). assert (Er := proj2 (proj2 R)). rewrite Er in Nx.
    refine (Ab x _ _ Nx). rewrite Em. apply in_or_app. right. left. reflexivity. }
  destruct (findings W (c_enable c) (with_root_import W c s)) as [fe s1] eqn:E1. destruct (findings W (c_disable c) s1) as [fd s2] eqn:E2.
  pose proof (C14_selection W c s ks d s' fe s1 fd s2 Fs Cr E1 E2) as [_ Sel].
  pose proof (C15_reasons W c s ks d s' fe s1 fd s2 Fs Cr E1 E2 k) as (_ & _ & Rea). specialize (Rea RDisabled). cbn beta iota in Rea.
  destruct (findings_finds W _ _ _ _ Mo (fun q Hq => Gl q (or_introl Hq)) E1 k) as [FE NE].
  destruct (findings_finds W _ _ _ _ Mo (fun q Hq => Gl q (or_intror Hq)) E2 k) as [FD _].
  assert (P1 : ps_path s1 = ps_path (with_root_import W c s)). { pose proof (findings_path W (c_enable c) (with_root_import W c s)) as X. rewrite E1 in X. exact X. }
  rewrite P1 in FD. set (sp := ps_path (with_root_import W c s)) in *.
  pose proof (list_any W sp (c_enable c) _ (fun q Hq => Tx q (or_introl Hq)) (fun q Hq => Gl q (or_introl Hq)) WE k) as LE.
  pose proof (list_one W sp (c_enable c) _ (fun q Hq => Tx q (or_introl Hq)) (fun q Hq => Gl q (or_introl Hq)) WE k) as LN.
  pose proof (list_any W sp (c_disable c) _ (fun q Hq => Tx q (or_intror Hq)) (fun q Hq => Gl q (or_intror Hq)) WD k) as LD.
  rewrite LE in FE. rewrite LN in NE. rewrite LD in FD.
  assert (FE' : found fe k <-> on true k \/ on false k).
  { rewrite FE. split; [intros ([|] & t & X); [left|right]; exists t; exact X|intros [(t & X)|(t & X)]; eauto]. }
  assert (FD' : found fd k <-> off true k \/ off false k).
  { rewrite FD. split; [intros ([|] & t & X); [left|right]; exists t; exact X|intros [(t & X)|(t & X)]; eauto]. }
  assert (NE' : named fe k <-> on true k) by (rewrite NE; reflexivity).
  assert (Dn : on true k \/ ~ on true k).
  { rewrite <- NE'. clear. induction fe as [|[q r] fe IH]; [right; intros (q & ks & n & [] & _)|].
    destruct IH as [(q' & ks & n & Hi & X)|IH]; [left; exists q', ks, n; split; [right|]; assumption|].
    assert (Dq : (exists ks n, r = Ok ks /\ In k ks /\ q_name q = Some n /\ n <> []) \/ ~ (exists ks n, r = Ok ks /\ In k ks /\ q_name q = Some n /\ n <> [])).
    { destruct r as [ks|e]; [|right; intros (ks & n & X & _); discriminate]. destruct (q_name q) as [[|ch n]|]; try (right; intros (ks' & n' & _ & _ & X & Y); congruence).
      destruct (kmem k ks) eqn:Km; [left; apply kmem_iff in Km; exists ks, (ch :: n); repeat split; auto; discriminate|].
      right. intros (ks' & n' & X & Hi & _). injection X as <-. apply kmem_iff in Hi. congruence. }
    destruct Dq as [(ks & n & -> & X)|Dq]; [left; exists q, ks, n; split; [left; reflexivity|exact X]|].
    right. intros (q' & ks & n & [Y|Hi] & X); [injection Y as -> ->; apply Dq; exists ks, n; auto|apply IH; exists q', ks, n; auto]. }
  split.
  - rewrite Sel, FE', FD', NE'. tauto.
  - rewrite Rea, FD', NE'. reflexivity.
Qed.

Lemma last_mention_one_way : forall t ms, ~ (last_mention t true ms /\ last_mention t false ms).
Proof.
  intros t ms. induction ms as [|x ms IH] using rev_ind; [intros [H _]; exact (last_mention_nil H)|].
  intros [A B]. apply last_mention_snoc in A, B. destruct A as [[A1 A2]|[A1 A2]]; destruct B as [[B1 B2]|[B1 B2]]; try contradiction; [congruence|]. apply IH. auto.
Qed.

(** A rule that is switched on by its name runs, whatever else switches it off, if the tags and the version allow it. *)
Theorem C96_by_name : forall W E F p rt opts c s ks d s' files raws ls mm name t k,
  fair_iteration E -> fair_sets W -> modules_ok W ->
  generate_config E F p rt opts = Ok c -> no_rules_option opts ->
  config_files F p rt opts files -> read_configs E F files = Ok raws -> layers (resolve p) raws ls -> absolute (mentions ls) ->
  collect_rules W c s = (Ok (ks, d), s') ->
  rule_name false mm (Some name) t -> stands_for W (ps_path (with_root_import W c s)) true t k -> tags_ok W c k -> version_ok W c k ->
  (last_mention t true (mentions ls) -> In k ks) /\
  (last_mention t false (mentions ls) -> (forall t', t' <> t -> last_mention t' true (mentions ls) -> ~ stands_for W (ps_path (with_root_import W c s)) true t' k) -> ~ In k ks).
Proof.
  intros W E F p rt opts c s ks d s' files raws ls mm name t k Fe Fs Mo G Nr Cf Rd Ly Ab Cr R S_ T V.
  destruct (C96_exact W E F p rt opts c s ks d s' files raws ls Fe Fs Mo G Nr Cf Rd Ly Ab Cr k) as [X _]. rewrite X. split.
  - intro L. split; auto. left. exists t. auto.
  - intros L O [[(t' & L' & S')|(_ & N & _)] _].
    + destruct (str_eq_dec t' t) as [->|Ne]; [apply (last_mention_one_way t (mentions ls)); auto|]. exact (O t' Ne L' S').
    + apply N. exists t. auto.
Qed.

(** What the documentation says is true for rules that are always called by the same text: the last mention decides, a rule that is switched off is overridden by
    enable in nearer files, and one that is switched on by disable in the same or a nearer file. *)
Theorem C96_one_text : forall W E F p rt opts c s ks d s' files raws ls one t k,
  fair_iteration E -> fair_sets W -> modules_ok W ->
  generate_config E F p rt opts = Ok c -> no_rules_option opts ->
  config_files F p rt opts files -> read_configs E F files = Ok raws -> layers (resolve p) raws ls -> absolute (mentions ls) ->
  collect_rules W c s = (Ok (ks, d), s') ->
  stands_for W (ps_path (with_root_import W c s)) one t k ->
  (forall x t' one', In x (mentions ls) -> names t' x -> stands_for W (ps_path (with_root_import W c s)) one' t' k -> t' = t) ->
  (In k ks <-> last_mention t true (mentions ls) /\ tags_ok W c k /\ version_ok W c k).
Proof.
  intros W E F p rt opts c s ks d s' files raws ls one t k Fe Fs Mo G Nr Cf Rd Ly Ab Cr S_ U_.
  destruct (C96_exact W E F p rt opts c s ks d s' files raws ls Fe Fs Mo G Nr Cf Rd Ly Ab Cr k) as [X _]. rewrite X.
  assert (L : forall way one', switched W (ps_path (with_root_import W c s)) (mentions ls) way one' k -> last_mention t way (mentions ls)).
  { intros way one' (t' & L & S'). assert (t' = t); [|congruence]. destruct L as (be & x & af & Em & Nx & _).
    refine (U_ x t' one' _ Nx S'). rewrite Em. apply in_or_app. right. left. reflexivity. }
  split.
  - intros [[A|[A _]] B]; (split; [apply (L _ _ A)|exact B]).
  - intros [A B]. split; auto. destruct one; [left; exists t; auto|]. right. split; [exists t; auto|].
    split; intro Of; apply L in Of; apply (last_mention_one_way t (mentions ls)); auto.
Qed.

(** Without any entry, the rules of fixit.rules *)
Theorem C96_default : forall W E F p rt opts c s ks d s' files raws ls k,
  fair_iteration E -> fair_sets W -> modules_ok W ->
  generate_config E F p rt opts = Ok c -> no_rules_option opts ->
  config_files F p rt opts files -> read_configs E F files = Ok raws -> layers (resolve p) raws ls ->
  (forall dir tab, In (dir, tab) ls -> elements "enable" tab = [] /\ elements "disable" tab = []) ->
  collect_rules W c s = (Ok (ks, d), s') ->
  (In k ks <-> stands_for W (ps_path (with_root_import W c s)) false (u "fixit.rules") k /\ tags_ok W c k /\ version_ok W c k).
Proof.
  intros W E F p rt opts c s ks d s' files raws ls k Fe Fs Mo G Nr Cf Rd Ly No Cr.
  assert (Em : mentions ls = [Mention [] true (TStr (u "fixit.rules"))]).
  { unfold mentions. f_equal. clear -No. induction ls as [|[dir tab] ls IH]; auto. cbn [flat_map]. rewrite IH by (intros; apply (No dir0 tab0); right; assumption).
    destruct (No dir tab (or_introl eq_refl)) as [A B]. unfold mentions_of. cbn [fst snd]. rewrite A, B. reflexivity. }
  assert (Nm : forall t x, In x (mentions ls) -> names t x -> t = u "fixit.rules" \/ t ++ [10%N] = u "fixit.rules").
  { intros t x. rewrite Em. intros [<-|[]] [H|H]; injection H as H; auto. }
  assert (Ab : absolute (mentions ls)).
  { intros x rest Hx Nx. destruct (Nm _ _ Hx Nx) as [H|H]; discriminate. }
  destruct (C96_exact W E F p rt opts c s ks d s' files raws ls Fe Fs Mo G Nr Cf Rd Ly Ab Cr k) as [X _]. rewrite X.
  assert (R : forall one t, stands_for W (ps_path (with_root_import W c s)) one t k -> t ++ [10%N] <> u "fixit.rules").
  { intros one t _ H. assert (Y := f_equal (@rev N) H). rewrite rev_app_distr in Y. vm_compute in Y. discriminate. }
  assert (L : forall t, last_mention t true (mentions ls) <-> names t (Mention [] true (TStr (u "fixit.rules")))).
  { intro t. rewrite Em. change [Mention [] true (TStr (u "fixit.rules"))] with ([] ++ [Mention [] true (TStr (u "fixit.rules"))]). rewrite last_mention_snoc.
    split; [intros [[A _]|[_ A]]; [exact A|destruct (last_mention_nil A)]|auto]. }
  assert (Lo : forall t, ~ last_mention t false (mentions ls)).
  { intros t H. rewrite Em in H. change [Mention [] true (TStr (u "fixit.rules"))] with ([] ++ [Mention [] true (TStr (u "fixit.rules"))]) in H. apply last_mention_snoc in H.
    destruct H as [[_ H]|[_ H]]; [discriminate|exact (last_mention_nil H)]. }
  split.
  - intros [[(t & A & B)|((t & A & B) & _)] T]; split; auto; apply L in A; cbn [names m_value] in A; (destruct A as [A|A]; injection A as A; [subst t|exfalso; apply (R _ _ B); now symmetry]).
    + exfalso. inversion B as [|t mm nm a m ms k' R' Hi Hl Hp Eb Et Ek]; subst. destruct R' as (_ & (Ne & _) & Er). clear -Er. revert Er.
      assert (Q : forall (x y : str), In 58%N (x ++ 58%N :: y)) by (intros; apply in_or_app; right; left; reflexivity).
      intro Er. specialize (Q mm nm). cbn [app] in Er. change (u ":" ++ nm) with (58%N :: nm) in Er. rewrite <- Er in Q. vm_compute in Q.
      repeat (destruct Q as [Q|Q]; [discriminate|]). exact Q.
    + exact B.
  - intros [B T]. split; auto. right. split.
    + exists (u "fixit.rules"). split; auto. apply L. left. reflexivity.
    + split; intros (t & A & _); exact (Lo t A).
Qed.

Lemma generate_options : forall E F p rt o c, generate_config E F p rt (Some o) = Ok c -> exists c0, c = apply_options o c0.
Proof.
  intros E F p rt o c H. unfold generate_config in H. cbv zeta in H.
  match type of H with bind ?x _ = _ => destruct x as [fl|e] end; [|discriminate]. cbn [bind] in H.
  destruct (read_configs E F fl) as [raws|e]; [|discriminate]. cbn [bind] in H.
  match type of H with bind ?x _ = _ => destruct x as [[c0 w]|e] end; [|discriminate]. cbn [bind] in H. exists c0. congruence.
Qed.

(** With --rules: exactly the rules its entries stand for, whatever the files enable and disable *)
Theorem C96_option : forall W U iter cwd cf tags rules fmt tmpl o E F p rt c s ks d s',
  (forall l, Permutation (iter l) l) -> fair_sets W -> modules_ok W ->
  main_options U iter cwd cf tags rules fmt tmpl = Ok o -> generate_config E F p rt (Some o) = Ok c ->
  (exists t, entry rules t) -> (forall rest, ~ entry rules (u "." ++ rest)) ->
  collect_rules W c s = (Ok (ks, d), s') ->
  forall k, In k ks <->
    (exists one t, entry rules t /\ stands_for W (ps_path (with_root_import W c s)) one t k) /\ tags_ok W c k /\ version_ok W c k.
Proof.
  intros W U iter cwd cf tags rules fmt tmpl o E F p rt c s ks d s' Pm Fs Mo Mn G Ne Ab Cr k.
  unfold main_options in Mn. destruct (tags_parse U tags) as [tg|e]; [|discriminate]. cbn [bind] in Mn.
  destruct (parse_rules_option iter cwd rules) as [rs|e] eqn:Pr; [|discriminate]. cbn [bind] in Mn. injection Mn as <-.
  destruct (@C50_rules iter cwd rules rs Pm Pr) as (_ & Tx & Pq & Nil).
  destruct (generate_options _ _ _ _ _ _ G) as (c0 & ->).
  assert (Nr : rs <> []). { intro X. destruct Ne as (t & Ht). exact (proj1 Nil X t Ht). }
  set (c := apply_options (Options cf (Some tg) rs fmt tmpl) c0) in *.
  assert (En : c_enable c = rs) by (unfold c; cbn; destruct rs; congruence).
  assert (Di : c_disable c = []) by (unfold c; cbn; destruct rs; congruence). clearbody c.
  assert (At : forall q, In q rs -> as_text q).
  { intros q Hq. pose proof (Pq q Hq) as H. apply C13_parse_rule_grammar in H. destruct H as (local & mm & n & s0 & R & Es & A & B & C & _).
    assert (s0 = qrule_str q).
    { destruct R as (Rm & Rn & ->). unfold qrule_str. rewrite A, B. rewrite app_assoc. f_equal; [destruct local; auto|].
      destruct n as [[|ch n]|]; auto. destruct Rn. congruence. }
    subst s0. exists local, mm, n. split; auto. split; auto. rewrite A. destruct local; reflexivity. }
  assert (Gl : forall q, In q rs -> is_local q = false).
  { intros q Hq. destruct (At q Hq) as (local & mm & n & R & _ & _ & El). unfold is_local. rewrite El. destruct local; auto. exfalso.
    apply (Ab (mm ++ match n with None => [] | Some w => u ":" ++ w end)). rewrite <- (proj2 (proj2 R)). apply Tx. now apply in_map. }
  destruct (findings W (c_enable c) (with_root_import W c s)) as [fe s1] eqn:E1. destruct (findings W (c_disable c) s1) as [fd s2] eqn:E2.
  pose proof (C14_selection W c s ks d s' fe s1 fd s2 Fs Cr E1 E2) as [_ Sel]. rewrite Sel. rewrite Di in E2. cbn [findings] in E2. injection E2 as <- _.
  rewrite En in E1. destruct (findings_finds W _ _ _ _ Mo Gl E1 k) as [FE _].
  rewrite (list_any W (ps_path (with_root_import W c s)) rs (entry rules) At Gl (fun t _ _ _ => Tx t) k) in FE. rewrite FE.
  split; [intros (A & _ & B); auto|]. intros (A & B). split; auto. split; auto. intros [(q & ks0 & [] & _) _].
Qed.

(** ** A concrete case *)

(** fixit.rules with the module x, with the rule X, and the module y with the rule Y *)
Definition mod_x : pymod := PyMod [(u "LintRule", OLintRule); (u "X", ORule 1 true)] None.
Definition mod_y : pymod := PyMod [(u "Y", ORule 2 true)] None.
Definition mod_rules : pymod := PyMod [] (Some [(u "extra", true, Err ImportError); (u "x", false, Ok mod_x); (u "y", false, Ok mod_y)]).
Definition W96 : world := World
  (fun sp n => if str_eqb n (u "fixit.rules") then ([n], Ok mod_rules) else if str_eqb n (u "fixit.rules.x") then ([n], Ok mod_x) else ([], Err ImportError))
  (fun _ _ _ => ([], Err ImportError)) (fun _ => []) (fun _ => []) (fun _ _ => Ok true) (fun _ => Ok tt) (fun l => l) (fun p => join (u "/") p).
Definition X96 : cls := (1%N, None).
Definition Y96 : cls := (2%N, None).

(** /p/fixit.toml and /p/s/fixit.toml, and the file /p/s/a.py *)
Definition far_file : path := [u "p"; u "fixit.toml"].
Definition near_file : path := [u "p"; u "s"; u "fixit.toml"].
Definition F96 : fs := FS
  (fun p => if path_eqb p far_file then Some (u "far") else if path_eqb p near_file then Some (u "near") else if path_eqb p [u "p"; u "s"; u "a.py"] then Some [] else None)
  (fun p => path_eqb p [u "p"] || path_eqb p [u "p"; u "s"])%bool.
Definition E96 (far near : table) : env := ex_env (fun s =>
  Ok [(u "tool", TTab [(u "fixit", TTab (if str_eqb s (u "far") then far else near))])]).
Definition says (en dis : list string) : table :=
  [(u "enable", TArr (map (fun s => TStr (u s)) en)); (u "disable", TArr (map (fun s => TStr (u s)) dis))].
Definition raws96 (far near : table) : list raw := [Raw near_file near; Raw far_file far].

Lemma loads_rules : loads mod_rules [mod_rules; mod_x; mod_y].
Proof.
  constructor. cbn. apply ls_pkg. change [mod_x; mod_y] with ([mod_x] ++ [mod_y]). apply ls_mod; [constructor; constructor|].
  change [mod_y] with ([mod_y] ++ []). apply ls_mod; constructor; constructor.
Qed.
Lemma modules_ok96 : modules_ok W96.
Proof.
  intros sp n a m ms H L x Hx. unfold W96 in H. cbn [w_import] in H.
  assert (D : forall y, In y [mod_rules; mod_x; mod_y] -> NoDup (dkeys (attributes y))).
  { intros y [<-|[<-|[<-|[]]]]; cbn; repeat constructor; cbn; try tauto. intros [X|[]]. discriminate. }
  destruct (str_eqb n (u "fixit.rules")).
  - injection H as <- <-. rewrite (loads_unique L loads_rules) in Hx. auto.
  - destruct (str_eqb n (u "fixit.rules.x")); [|discriminate]. injection H as <- <-.
    assert (L' : loads mod_x [mod_x]) by (constructor; constructor). rewrite (loads_unique L L') in Hx. apply D. destruct Hx as [<-|[]]. right; left; reflexivity.
Qed.
Lemma name_of : forall s root q, parse_rule s root = Ok q -> qrule_str q = s -> q_local q = None -> rule_name false (q_module q) (q_name q) s.
Proof.
  intros s root q H Es El. apply C13_parse_rule_grammar in H. destruct H as (local & mm & n & s0 & R & Ex & A & B & C & _). rewrite El in C. destruct local; [discriminate|].
  rewrite A, B. destruct Ex as [->|Ex]; auto. exfalso. destruct R as (Rm & Rn & ->). rewrite <- Es in Ex. unfold qrule_str in Ex. rewrite A, B in Ex. cbn [app] in Ex. clear -Ex Rn.
  assert (Y := f_equal (@List.length N) Ex). rewrite !app_length in Y. destruct n as [[|ch n]|]; cbn in Y; try lia.
Qed.
Lemma all_stands : forall sp, stands_for W96 sp false (u "fixit.rules") X96 /\ stands_for W96 sp false (u "fixit.rules") Y96.
Proof.
  intro sp. assert (R : rule_name false (u "fixit.rules") None (u "fixit.rules")).
  { exact (name_of (u "fixit.rules") [] (QRule (u "fixit.rules") None None None) ltac:(vm_compute; reflexivity) eq_refl eq_refl). }
  split.
  - apply (sf_all W96 sp (u "fixit.rules") [u "fixit.rules"] mod_rules [mod_rules; mod_x; mod_y] (u "X") X96 R); [reflexivity|exact loads_rules|reflexivity].
  - apply (sf_all W96 sp (u "fixit.rules") [u "fixit.rules"] mod_rules [mod_rules; mod_x; mod_y] (u "Y") Y96 R); [reflexivity|exact loads_rules|reflexivity].
Qed.
Lemma one_stands : forall sp, stands_for W96 sp true (u "fixit.rules:X") X96 /\ stands_for W96 sp true (u "fixit.rules.x:X") X96.
Proof.
  intro sp. split.
  - apply (sf_one W96 sp (u "fixit.rules:X") (u "fixit.rules") (u "X") [u "fixit.rules"] mod_rules [mod_rules; mod_x; mod_y]); [|reflexivity|exact loads_rules|reflexivity].
    exact (name_of (u "fixit.rules:X") [] (QRule (u "fixit.rules") (Some (u "X")) None None) ltac:(vm_compute; reflexivity) eq_refl eq_refl).
  - apply (sf_one W96 sp (u "fixit.rules.x:X") (u "fixit.rules.x") (u "X") [u "fixit.rules.x"] mod_x [mod_x]); [|reflexivity|constructor; constructor|reflexivity].
    exact (name_of (u "fixit.rules.x:X") [] (QRule (u "fixit.rules.x") (Some (u "X")) None None) ltac:(vm_compute; reflexivity) eq_refl eq_refl).
Qed.

Definition runs96 (far near : table) : option (list cls) :=
  match generate_config (E96 far near) F96 [u "p"; u "s"; u "a.py"] None None with
  | Ok c => match fst (collect_rules W96 c (PyState [] [] 0)) with Ok (ks, _) => Some ks | Err _ => None end
  | Err _ => None
  end.

(** The hypotheses of the theorems are met: two files, entries in both *)
Example C96_example : let far := says [] ["fixit.rules:X"%string] in let near := says ["fixit.rules:X"%string] ["fixit.rules"%string] in exists c d,
  fair_iteration (E96 far near) /\ fair_sets W96 /\ modules_ok W96 /\
  generate_config (E96 far near) F96 [u "p"; u "s"; u "a.py"] None None = Ok c /\
  config_files F96 [u "p"; u "s"; u "a.py"] None None [near_file; far_file] /\
  read_configs (E96 far near) F96 [near_file; far_file] = Ok (raws96 far near) /\
  layers [u "p"; u "s"; u "a.py"] (raws96 far near) [([u "p"], far); ([u "p"; u "s"], near)] /\
  absolute (mentions [([u "p"], far); ([u "p"; u "s"], near)]) /\
  fst (collect_rules W96 c (PyState [] [] 0)) = Ok ([X96], d).
Proof.
  intros far near. eexists. eexists. split; [intro l; reflexivity|]. split; [intro l; reflexivity|]. split; [exact modules_ok96|].
  split; [vm_compute; reflexivity|]. split; [vm_compute; reflexivity|]. split; [vm_compute; reflexivity|]. split; [apply layers_iff; vm_compute; reflexivity|]. split.
  - intros x rest Hx Nx. cbn in Hx. destruct Hx as [<-|[<-|[<-|[<-|[]]]]]; destruct Nx as [Nx|Nx]; discriminate.
  - vm_compute. reflexivity.
Qed.
Example C96_runs_example :
  runs96 [] [] = Some [X96; Y96] /\
  runs96 (says [] ["fixit.rules:X"%string]) (says [] []) = Some [Y96] /\
  runs96 (says [] ["fixit.rules"%string]) (says ["fixit.rules"%string] []) = Some [X96; Y96] /\
  runs96 (says ["fixit.rules:X"%string] []) (says [] ["fixit.rules:X"%string]) = Some [Y96].
Proof. repeat split; vm_compute; reflexivity. Qed.

(** The documentation says that enable overrides what files further up disable; this is not so for a rule that is enabled with all the rules of its module and that
    a file further up disables by name, *)
Theorem C96_enable_refuted : exists W E F p far near c s ks d s' k,
  fair_iteration E /\ fair_sets W /\ modules_ok W /\
  locate_configs F p None = Ok [near; far] /\
  has_table E F far (says [] ["fixit.rules:X"%string]) /\ has_table E F near (says ["fixit.rules"%string] []) /\
  generate_config E F p None None = Ok c /\ collect_rules W c s = (Ok (ks, d), s') /\
  stands_for W (ps_path (with_root_import W c s)) false (u "fixit.rules") k /\ tags_ok W c k /\ version_ok W c k /\ ~ In k ks.
Proof.
  set (far := says [] ["fixit.rules:X"%string]). set (near := says ["fixit.rules"%string] []).
  exists W96, (E96 far near), F96, [u "p"; u "s"; u "a.py"], far_file, near_file. eexists. exists (PyState [] [] 0). do 3 eexists. exists X96.
  split; [intro l; reflexivity|]. split; [intro l; reflexivity|]. split; [exact modules_ok96|]. split; [vm_compute; reflexivity|].
  split; [exists (u "far"), [(u "tool", TTab [(u "fixit", TTab far)])], [(u "fixit", TTab far)]; repeat split; discriminate|].
  split; [exists (u "near"), [(u "tool", TTab [(u "fixit", TTab near)])], [(u "fixit", TTab near)]; repeat split; discriminate|].
  split; [vm_compute; reflexivity|]. split; [vm_compute; reflexivity|]. split; [apply all_stands|].
  split; [split; [intros x []|left; reflexivity]|]. split; [intros v _; reflexivity|]. intros [H|[]]. discriminate.
Qed.

(** ... and disable does not override what the same file or one further up enables, if that enables the rule by name and this disables all rules of the module, or
    gives another name of the rule. *)
Theorem C96_disable_refuted : forall off, off = "fixit.rules"%string \/ off = "fixit.rules.x:X"%string -> exists W E F p far near c s ks d s' k,
  fair_iteration E /\ fair_sets W /\ modules_ok W /\
  locate_configs F p None = Ok [near; far] /\
  has_table E F far (says ["fixit.rules:X"%string] []) /\ has_table E F near (says [] [off]) /\
  generate_config E F p None None = Ok c /\ collect_rules W c s = (Ok (ks, d), s') /\
  (exists one, stands_for W (ps_path (with_root_import W c s)) one (u off) k) /\ In k ks.
Proof.
  intros off O. set (far := says ["fixit.rules:X"%string] []). set (near := says [] [off]).
  exists W96, (E96 far near), F96, [u "p"; u "s"; u "a.py"], far_file, near_file. destruct O as [->| ->].
  - eexists. exists (PyState [] [] 0). do 3 eexists. exists X96.
    split; [intro l; reflexivity|]. split; [intro l; reflexivity|]. split; [exact modules_ok96|]. split; [vm_compute; reflexivity|].
    split; [exists (u "far"), [(u "tool", TTab [(u "fixit", TTab far)])], [(u "fixit", TTab far)]; repeat split; discriminate|].
    split; [exists (u "near"), [(u "tool", TTab [(u "fixit", TTab near)])], [(u "fixit", TTab near)]; repeat split; discriminate|].
    split; [vm_compute; reflexivity|]. split; [vm_compute; reflexivity|]. split; [exists false; apply all_stands|]. left. reflexivity.
  - eexists. exists (PyState [] [] 0). do 3 eexists. exists X96.
    split; [intro l; reflexivity|]. split; [intro l; reflexivity|]. split; [exact modules_ok96|]. split; [vm_compute; reflexivity|].
    split; [exists (u "far"), [(u "tool", TTab [(u "fixit", TTab far)])], [(u "fixit", TTab far)]; repeat split; discriminate|].
    split; [exists (u "near"), [(u "tool", TTab [(u "fixit", TTab near)])], [(u "fixit", TTab near)]; repeat split; discriminate|].
    split; [vm_compute; reflexivity|]. split; [vm_compute; reflexivity|]. split; [exists true; apply one_stands|]. left. reflexivity.
Qed.

(** fixit upgrade: exactly the rules of the modules directly in fixit.upgrade *)
Theorem C96_upgrade : forall W o E F p rt c s ks d s',
  fair_sets W -> modules_ok W -> generate_config E F p rt (Some (upgrade_options o)) = Ok c -> collect_rules W c s = (Ok (ks, d), s') ->
  forall k, In k ks <-> stands_for W (ps_path (with_root_import W c s)) false (u "fixit.upgrade") k /\ tags_ok W c k /\ version_ok W c k.
Proof.
  intros W o E F p rt c s ks d s' Fs Mo G Cr k. destruct (generate_options _ _ _ _ _ _ G) as (c0 & Ec).
  set (q := QRule (u "fixit.upgrade") None None None).
  assert (En : c_enable c = [q]) by (rewrite Ec; reflexivity). assert (Di : c_disable c = []) by (rewrite Ec; reflexivity). clear Ec.
  assert (Eq : as_text q).
  { exists false, (u "fixit.upgrade"), None. split; [|auto]. exact (name_of (u "fixit.upgrade") [] q ltac:(vm_compute; reflexivity) eq_refl eq_refl). }
  destruct (findings W (c_enable c) (with_root_import W c s)) as [fe s1] eqn:E1. destruct (findings W (c_disable c) s1) as [fd s2] eqn:E2.
  pose proof (C14_selection W c s ks d s' fe s1 fd s2 Fs Cr E1 E2) as [_ Sel]. rewrite Sel. rewrite Di in E2. cbn [findings] in E2. injection E2 as <- _.
  rewrite En in E1. destruct (findings_finds W [q] (with_root_import W c s) fe s1 Mo) with (k := k) as [FE _]; [intros q' [<-|[]]; reflexivity|exact E1|].
  rewrite FE. pose proof (stands_finds W (ps_path (with_root_import W c s)) q k Eq eq_refl) as St. change (is_one q) with false in St. change (qrule_str q) with (u "fixit.upgrade") in St. split.
  - intros ((q' & [<-|[]] & Hf) & _ & B). split; auto. now apply St.
  - intros (A & B). split; [exists q; split; [left; reflexivity|now apply St]|]. split; auto. intros [(q0 & ks0 & [] & _) _].
Qed.
