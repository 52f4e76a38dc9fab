(** * C11: what --config-file does *)
From Coq Require Import String List NArith ZArith Bool Arith Lia Permutation Sorted.
From Verif Require Import Base PyStr Regex Ftypes Paths Config ConfigSpec ConfigFacts ConfigMentions ConfigValid ConfigProps ConfigDiscover RuleNameSpec.
Import ListNotations.

(** The array names the rule written [t]. *)
Definition listed (t : str) (l : list toml) : Prop := In (TStr t) l \/ In (TStr (t ++ [10%N])) l.

Lemma listed_mention : forall t dir b l, listed t l <-> exists y, In y (map (Mention dir b) l) /\ names t y.
Proof.
  intros t dir b l. unfold listed, names. split.
  - intros [I|I]; eexists; (split; [apply in_map; exact I|]); cbn; auto.
  - intros (y & I & N). apply in_map_iff in I. destruct I as (v & <- & I). cbn [m_value] in N. destruct N as [->| ->]; auto.
Qed.

Lemma names_dec : forall t y, names t y \/ ~ names t y.
Proof.
  intros t y. unfold names. destruct (m_value y) as [s| | | | | |] eqn:E; try (right; intros [H|H]; discriminate).
  destruct (str_eq_dec s t) as [->|N1]; [auto|]. destruct (str_eq_dec s (t ++ [10%N])) as [->|N2]; [auto|].
  right. intros [H|H]; injection H as H; contradiction.
Qed.


Lemma last_or_none : forall (ms : list mention) t,
  (exists before x after, ms = before ++ x :: after /\ names t x /\ forall y, In y after -> ~ names t y) \/
  (forall y, In y ms -> ~ names t y).
Proof.
  induction ms as [|m ms IH]; intro t; [right; intros y []|].
  destruct (IH t) as [(b & x & a & -> & N & A)|H].
  - left. exists (m :: b), x, a. auto.
  - destruct (names_dec t m) as [N|N]; [left; exists [], m, ms; auto|]. right. intros y [<-|I]; auto.
Qed.

(** The last mention among default, enabled and disabled entries of one table *)
Lemma last_of_table : forall t dir en dis enable,
  last_mention t enable (Mention [] true (TStr (u "fixit.rules")) :: map (Mention dir true) en ++ map (Mention dir false) dis) <->
  if enable : bool then (names t (Mention [] true (TStr (u "fixit.rules"))) \/ listed t en) /\ ~ listed t dis else listed t dis.
Proof.
  intros t dir en dis enable. set (m0 := Mention [] true (TStr (u "fixit.rules"))).
  assert (U : forall b, last_mention t b (m0 :: map (Mention dir true) en ++ map (Mention dir false) dis) ->
                        if b then ~ listed t dis else listed t dis).
  { intros b (be & x & af & E & N & Eb & A). destruct (last_or_none (map (Mention dir false) dis) t) as [(b2 & x2 & a2 & E2 & N2 & A2)|H].
    - assert (L : listed t dis) by (apply (listed_mention t dir false); exists x2; split; auto; rewrite E2; apply in_app_iff; simpl; auto).
      destruct b; [|exact L]. exfalso.
      assert (X : x = x2).
      { assert (Es : (m0 :: map (Mention dir true) en ++ b2) ++ x2 :: a2 = be ++ x :: af) by (rewrite <- E, E2; cbn; rewrite <- app_assoc; reflexivity).
        clear - Es N N2 A A2. revert be Es. generalize (m0 :: map (Mention dir true) en ++ b2). intros l.
        induction l as [|y l IH]; intros [|z be] Es; cbn in Es; injection Es as E1 E2.
        - congruence.
        - subst. exfalso. apply (A2 x); [apply in_app_iff; simpl; auto|auto].
        - subst. exfalso. apply (A x2); [apply in_app_iff; simpl; auto|auto].
        - eapply IH; eauto. }
      subst x2. assert (I : In x (map (Mention dir false) dis)) by (rewrite E2; apply in_app_iff; simpl; auto).
      apply in_map_iff in I. destruct I as (v & <- & _). discriminate.
    - assert (L : ~ listed t dis) by (intro L; apply (listed_mention t dir false) in L; destruct L as (y & I & Ny); exact (H y I Ny)).
      destruct b; [exact L|]. exfalso.
      assert (I : In x (m0 :: map (Mention dir true) en ++ map (Mention dir false) dis)) by (rewrite E; apply in_app_iff; simpl; auto).
      destruct I as [<-|I]; [discriminate|]. apply in_app_iff in I. destruct I as [I|I]; [apply in_map_iff in I; destruct I as (v & <- & _); discriminate|].
      exact (H x I N). }
  split.
  - intro H. pose proof (U _ H) as K. destruct enable; [|exact K]. split; [|exact K].
    destruct H as (be & x & af & E & N & Eb & A).
    assert (I : In x (m0 :: map (Mention dir true) en ++ map (Mention dir false) dis)) by (rewrite E; apply in_app_iff; simpl; auto).
    destruct I as [<-|I]; [auto|]. right. apply in_app_iff in I. destruct I as [I|I].
    + apply (listed_mention t dir true). eauto.
    + apply in_map_iff in I. destruct I as (v & <- & _). discriminate.
  - intro H. destruct (last_or_none (m0 :: map (Mention dir true) en ++ map (Mention dir false) dis) t) as [(be & x & af & E & N & A)|Hn].
    + destruct (Bool.bool_dec (m_enable x) enable) as [Eb|Eb]; [exists be, x, af; auto|]. exfalso.
      assert (L : last_mention t (negb enable) (m0 :: map (Mention dir true) en ++ map (Mention dir false) dis))
        by (exists be, x, af; repeat split; auto; destruct (m_enable x), enable; auto; contradiction).
      apply U in L. destruct enable; cbn in L; tauto.
    + exfalso. destruct enable.
      * destruct H as [[H|H] _]; [apply (Hn m0); simpl; auto|]. apply (listed_mention t dir true) in H. destruct H as (y & I & Ny).
        apply (Hn y); [right; apply in_app_iff; auto|auto].
      * apply (listed_mention t dir false) in H. destruct H as (y & I & Ny). apply (Hn y); [right; apply in_app_iff; auto|auto].
Qed.

Lemma no_override_layers : forall file dir os, (forall o, In o os -> ~ override_applies dir file o) -> overrides_layers file dir os [].
Proof. induction os as [|o os IH]; intro H; constructor; [apply H; simpl; auto|]. apply IH. intros x I. apply H. simpl. auto. Qed.

Lemma parent_nodots : forall p, ~ In (u "..") p -> ~ In (u "..") (parent p).
Proof.
  intros p N I. apply N. unfold parent in I. destruct p as [|x p]; [exact I|].
  rewrite (@app_removelast_last _ (x :: p) []) by discriminate. apply in_app_iff. auto.
Qed.

Lemma parent_resolved : forall p, resolve (parent (resolve p)) = parent (resolve p).
Proof. intro p. apply resolve_nodots, parent_nodots, resolve_has_nodots. Qed.

Lemma one_file : forall E F path root o f d c,
  o_config_file o = Some f -> has_table E F (resolve f) d ->
  generate_config E F path root (Some o) = Ok c ->
  exists c0 w root', merge_configs E (resolve path) [Raw (resolve f) d] root' = Ok (c0, w) /\ c = apply_options o c0.
Proof.
  intros E F path root o f d c Ho Ht H. unfold generate_config in H. rewrite Ho in H. cbn [bind] in H.
  apply bind_ok in H. destruct H as (raws & Hr & H). apply bind_ok in H. destruct H as ([c0 w] & Hm & H). injection H as <-.
  assert (R : raws = [Raw (resolve f) d]).
  { apply C02_read in Hr. inversion Hr as [|? ? ? Hn Hr2|? ? ? d2 Ht2 Hg Hr2|? ? d2 Ht2 Hg]; subst.
    - exfalso. destruct Hn as (content & data & A & B & C). destruct Ht as (content2 & data2 & tool & A2 & B2 & C2 & D2 & N).
      assert (content2 = content) by congruence. subst. assert (data2 = data) by congruence. subst.
      destruct C as [C|(tool2 & C & G)]; [congruence|]. rewrite C2 in C. injection C as <-. unfold given in G. rewrite D2 in G.
      destruct d; [congruence|discriminate].
    - inversion Hr2; subst. f_equal. f_equal. destruct Ht as (c1 & d1 & t1 & A & B & C & D & _). destruct Ht2 as (c3 & d3 & t3 & A3 & B3 & C3 & D3 & _). congruence.
    - f_equal. f_equal. destruct Ht as (c1 & d1 & t1 & A & B & C & D & _). destruct Ht2 as (c3 & d3 & t3 & A3 & B3 & C3 & D3 & _). congruence. }
  subst raws. eauto.
Qed.

(** --config-file with a file in a directory above the linted path, and no applicable overrides in it: exactly the rules
    it lists (and the default set) are enabled, unless it disables them. *)
Theorem C11_config_file_honoured : forall E F path root o f d c,
  fair_iteration E -> o_config_file o = Some f -> o_rules o = [] ->
  has_table E F (resolve f) d -> above (parent (resolve f)) (resolve path) ->
  (forall x, In x (elements "overrides" d) -> ~ override_applies (parent (resolve f)) (resolve path) x) ->
  generate_config E F path root (Some o) = Ok c ->
  (forall local mm n t, rule_name local mm n t ->
    (In t (map qrule_str (c_enable c)) <-> (t = u "fixit.rules" \/ listed t (elements "enable" d)) /\ ~ listed t (elements "disable" d)) /\
    (In t (map qrule_str (c_disable c)) <-> listed t (elements "disable" d))) /\
  (distinct_options d -> forall rule, dget rule (c_options c) = options_for rule d) /\
  (forall v, given "formatter" d = Some (TStr v) -> c_formatter c = Some v) /\
  (forall v, v <> [] -> dget (u "python-version") d = Some (TStr v) -> c_python c = Some v).
Proof.
  intros E F path root o f d c HE Ho Hr Ht Ha Hov H. destruct (one_file _ _ _ _ _ _ _ _ Ho Ht H) as (c0 & w & root' & Hm & ->).
  assert (L : layers (resolve path) [Raw (resolve f) d] ([] ++ (parent (resolve f), d) :: [])).
  { apply (l_yes _ (Raw (resolve f) d)); [constructor| |]; unfold rc_dir; cbn [rc_path rc_data].
    - rewrite parent_resolved. exact Ha.
    - apply no_override_layers. exact Hov. }
  cbn [app] in L. unfold apply_options. rewrite Hr. cbn [c_enable c_disable c_options c_formatter c_python].
  split; [|split; [|split]].
  - intros local mm n t Rt. rewrite (C05_enable _ _ _ _ _ _ _ _ _ _ _ HE Hm L Rt), (C05_disable _ _ _ _ _ _ _ _ _ _ _ HE Hm L Rt).
    unfold mentions. cbn [flat_map]. rewrite app_nil_r. unfold mentions_of. cbn [fst snd]. rewrite !last_of_table. split; [|reflexivity].
    assert (Nm : names t (Mention [] true (TStr (u "fixit.rules"))) <-> t = u "fixit.rules").
    { unfold names. cbn [m_value]. split.
      - intros [E1|E1]; injection E1 as E1; [congruence|]. exfalso.
        assert (X : last (map (fun x => x) (u "fixit.rules")) 0%N = 10%N) by (rewrite map_id; change (u "fixit.rules") with (u "fixit.rules"); rewrite E1; apply last_last). vm_compute in X. discriminate.
      - intros ->. auto. }
    rewrite Nm. reflexivity.
  - intros Hd rule. rewrite (C08_options _ _ _ _ _ _ _ rule Hm L); [reflexivity|]. intros l [<-|[]]. exact Hd.
  - intros v G. pose proof (C04_formatter _ _ _ _ _ _ _ Hm L) as K. cbn [map last_some snd] in K. rewrite G in K.
    destruct K as (s & Es & K). congruence.
  - intros v Nv G. rewrite (C04_python_version _ _ _ _ _ _ _ Hm L). cbn [map last_some snd]. rewrite G. destruct v; [congruence|reflexivity].
Qed.

(** --config-file in general: the configuration is what the file's own table (if the linted path is below the file's directory) and its
    applicable overrides say, as if it were the only configuration file, with the other options applied. *)
Theorem C11_config_file_settings : forall E F path root o f d c ls,
  fair_iteration E -> o_config_file o = Some f -> has_table E F (resolve f) d ->
  generate_config E F path root (Some o) = Ok c -> layers (resolve path) [Raw (resolve f) d] ls ->
  (o_rules o = [] -> forall local mm n t, rule_name local mm n t ->
    (In t (map qrule_str (c_enable c)) <-> last_mention t true (mentions ls)) /\ (In t (map qrule_str (c_disable c)) <-> last_mention t false (mentions ls))) /\
  (o_rules o <> [] -> c_enable c = o_rules o /\ c_disable c = []) /\
  ((forall l, In l ls -> distinct_options (snd l)) -> forall rule, dget rule (c_options c) = last_some (map (fun l => options_for rule (snd l)) ls)) /\
  match last_some (map (fun l => given "formatter" (snd l)) ls) with
  | None => c_formatter c = None
  | Some v => exists s, v = TStr s /\ c_formatter c = Some s
  end /\
  c_python c = match last_some (map (fun l => dget (u "python-version") (snd l)) ls) with
               | None => Some (e_running E)
               | Some (TStr []) => None
               | Some (TStr s) => Some s
               | Some _ => None
               end /\
  (o_format o = None -> match given "output-format" d with
                        | None => c_format c = OFfixit
                        | Some v => (v = TStr (u "custom") /\ c_format c = OFcustom) \/ (v = TStr (u "fixit") /\ c_format c = OFfixit) \/
                                    (v = TStr (u "vscode") /\ c_format c = OFvscode)
                        end) /\
  (forall x, o_format o = Some x -> c_format c = x) /\
  c_template c = (match o_template o with [] => match given "output-template" d with None => TStr [] | Some v => v end | t => TStr t end).
Proof.
  intros E F path root o f d c ls HE Ho Ht H L. destruct (one_file _ _ _ _ _ _ _ _ Ho Ht H) as (c0 & w & root' & Hm & ->).
  unfold apply_options. cbn [c_enable c_disable c_options c_formatter c_python c_format c_template].
  split; [intros Hr local mm n t Rt; rewrite Hr; split; [eapply C05_enable; eauto|eapply C05_disable; eauto]|].
  split; [intro Hr; destruct (o_rules o); [contradiction|auto]|].
  split; [intros Hd rule; eapply C08_options; eauto|]. split; [eapply C04_formatter; eauto|]. split; [eapply C04_python_version; eauto|].
  pose proof (C04_output_format _ _ _ _ _ _ Hm) as Kf. cbn [map first_some rc_data] in Kf.
  split; [intros ->; destruct (given "output-format" d); exact Kf|]. split; [intros x ->; reflexivity|].
  pose proof (C04_output_template _ _ _ _ _ _ Hm) as Kt. cbn [map first_some rc_data] in Kt. rewrite Kt. destruct (o_template o), (given "output-template" d); reflexivity.
Qed.

(** ... and with a file elsewhere, none of them has any effect. *)
Theorem C11_config_file_ignored : forall E F path root o f d c,
  fair_iteration E -> o_config_file o = Some f -> o_rules o = [] ->
  has_table E F (resolve f) d -> ~ above (parent (resolve f)) (resolve path) ->
  (forall x, In x (elements "overrides" d) -> ~ override_applies (parent (resolve f)) (resolve path) x) ->
  generate_config E F path root (Some o) = Ok c ->
  (forall local mm n t, rule_name local mm n t ->
    (In t (map qrule_str (c_enable c)) <-> t = u "fixit.rules") /\ ~ In t (map qrule_str (c_disable c))) /\
  (forall rule, dget rule (c_options c) = None) /\ c_formatter c = None /\ c_python c = Some (e_running E).
Proof.
  intros E F path root o f d c HE Ho Hr Ht Ha Hov H. destruct (one_file _ _ _ _ _ _ _ _ Ho Ht H) as (c0 & w & root' & Hm & ->).
  assert (L : layers (resolve path) [Raw (resolve f) d] ([] ++ [])).
  { apply (l_no _ (Raw (resolve f) d)); [constructor| |]; unfold rc_dir; cbn [rc_path rc_data].
    - rewrite parent_resolved. exact Ha.
    - apply no_override_layers. exact Hov. }
  cbn [app] in L. unfold apply_options. rewrite Hr. cbn [c_enable c_disable c_options c_formatter c_python].
  split; [|split; [|split]].
  - intros local mm n t Rt. rewrite (C05_enable _ _ _ _ _ _ _ _ _ _ _ HE Hm L Rt), (C05_disable _ _ _ _ _ _ _ _ _ _ _ HE Hm L Rt).
    unfold mentions. cbn [flat_map]. change (@nil mention) with (map (Mention [] true) [] ++ map (Mention [] false) []). rewrite !last_of_table. unfold listed. cbn [In].
    assert (Nm : names t (Mention [] true (TStr (u "fixit.rules"))) <-> t = u "fixit.rules").
    { unfold names. cbn [m_value]. split.
      - intros [E1|E1]; injection E1 as E1; [congruence|]. exfalso.
        assert (X : last (u "fixit.rules") 0%N = 10%N) by (rewrite E1; apply last_last). vm_compute in X. discriminate.
      - intros ->. auto. }
    rewrite Nm. tauto.
  - intro rule. rewrite (C08_options _ _ _ _ _ _ _ rule Hm L); [reflexivity|]. intros l [].
  - exact (C04_formatter _ _ _ _ _ _ _ Hm L).
  - rewrite (C04_python_version _ _ _ _ _ _ _ Hm L). reflexivity.
Qed.

Example C11_honoured_example :
  let E := ex_env (fun _ => Ok ex_table) in
  let F := FS (fun p => if path_eqb p [u "repo"; u "fixit.toml"] then Some [] else None) (fun _ => false) in
  (exists d, has_table E F (resolve [u "repo"; u "fixit.toml"]) d /\ elements "overrides" d = []) /\
  above (parent (resolve [u "repo"; u "fixit.toml"])) (resolve [u "repo"; u "a.py"]) /\
  exists c, generate_config E F [u "repo"; u "a.py"] None (Some (ex_opts [u "repo"; u "fixit.toml"])) = Ok c /\
    map qrule_str (c_enable c) = [u "my.rules"] /\ map qrule_str (c_disable c) = [u "fixit.rules"].
Proof.
  cbv zeta. split; [|split].
  - exists [(u "enable", TArr [TStr (u "my.rules")]); (u "disable", TArr [TStr (u "fixit.rules")])]. split; [|reflexivity].
    exists [], ex_table. eexists. repeat split; try reflexivity. discriminate.
  - exists [u "a.py"]. reflexivity.
  - eexists. split; [vm_compute; reflexivity|]. split; vm_compute; reflexivity.
Qed.
