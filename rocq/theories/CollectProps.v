(** * C14-C20, C48: finding, selecting and validating rules *)
From Coq Require Import String List NArith ZArith Bool Arith Lia Permutation Sorted.
From Verif Require Import Base PyStr Regex Ftypes Paths Config ConfigSpec ConfigFacts
  Collect CollectSpec CollectFacts CollectSelect.
Import ListNotations.

(** ** C18: finding rules *)

(** The module loads, it and its non-package submodules bind distinct attributes: every rule class
    is yielded once per name, in the order of the names. *)
Theorem C18_whole_module : forall W q s m ms,
  (q_name q = None \/ q_name q = Some []) ->
  outcome W q s = Ok m -> loads m ms -> distinct_attrs ms ->
  exists names ks,
    fst (find_rules W q s) = Ok ks /\
    Forall2 (fun n k => provides (generation q s) ms n = Some k) names ks /\
    StronglySorted (fun a b => str_leb a b = true /\ a <> b) names /\
    (forall n, In n names <-> provides (generation q s) ms n <> None).
Proof.
  intros W q s m ms Hq Ho Hl Hd. destruct (find_rules_eq W q s) as [-> _]. rewrite Ho. cbn [bind].
  destruct (loads_walk (generation q s) Hl) as (d & Hw). rewrite Hw. cbn [bind].
  destruct (walk_spec (generation q s) m Hw) as (ms' & Hl' & N & C).
  rewrite (loads_unique Hl' Hl) in C. specialize (C Hd).
  exists (sorted str_leb (dkeys d)),
    (flat_map (fun name => match dget name d with Some k => [k] | None => [] end) (sorted str_leb (dkeys d))).
  assert (P : Permutation (dkeys d) (sorted str_leb (dkeys d))) by apply sorted_perm.
  assert (K : forall n, In n (sorted str_leb (dkeys d)) <-> dget n d <> None).
  { intro n. split.
    - intros Hi Hn. apply dget_none in Hn. apply Hn. eapply Permutation_in; [apply Permutation_sym, P|exact Hi].
    - intro Hn. eapply Permutation_in; [exact P|]. destruct (in_dec str_eq_dec n (dkeys d)) as [H|H]; auto.
      apply dget_none in H. contradiction. }
  split; [|split; [|split]].
  - unfold select. destruct Hq as [-> | ->]; reflexivity.
  - assert (K' : forall n, In n (sorted str_leb (dkeys d)) -> dget n d <> None) by (intro n; apply K).
    revert K'. generalize (sorted str_leb (dkeys d)). induction l as [|n l IH]; intro K'; cbn [flat_map]; [constructor|].
    destruct (dget n d) as [k|] eqn:E; [|exfalso; apply (K' n); simpl; auto].
    cbn [app]. constructor; [now rewrite <- C|]. apply IH. intros x Hx. apply K'. simpl. auto.
  - assert (NS : NoDup (sorted str_leb (dkeys d))) by (eapply Permutation_NoDup; eauto).
    assert (S : StronglySorted (fun a b => str_leb a b = true) (sorted str_leb (dkeys d))).
    { apply sorted_sorted; [apply str_leb_total | apply str_leb_trans]. }
    revert NS S. generalize (sorted str_leb (dkeys d)). induction l as [|n l IH]; intros NS S; constructor.
    + inversion NS; inversion S; subst. auto.
    + inversion NS; inversion S; subst. rewrite Forall_forall in *. intros x Hx. split; auto. intro Ex. subst x. contradiction.
  - intro n. rewrite K, C. tauto.
Qed.

(** A named rule: exactly this class, or CollectionError. *)
Theorem C18_named : forall W q s n m ms,
  q_name q = Some n -> n <> [] ->
  outcome W q s = Ok m -> loads m ms -> distinct_attrs ms ->
  fst (find_rules W q s) = match provides (generation q s) ms n with
                           | Some k => Ok [k]
                           | None => Err CollectionError
                           end.
Proof.
  intros W q s n m ms Hq Hn Ho Hl Hd. destruct (find_rules_eq W q s) as [-> _]. rewrite Ho. cbn [bind].
  destruct (loads_walk (generation q s) Hl) as (d & Hw). rewrite Hw. cbn [bind].
  destruct (walk_spec (generation q s) m Hw) as (ms' & Hl' & N & C).
  rewrite (loads_unique Hl' Hl) in C. specialize (C Hd).
  unfold select. rewrite Hq. destruct n as [|c n]; [congruence|]. rewrite C.
  destruct (provides (generation q s) ms (c :: n)); reflexivity.
Qed.

(** If the module or one of its submodules does not import, nothing is found; an ImportError
    becomes a CollectionError. *)
Theorem C18_import_failure : forall W q s,
  (forall e, outcome W q s = Err e ->
     fst (find_rules W q s) = Err (match e with ImportError => CollectionError | _ => e end)) /\
  (forall m, outcome W q s = Ok m -> (forall ms, ~ loads m ms) ->
     exists e, fst (find_rules W q s) = Err e /\ e <> ImportError) /\
  fst (find_rules W q s) <> Err ImportError.
Proof.
  intros W q s. destruct (find_rules_eq W q s) as [-> _]. split; [|split].
  - intros e ->. cbn [bind wrap]. destruct e; reflexivity.
  - intros m -> Hn. cbn [bind]. destruct (walk_module (generation q s) m) as [d|e] eqn:E.
    + apply walk_spec in E. destruct E as (ms & Hl & _). exfalso. apply (Hn ms Hl).
    + cbn [bind wrap]. destruct e; eexists; split; try reflexivity; discriminate.
  - destruct (let! m := outcome W q s in _) as [x|e]; [discriminate|]. destruct e; discriminate.
Qed.

(** ** C14, C15: selection *)

Theorem C14_selection : forall W c s ks d s' fe s1 fd s2,
  fair_sets W -> collect_rules W c s = (Ok (ks, d), s') ->
  findings W (c_enable c) (with_root_import W c s) = (fe, s1) ->
  findings W (c_disable c) s1 = (fd, s2) ->
  NoDup ks /\
  forall k, In k ks <->
    found fe k /\ ~ (found fd k /\ ~ named fe k) /\ tags_ok W c k /\ version_ok W c k.
Proof.
  intros W c s ks d s' fe s1 fd s2 F H H1 H2. pose proof (collect_spec c s F H) as K.
  rewrite H1, H2 in K. destruct K as (A & B & _). auto.
Qed.

Theorem C15_reasons : forall W c s ks d s' fe s1 fd s2,
  fair_sets W -> collect_rules W c s = (Ok (ks, d), s') ->
  findings W (c_enable c) (with_root_import W c s) = (fe, s1) ->
  findings W (c_disable c) s1 = (fd, s2) ->
  forall k,
    (In k ks -> rget k d = None) /\
    (found fe k \/ found fd k -> ~ In k ks -> rget k d <> None) /\
    (forall r, rget k d = Some r <->
       match r with
       | RDisabled => found fd k /\ ~ named fe k
       | RTags => found fe k /\ ~ (found fd k /\ ~ named fe k) /\ ~ tags_ok W c k
       | RVersion => found fe k /\ ~ (found fd k /\ ~ named fe k) /\ tags_ok W c k /\ ~ version_ok W c k
       end).
Proof.
  intros W c s ks d s' fe s1 fd s2 F H H1 H2 k. pose proof (collect_spec c s F H) as K.
  rewrite H1, H2 in K. destruct K as (A & B & C & D). split; [apply D|]. split; [|apply C].
  intros Hf Hn Hg.
  assert (N1 : ~ (found fd k /\ ~ named fe k)). { intro X. apply (C k RDisabled) in X. congruence. }
  assert (Hfe : found fe k).
  { destruct Hf as [|Hf]; auto. 
    assert (Nn : ~ ~ named fe k) by tauto.
    assert (Dec : named fe k \/ ~ named fe k).
    { clear -fe. induction fe as [|[q r] fs IH].
      - right. intros (q & ks & n & [] & _).
      - destruct IH as [(q' & ks & n & Hi & R)|IH].
        + left. exists q', ks, n. simpl. tauto.
        + destruct r as [ks|e].
          * destruct (q_name q) as [[|c n]|] eqn:Eq.
            -- right. intros (q' & ks' & n & [Hi|Hi] & R).
               ++ injection Hi as <- <-. destruct R as (_ & R & Hn). rewrite Eq in R. injection R as <-. congruence.
               ++ apply IH. exists q', ks', n. tauto.
            -- destruct (kmem k ks) eqn:Ek.
               ++ left. exists q, ks, (c :: n). rewrite <- kmem_iff. simpl. repeat split; auto. discriminate.
               ++ right. intros (q' & ks' & n' & [Hi|Hi] & R).
                  ** injection Hi as <- <-. destruct R as (R & _). apply kmem_iff in R. congruence.
                  ** apply IH. exists q', ks', n'. tauto.
            -- right. intros (q' & ks' & n & [Hi|Hi] & R).
               ++ injection Hi as <- <-. destruct R as (_ & R & Hn). congruence.
               ++ apply IH. exists q', ks', n. tauto.
          * right. intros (q' & ks' & n & [Hi|Hi] & R); [discriminate|]. apply IH. exists q', ks', n. tauto. }
    destruct Dec as [(q & ks' & n & Hi & Hk & _)|]; [|tauto]. exists q, ks'. auto. }
  assert (N2 : ~ ~ tags_ok W c k). { intro X. assert (Y : rget k d = Some RTags) by (apply C; auto). congruence. }
  assert (T : tags_ok W c k).
  { rewrite tags_ok_iff in *. destruct (tags_bool (c_tags c)); auto.
    destruct (tags_contains (c_tags c) (TagColl (w_tags W (fst k)))); auto. exfalso. apply N2. intros [X|X]; discriminate. }
  assert (N3 : ~ ~ version_ok W c k). { intro X. assert (Y : rget k d = Some RVersion) by (apply C; auto). congruence. }
  assert (V : version_ok W c k).
  { intros v Hv. destruct (w_matches W v (w_version W (fst k))) as [[|]|e] eqn:Em; auto;
      exfalso; apply N3; intro X; rewrite (X v Hv) in Em; discriminate. }
  apply Hn, A. auto.
Qed.

(** ** C16: entries that fail *)

Theorem C16_failing_entries : forall W c s,
  fst (collect_rules W c s) = fst (collect_rules W (without_failing W c s) s) /\
  (forall q, In q (c_enable (without_failing W c s)) <->
     In q (c_enable c) /\ exists ks, fst (find_rules W q (with_root_import W c s)) = Ok ks) /\
  (forall q, In q (c_disable (without_failing W c s)) <->
     In q (c_disable c) /\ exists ks, fst (find_rules W q (with_root_import W c s)) = Ok ks).
Proof.
  intros W c s. split; [apply collect_without_failing|]. split; intro q;
    unfold without_failing; cbn [c_enable c_disable]; rewrite filter_In, loads_ok_iff; tauto.
Qed.

(** ** C17: disabling a rule of a package *)

(** Proved: for a class whose module stays in sys.modules, i.e. not a local one. *)
Theorem C17_global_partial : forall W c s ks d s' fe s1 q n m ms id,
  fair_sets W -> collect_rules W c s = (Ok (ks, d), s') ->
  findings W (c_enable c) (with_root_import W c s) = (fe, s1) ->
  In q (c_disable c) -> q_name q = Some n -> n <> [] ->
  outcome W q (with_root_import W c s) = Ok m -> loads m ms -> distinct_attrs ms ->
  (forall gen, provides gen ms n = Some (id, None)) ->
  ~ named fe (id, None) ->
  ~ In (id, None) ks /\ rget (id, None) d = Some RDisabled.
Proof.
  intros W c s ks d s' fe s1 q n m ms id F H H1 Hq Hn Hne Ho Hl Hd Hp Hnn.
  pose proof (collect_spec c s F H) as K. rewrite H1 in K.
  assert (P1 : ps_path s1 = ps_path (with_root_import W c s)).
  { pose proof (findings_path W (c_enable c) (with_root_import W c s)) as P. rewrite H1 in P. exact P. }
  destruct (findings W (c_disable c) s1) as [fd s2] eqn:E2. destruct K as (A & _ & C & _).
  assert (Fd : found fd (id, None)).
  { clear -P1 Hq Hn Hne Ho Hl Hd Hp E2. revert s1 fd s2 P1 E2. induction (c_disable c) as [|q' l IH]; [contradiction|].
    intros s1 fd s2 P1 E2. cbn [findings] in E2. destruct (find_rules W q' s1) as [r p] eqn:E.
    destruct (findings W l p) as [fs s3] eqn:E3. injection E2 as <- <-. destruct Hq as [->|Hq].
    - assert (Hr : fst (find_rules W q s1) = match provides (generation q s1) ms n with
                           | Some k => Ok [k] | None => Err CollectionError end).
      { apply C18_named with (m := m); auto. unfold outcome in *. now rewrite P1. }
      rewrite E, Hp in Hr. cbn [fst] in Hr. subst r. exists q, [(id, None)]. simpl. auto.
    - assert (Pp : ps_path p = ps_path (with_root_import W c s)).
      { pose proof (find_rules_path W q' s1) as P. rewrite E in P. cbn [snd] in P. congruence. }
      destruct (IH Hq p fs s3 Pp E3) as (q1 & ks1 & Hi & Hk). exists q1, ks1. simpl. auto. }
  split; [|apply C; auto]. intro X. apply A in X. destruct X as (_ & X & _). apply X. auto.
Qed.

(** ** C19: sys.path *)

Theorem C19_restored : forall W c s r s', collect_rules W c s = (Ok r, s') -> ps_path s' = ps_path s.
Proof. exact collect_path_ok. Qed.

(** ** C20: sys.modules *)

Theorem C20_no_local_left : forall W q s, is_local q = true ->
  let mods := ps_modules (snd (find_rules W q s)) in
  (forall k, In k mods -> k <> u "fixit.local" /\ forall sub, k <> u "fixit.local." ++ sub) /\
  (forall k, In k (ps_modules s) -> (forall x, k <> u "fixit.local" ++ x) -> In k mods).
Proof.
  intros W q s L. destruct (find_rules_modules W q s L) as (added & ->). cbv zeta. split.
  - intros k Hk. unfold purge_local in Hk. apply filter_In in Hk. destruct Hk as [_ Hk].
    apply negb_true_iff in Hk. split.
    + intros ->. vm_compute in Hk. discriminate.
    + intros sub ->. assert (T : startswith fixit_local (u "fixit.local." ++ sub) = true) by (vm_compute; reflexivity).
      congruence.
  - intros k Hk Hn. unfold purge_local. apply filter_In. split; [apply in_app_iff; auto|].
    apply negb_true_iff. destruct (startswith fixit_local k) eqn:E; auto. exfalso.
    apply startswith_spec in E. destruct E as (x & ->). apply (Hn x). reflexivity.
Qed.

(** ** C48: validate_config *)

Theorem C48_messages : forall W E F p py rc,
  read_configs E F [p] = Ok [rc] -> well_typed (rc_data rc) ->
  fst (validate_config W E F p py) =
  flat_map (fun e => verdict W (parent p) (ps_path py) (fst e) (snd e)) (entries (rc_data rc)).
Proof. intros W E F p py rc. exact (@validate_eq W E F p py rc). Qed.

Theorem C48_unreadable : forall W E F p py,
  (forall e, read_configs E F [p] = Err e -> fst (validate_config W E F p py) = [MInvalid e]) /\
  (read_configs E F [p] = Ok [] -> fst (validate_config W E F p py) = [MInvalid IndexError]).
Proof.
  intros W E F p py. unfold validate_config, validate_body. split; [intros e H | intro H]; rewrite H; reflexivity.
Qed.

(** ** Examples and refutations *)

(** A world with: a global module [m] with the rules A (tag "t") and B; a local package [.r] with a
    fresh class Foo, and a submodule; a module [bad] that does not import; B needs Python > 3.12
    and the specifier of class 9 is invalid. *)
Definition W0 : world := World
  (fun sp n =>
     if str_eqb n (u "m") then ([u "m"], Ok (PyMod [(u "B", ORule 2 true); (u "A", ORule 1 true); (u "LintRule", OLintRule)] None))
     else if str_eqb n (u "inv") then ([u "inv"], Ok (PyMod [(u "C", ORule 9 true)] None))
     else ([], Err ImportError))
  (fun sp root n =>
     if str_eqb n (u ".r") then
       ([u "fixit.local.r"; u "fixit.local.r.sub"],
        Ok (PyMod [(u "Foo", ORule 3 true)]
              (Some [(u "sub", false, Ok (PyMod [(u "Bar", ORule 4 true); (u "A", ORule 1 false)] None));
                     (u "pkg", true, Err ImportError)])))
     else ([], Err ImportError))
  (fun id => if N.eqb id 1 then [u "t"] else [])
  (fun id => if N.eqb id 9 then u "oops" else if N.eqb id 2 then u "> 3.12" else [])
  (fun v spec => if str_eqb spec (u "oops") then Err ValueError else Ok (negb (str_eqb spec (u "> 3.12"))))
  (fun _ => Ok tt) (fun l => l) (fun p => join (u "/") p).

Definition rule (m : string) (name : option string) : qrule :=
  match parse_rule (u m ++ match name with Some n => u ":" ++ u n | None => [] end) [u "proj"] with
  | Ok q => q
  | Err _ => QRule [] None None None
  end.

Definition conf (en dis : list qrule) (t : tags) (v : option str) : config :=
  Config [u "proj"; u "x.py"] [u "proj"] (RIPath [u "lib"]) en dis [] v t None OFfixit (TStr []).

Definition S0 : pystate := PyState [u "/usr/lib"] [u "os"; u "fixit"] 0.

Example C14_ex : fair_sets W0 /\
  collect_rules W0 (conf [rule "bad" None; rule ".r" None; rule "m" None] [rule "m" (Some "A"%string); rule "bad" None] no_tags (Some (u "3.10"))) S0
  = (Ok ([(4%N, Some 0); (3%N, Some 0)], [((1%N, None), RDisabled); ((2%N, None), RVersion)]),
     PyState [u "/usr/lib"] [u "m"; u "m"; u "os"; u "fixit"] 1).
Proof. split; [intro l; reflexivity|vm_compute; reflexivity]. Qed.

Example C15_ex_tags :
  fst (collect_rules W0 (conf [rule "m" None] [] (Tags [u "t"] []) None) S0)
  = Ok ([(1%N, None)], [((2%N, None), RTags)]).
Proof. vm_compute. reflexivity. Qed.

(** Naming a rule protects it from being disabled. *)
Example C14_ex_named :
  fst (collect_rules W0 (conf [rule "m" (Some "A"%string)] [rule "m" None] no_tags None) S0)
  = Ok ([(1%N, None)], [((2%N, None), RDisabled)]).
Proof. vm_compute. reflexivity. Qed.

Example C16_ex : c_enable (without_failing W0 (conf [rule "bad" None; rule "m" None] [rule "m" (Some "Nope"%string)] no_tags None) S0)
  = [rule "m" None].
Proof. vm_compute. reflexivity. Qed.

(** A rule of a local package cannot be disabled by name: looking it up imports the package again
    and creates a new class, which is not the enabled one. *)
Theorem C17_local_refuted : exists W c s ks d s',
  fair_sets W /\ collect_rules W c s = (Ok (ks, d), s') /\
  c_enable c = [rule ".r" None] /\ c_disable c = [rule ".r" (Some "Foo"%string)] /\
  (* the rule Foo of the package, class statement 3, is still instantiated *)
  In 3%N (map fst ks) /\ In 3%N (map fst (map fst d)).
Proof.
  exists W0, (conf [rule ".r" None] [rule ".r" (Some "Foo"%string)] no_tags None), S0. do 3 eexists.
  split; [intro l; reflexivity|]. split; [vm_compute; reflexivity|]. split; [reflexivity|]. split; [reflexivity|].
  split; simpl; auto.
Qed.

(** A global class re-exported by a local package can be disabled. *)
Definition sub_r : pymod := PyMod [(u "Bar", ORule 4 true); (u "A", ORule 1 false)] None.
Definition mod_r : pymod :=
  PyMod [(u "Foo", ORule 3 true)] (Some [(u "sub", false, Ok sub_r); (u "pkg", true, Err ImportError)]).

Example C17_ex :
  outcome W0 (rule ".r" (Some "A"%string)) S0 = Ok mod_r /\ loads mod_r [mod_r; sub_r] /\
  distinct_attrs [mod_r; sub_r] /\ (forall gen, provides gen [mod_r; sub_r] (u "A") = Some (1%N, None)) /\
  fst (collect_rules W0 (conf [rule ".r" None] [rule ".r" (Some "A"%string)] no_tags None) S0)
  = Ok ([(4%N, Some 0); (3%N, Some 0)], [((1%N, None), RDisabled)]).
Proof.
  split; [vm_compute; reflexivity|]. split.
  { apply ld. apply (@ls_mod (u "sub") sub_r [(u "pkg", true, Err ImportError)] [sub_r] []).
    - apply ld, ls_nil.
    - apply ls_pkg, ls_nil. }
  split; [|split; [intro gen; vm_compute; reflexivity|vm_compute; reflexivity]].
  intros m [<-|[<-|[]]]; vm_compute; repeat constructor; simpl; intuition discriminate.
Qed.

(** When collect_rules raises (here: a rule with an invalid version specifier), the directory
    added to sys.path stays there. *)
Theorem C19_leak_refuted : exists W c s e s',
  collect_rules W c s = (Err e, s') /\ ps_path s' <> ps_path s.
Proof.
  exists W0, (conf [rule "inv" None] [] no_tags (Some (u "3.10"))), S0. do 2 eexists.
  split; [vm_compute; reflexivity|]. vm_compute. discriminate.
Qed.

Example C19_ex : exists r s', collect_rules W0 (conf [rule ".r" None] [] no_tags None) S0 = (Ok r, s') /\
  ps_path (with_root_import W0 (conf [rule ".r" None] [] no_tags None) S0) <> ps_path S0.
Proof. do 2 eexists. split; [vm_compute; reflexivity|]. vm_compute. discriminate. Qed.

(** "fixit.local" is removed as a prefix of the name, not of the namespace: an unrelated module
    called fixit.localized goes too. *)
Theorem C20_others_refuted : exists W q s k,
  is_local q = true /\ In k (ps_modules s) /\ k <> u "fixit.local" /\ (forall sub, k <> u "fixit.local." ++ sub) /\
  ~ In k (ps_modules (snd (find_rules W q s))).
Proof.
  exists W0, (rule ".r" None), (PyState [] [u "fixit.localized"] 0), (u "fixit.localized").
  split; [vm_compute; reflexivity|]. split; [simpl; auto|]. split; [discriminate|].
  split; [intros sub H; vm_compute in H; discriminate|]. vm_compute. tauto.
Qed.

Example C20_ex : is_local (rule ".r" None) = true /\
  ps_modules (snd (find_rules W0 (rule ".r" None) S0)) = [u "os"; u "fixit"].
Proof. split; vm_compute; reflexivity. Qed.

(** C48: a world with one config file. *)
Definition E0 (t : table) : env := Env (fun _ => Ok t) (fun _ => true) (u "3.10") [] (fun l => l).
Definition F0 : fs := FS (fun p => Some []) (fun _ => false).
Definition doc (t : table) : table := [(u "tool", TTab [(u "fixit", TTab t)])].
Definition P0 : path := [u "proj"; u "fixit.toml"].

Definition T0 : table :=
  [(u "enable", TArr [TStr (u "m"); TStr (u "bad"); TStr (u "1 2")]);
   (u "disable", TArr [TStr (u "m:A"); TStr (u "m:Nope")]);
   (u "overrides", TArr [TTab [(u "path", TStr (u "src")); (u "enable", TArr [TStr (u ".r:Foo"); TStr (u ".q")])]])].

Example C48_ex : read_configs (E0 (doc T0)) F0 [P0] = Ok [Raw P0 T0] /\ well_typed T0 /\
  fst (validate_config W0 (E0 (doc T0)) F0 P0 S0) =
  [MImport (TStr (u "bad")) (u "global enable") CollectionError;
   MParse (TStr (u "1 2")) (u "global enable") ConfigError;
   MImport (TStr (u "m:Nope")) (u "global disable") CollectionError;
   MImport (TStr (u ".q")) (u "override enable") CollectionError].
Proof.
  split; [vm_compute; reflexivity|]. split; [|vm_compute; reflexivity].
  unfold well_typed, array_or_absent. repeat split.
  - right. eexists. vm_compute. reflexivity.
  - right. eexists. vm_compute. reflexivity.
  - right. eexists. vm_compute. reflexivity.
  - intros o Ho. vm_compute in Ho. destruct Ho as [<-|[]]. eexists. split; [reflexivity|]. repeat split.
    + right. eexists. vm_compute. reflexivity.
    + left. vm_compute. reflexivity.
    + right. eexists. vm_compute. reflexivity.
Qed.

(** validate-config only looks at rule names: a config that every other command rejects passes. *)
Theorem C48_accepts_refuted : exists W E F p py rc,
  read_configs E F [p] = Ok [rc] /\ well_typed (rc_data rc) /\
  fst (validate_config W E F p py) = [] /\
  exists file e, In (u "proj") file /\ merge_configs E file [rc] None = Err e.
Proof.
  exists W0, (E0 (doc [(u "formatter", TStr (u "nope"))])), F0, P0, S0. eexists.
  split; [vm_compute; reflexivity|]. split; [|split; [vm_compute; reflexivity|]].
  - unfold well_typed, array_or_absent. repeat split; try (left; vm_compute; reflexivity).
    intros o Ho. vm_compute in Ho. contradiction.
  - exists [u "proj"; u "x.py"]. eexists. split; [simpl; auto|]. vm_compute. reflexivity.
Qed.
