(** * Debug: the command that shows the configuration (cli.py 320-350), and C74 *)
From Coq Require Import String List NArith ZArith Bool Arith Permutation Sorted Lia.
From Verif Require Import Base PyStr Ftypes Paths Config ConfigSpec Collect CollectSpec CollectFacts CollectSelect CollectProps.
Import ListNotations.
Set Implicit Arguments.

(** ** Model *)

(** What is printed, one per call of pprint *)
Inductive shown := SOptions (o : options) | SPath (p : path) | SConfig (c : config) | SEnabled (l : list str) | SDisabled (l : list str).

Definition reason_text (r : reason) : str :=
  match r with RDisabled => u "disabled" | RTags => u "tags" | RVersion => u "python-version" end.

Section Command.
  (** [rich]: whether the package of that name (an optional dependency) is installed; [text k]: rule.py 117-118,
      the module and name of a class *)
  Context (W : world) (E : env) (F : fs) (rich : bool) (text : cls -> str) (opts : options).

  (** cli.py 348-350: the disabled classes are instantiated only to be shown *)
  Definition disabled_texts (d : reasons) : res (list str) :=
    map_res (fun kr => let! _ := w_new W (fst (fst kr)) in Ok (text (fst kr) ++ u " (" ++ reason_text (snd kr) ++ u ")")) d.

  (** cli.py 338-350. 344: with [pprint.pprint] of the standard library the second argument is the stream to print
      to, and a path has no [write]. *)
  Definition debug_path (p : path) (py : pystate) : list shown * res unit * pystate :=
    match generate_config E F p None (Some opts) with
    | Err e => ([], Err e, py)
    | Ok c =>
        let (r, py') := collect_rules W c py in
        match r with
        | Err e => ([], Err e, py')
        | Ok (ks, d) =>
            if rich then
              let first := [SPath (resolve p); SConfig c; SEnabled (sorted str_leb (map text ks))] in
              match disabled_texts d with
              | Err e => (first, Err e, py')
              | Ok ds => (first ++ [SDisabled (sorted str_leb ds)], Ok tt, py')
              end
            else ([], Err AttributeError, py')
        end
    end.

  Fixpoint debug_paths (ps : list path) (py : pystate) : list shown * res unit * pystate :=
    match ps with
    | [] => ([], Ok tt, py)
    | p :: ps' =>
        let '(out, r, py1) := debug_path p py in
        match r with
        | Err e => (out, Err e, py1)
        | Ok _ => let '(out', r', py2) := debug_paths ps' py1 in (out ++ out', r', py2)
        end
    end.

  (** cli.py 320-336; [cwd]: the current directory *)
  Definition debug (cwd : path) (ps : list path) (py : pystate) : list shown * res unit * pystate :=
    let '(out, r, py') := debug_paths (match ps with [] => [cwd] | _ => ps end) py in (SOptions opts :: out, r, py').
End Command.

(** ** C74 *)

Lemma rset_nodup : forall k r d, NoDup (rkeys d) -> NoDup (rkeys (rset k r d)).
Proof.
  intros k r d. unfold rkeys. induction d as [|[k' r'] d IH]; intro N; cbn [rset map fst].
  - constructor; [auto|constructor].
  - cbn [map fst] in N. inversion N as [|? ? N1 N2]; subst. destruct (cls_eqb k k') eqn:Ek; cbn [map fst].
    + constructor; auto.
    + constructor; auto. intro I. apply N1. assert (In k' (rkeys (rset k r d))) as J by exact I. apply rkeys_iff in J.
      rewrite rget_rset in J. destruct (cls_eqb k' k) eqn:Ek'.
      * exfalso. assert (k' = k) by (apply cls_eqb_eq; auto). subst. assert (cls_eqb k k = true) by (apply cls_eqb_eq; auto). congruence.
      * apply rkeys_iff in J. exact J.
Qed.

Lemma rupdate_nodup : forall ks r d, NoDup (rkeys d) -> NoDup (rkeys (rupdate d ks r)).
Proof. induction ks as [|k ks IH]; intros r d N; cbn; auto. apply IH, rset_nodup, N. Qed.

Lemma collect_nodup : forall W c s ks d s', collect_rules W c s = (Ok (ks, d), s') -> NoDup (rkeys d).
Proof.
  intros W c s ks d s' H. unfold collect_rules in H.
  destruct (match import_dir W c with None => (None, s) | Some p => _ end) as [ap py0].
  assert (G : forall qs st, NoDup (rkeys (cs_disabled st)) -> NoDup (rkeys (cs_disabled (fold_left (enable_one W) qs st)))).
  { induction qs as [|q qs IH]; intros st N; cbn [fold_left]; auto. apply IH. unfold enable_one. destruct (find_rules W q (cs_py st)) as [[|] py]; exact N. }
  assert (G' : forall qs st, NoDup (rkeys (cs_disabled st)) -> NoDup (rkeys (cs_disabled (fold_left (disable_one W) qs st)))).
  { induction qs as [|q qs IH]; intros st N; cbn [fold_left]; auto. apply IH. unfold disable_one. destruct (find_rules W q (cs_py st)) as [[|] py]; [apply rupdate_nodup|]; exact N. }
  cbn zeta in H. set (st := fold_left (disable_one W) _ _) in H.
  assert (N : NoDup (rkeys (cs_disabled st))) by (apply G', G; constructor).
  destruct (filter_tags W (c_tags c) (cs_all st) (cs_disabled st)) as [all d1] eqn:T.
  assert (N1 : NoDup (rkeys d1)).
  { unfold filter_tags in T. destruct (tags_bool (c_tags c)); injection T as <- <-; [apply rupdate_nodup|]; exact N. }
  destruct (filter_version W (c_python c) all d1) as [[all2 d2]|] eqn:V; cbn [bind] in H; [|discriminate].
  destruct (map_res _ _) as [|]; cbn [bind] in H; [|discriminate]. injection H as _ <- _.
  unfold filter_version in V. destruct (c_python c); [|injection V as <- <-; exact N1].
  destruct (fold_res _ _ _) as [bad|]; cbn [bind] in V; [|discriminate]. injection V as <- <-. apply rupdate_nodup, N1.
Qed.

Lemma rget_in : forall k r d, NoDup (rkeys d) -> (In (k, r) d <-> rget k d = Some r).
Proof.
  intros k r d. induction d as [|[k' r'] d IH]; intro N; cbn [rget]; [split; [intros []|discriminate]|].
  unfold rkeys in N. cbn [map fst] in N. inversion N as [|? ? N1 N2]; subst. destruct (cls_eqb k k') eqn:Ek.
  - apply cls_eqb_eq in Ek. subst k'. split.
    + intros [X|X]; [injection X as ->; reflexivity|]. exfalso. apply N1. apply (in_map fst) in X. exact X.
    + intro X. injection X as ->. left. reflexivity.
  - rewrite <- IH by exact N2. split; [|right; auto]. intros [X|X]; auto. injection X as -> ->.
    exfalso. assert (cls_eqb k k = true) by (apply cls_eqb_eq; auto). congruence.
Qed.

Lemma disabled_texts_ok : forall W text d ds, disabled_texts W text d = Ok ds ->
  ds = map (fun kr => text (fst kr) ++ u " (" ++ reason_text (snd kr) ++ u ")") d.
Proof.
  intros W text d. unfold disabled_texts. induction d as [|kr d IH]; intros ds H; cbn [map_res] in H.
  - injection H as <-. reflexivity.
  - apply bind_ok in H. destruct H as (t & Ht & H). apply bind_ok in Ht. destruct Ht as (x & _ & Ht). injection Ht as <-.
    apply bind_ok in H. destruct H as (l & Hl & H). injection H as <-.
    cbn [map]. f_equal. auto.
Qed.

Definition in_order (l : list str) : Prop := StronglySorted (fun a b => str_leb a b = true) l.

(** For a path, debug shows its configuration and, sorted, the rules that the configuration selects and the others that
    were found, each with the reason. *)
Theorem C74_shows : forall W E F text opts p py out py' c fe s1 fd s2,
  fair_sets W -> debug_path W E F true text opts p py = (out, Ok tt, py') ->
  generate_config E F p None (Some opts) = Ok c ->
  findings W (c_enable c) (with_root_import W c py) = (fe, s1) ->
  findings W (c_disable c) s1 = (fd, s2) ->
  exists es ds enabled disabled,
    out = [SPath (resolve p); SConfig c; SEnabled es; SDisabled ds] /\
    in_order es /\ Permutation es (map text enabled) /\
    in_order ds /\ Permutation ds (map (fun kr => text (fst kr) ++ u " (" ++ snd kr ++ u ")") disabled) /\
    NoDup (enabled ++ map fst disabled) /\
    (forall k, In k enabled <-> found fe k /\ ~ (found fd k /\ ~ named fe k) /\ tags_ok W c k /\ version_ok W c k) /\
    (forall k r, In (k, r) disabled <->
       (r = u "disabled" /\ found fd k /\ ~ named fe k) \/
       (r = u "tags" /\ found fe k /\ ~ (found fd k /\ ~ named fe k) /\ ~ tags_ok W c k) \/
       (r = u "python-version" /\ found fe k /\ ~ (found fd k /\ ~ named fe k) /\ tags_ok W c k /\ ~ version_ok W c k)).
Proof.
  intros W E F text opts p py out py' c fe s1 fd s2 Fs H G H1 H2. unfold debug_path in H. rewrite G in H.
  destruct (collect_rules W c py) as [[[ks d]|e] py1] eqn:C; [|discriminate].
  destruct (disabled_texts W text d) as [dt|e] eqn:D; [|discriminate]. injection H as <- <-.
  apply disabled_texts_ok in D. subst dt. destruct (C14_selection _ _ _ _ _ _ _ _ _ _ Fs C H1 H2) as [N S].
  pose proof (collect_nodup _ _ _ C) as Nd. pose proof (C15_reasons _ _ _ _ _ _ _ _ _ _ Fs C H1 H2) as R.
  exists (sorted str_leb (map text ks)), (sorted str_leb (map (fun kr => text (fst kr) ++ u " (" ++ reason_text (snd kr) ++ u ")") d)),
    ks, (map (fun kr => (fst kr, reason_text (snd kr))) d).
  split; [reflexivity|]. split; [apply sorted_sorted; [apply str_leb_total|apply str_leb_trans]|]. split; [apply Permutation_sym, sorted_perm|].
  split; [apply sorted_sorted; [apply str_leb_total|apply str_leb_trans]|]. split; [|split; [|split]].
  - rewrite map_map. cbn [fst snd]. apply Permutation_sym, sorted_perm.
  - rewrite map_map. cbn [fst].
    assert (Dj : forall k, In k ks -> ~ In k (map (fun kr : cls * reason => fst kr) d)); [|
      clear - N Nd Dj; induction N as [|x l Nx _ IH]; cbn [app]; [exact Nd|]; constructor;
        [rewrite in_app_iff; intros [I|I]; [auto|exact (Dj x (or_introl eq_refl) I)]|apply IH; intros k I; apply Dj; right; exact I]].
    intros k I J. destruct (R k) as (R1 & _). specialize (R1 I). assert (K : In k (rkeys d)) by exact J. apply rkeys_iff in K. congruence.
  - exact S.
  - intros k r. destruct (R k) as (_ & _ & R3). split.
    + intro I. apply in_map_iff in I. destruct I as ([k' r'] & X & I). cbn [fst snd] in X. injection X as -> <-. apply (@rget_in k r' d Nd) in I.
      apply R3 in I. destruct r'; [left|right; left|right; right]; auto.
    + intro X. assert (exists r', r = reason_text r' /\ rget k d = Some r') as (r' & -> & Y).
      { destruct X as [(-> & X)|[(-> & X)|(-> & X)]].
        - exists RDisabled. split; auto. apply R3. exact X.
        - exists RTags. split; auto. apply R3. exact X.
        - exists RVersion. split; auto. apply R3. exact X. }
      apply in_map_iff. exists (k, r'). split; auto. apply (@rget_in k r' d Nd). exact Y.
Qed.

(** Every path is shown, in order, each as if the paths before had been collected before. *)
Inductive shown_all (W : world) (E : env) (F : fs) (text : cls -> str) (opts : options) : list path -> pystate -> list shown -> pystate -> Prop :=
| sa_nil : forall py, shown_all W E F text opts [] py [] py
| sa_cons : forall p ps py out py1 out' py2, debug_path W E F true text opts p py = (out, Ok tt, py1) ->
    shown_all W E F text opts ps py1 out' py2 -> shown_all W E F text opts (p :: ps) py (out ++ out') py2.

Theorem C74_every_path : forall W E F text opts cwd ps py out py',
  debug W E F true text opts cwd ps py = (out, Ok tt, py') ->
  exists out', out = SOptions opts :: out' /\
    shown_all W E F text opts (match ps with [] => [cwd] | _ => ps end) py out' py'.
Proof.
  intros W E F text opts cwd ps py out py' H. unfold debug in H. revert H. generalize (match ps with [] => [cwd] | _ => ps end). intros l H.
  destruct (debug_paths W E F true text opts l py) as [[o r] q] eqn:D. injection H as <- -> ->. exists o. split; auto.
  revert py o py' D. induction l as [|p l IH]; intros py o py' D; cbn [debug_paths] in D.
  - injection D as <- <-. constructor.
  - destruct (debug_path W E F true text opts p py) as [[o1 [[]|]] py1] eqn:D1; [|discriminate].
    destruct (debug_paths W E F true text opts l py1) as [[o2 r2] py2] eqn:D2. injection D as <- -> ->. econstructor; eauto.
Qed.

(** Without the optional package the command always fails, having shown the options only. *)
Theorem C74_without_rich : forall W E F text opts cwd ps py,
  exists e py', debug W E F false text opts cwd ps py = ([SOptions opts], Err e, py').
Proof.
  intros W E F text opts cwd ps py. unfold debug.
  assert (exists p l, match ps with [] => [cwd] | _ => ps end = p :: l) as (p & l & ->) by (destruct ps; eauto).
  cbn [debug_paths]. unfold debug_path. destruct (generate_config E F p None (Some opts)) as [c|e]; [|eauto].
  destruct (collect_rules W c py) as [[[ks d]|e] py1]; eauto.
Qed.

Lemma bind_err : forall A B (r : res A) (f : A -> res B) e, bind r f = Err e -> r = Err e \/ exists a, r = Ok a /\ f a = Err e.
Proof. intros A B [a|x] f e H; cbn [bind] in H; [right; eauto|left; congruence]. Qed.

(** With it, the command fails for a path only if linting could not start there, or a disabled class cannot be
    instantiated (which linting never does). *)
Theorem C74_fails : forall W E F text opts p py out e py',
  debug_path W E F true text opts p py = (out, Err e, py') ->
  generate_config E F p None (Some opts) = Err e \/
  exists c, generate_config E F p None (Some opts) = Ok c /\
    (collect_rules W c py = (Err e, py') \/
     exists ks d k r, collect_rules W c py = (Ok (ks, d), py') /\ rget k d = Some r /\ w_new W (fst k) = Err e).
Proof.
  intros W E F text opts p py out e py' H. unfold debug_path in H. destruct (generate_config E F p None (Some opts)) as [c|e0].
  - right. exists c. split; auto. destruct (collect_rules W c py) as [[[ks d]|e1] py1] eqn:C.
    + right. exists ks, d. destruct (disabled_texts W text d) as [ds|e2] eqn:D; [discriminate|]. injection H as _ <- <-.
      pose proof (collect_nodup _ _ _ C) as Nd.
      assert (exists kr, In kr d /\ w_new W (fst (fst kr)) = Err e2) as ([k r] & I & X).
      { clear - D. unfold disabled_texts in D. induction d as [|kr d IH]; cbn [map_res] in D; [discriminate|].
        apply bind_err in D. destruct D as [D|(t & _ & D)].
        - apply bind_err in D. destruct D as [D|(x & _ & D)]; [exists kr; simpl; auto|discriminate].
        - apply bind_err in D. destruct D as [D|(x & _ & D)]; [|discriminate]. destruct (IH D) as (kr' & I & Z). exists kr'. simpl. auto. }
      exists k, r. split; auto. split; auto. apply (@rget_in k r d Nd). exact I.
    + left. injection H as _ -> ->. reflexivity.
  - left. injection H as _ -> _. reflexivity.
Qed.

(** ** Examples: the rules of [m] and [.r] of W0 are asked for; B needs another Python version *)

Definition ex_opts : options := Options None None [rule "m" None; rule ".r" (Some "Foo"%string)] None [].
Definition ex_fs : fs := FS (fun _ => None) (fun _ => false).
Definition ex_text (k : cls) : str := nth (N.to_nat (fst k)) [u "?"; u "m:A"; u "m:B"; u "fixit.local.r:Foo"] (u "?").

Example C74_example : exists c py,
  debug W0 (E0 []) ex_fs true ex_text ex_opts [u "proj"] [] S0 =
    ([SOptions ex_opts; SPath [u "proj"]; SConfig c; SEnabled [u "fixit.local.r:Foo"; u "m:A"]; SDisabled [u "m:B (python-version)"]], Ok tt, py) /\
  generate_config (E0 []) ex_fs [u "proj"] None (Some ex_opts) = Ok c.
Proof. do 2 eexists. split; vm_compute; reflexivity. Qed.

(** That debug succeeds whenever the rules can be collected is false: a disabled rule may not be instantiable. *)
Definition W1 : world := World (w_import W0) (w_local W0) (w_tags W0) (w_version W0) (w_matches W0)
  (fun id => if N.eqb id 2 then Err TypeError else Ok tt) (w_iter W0) (w_posix W0).

Theorem C74_succeeds_refuted : ~ (forall W E F text opts p py c r py',
  generate_config E F p None (Some opts) = Ok c -> collect_rules W c py = (Ok r, py') ->
  exists out, debug_path W E F true text opts p py = (out, Ok tt, py')).
Proof.
  intro H.
  assert (exists c, generate_config (E0 []) ex_fs [u "proj"] None (Some ex_opts) = Ok c) as (c & G) by (eexists; vm_compute; reflexivity).
  assert (exists r py', collect_rules W1 c S0 = (Ok r, py')) as (r & py' & C).
  { vm_compute in G. injection G as <-. do 2 eexists. vm_compute. reflexivity. }
  destruct (H W1 _ _ ex_text _ _ S0 _ _ _ G C) as (out & D). vm_compute in D. discriminate.
Qed.
