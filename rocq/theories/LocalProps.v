(** * C83: local rules in several threads at once *)
From Coq Require Import String List NArith ZArith Bool Arith Lia.
From Verif Require Import Base PyStr Ftypes Paths Local LocalSpec.
Import ListNotations.

(** ** Schedules *)

Lemma turns_app : forall P a b m, turns P m (a ++ b) = match turns P m a with Some m' => turns P m' b | None => None end.
Proof. intros P a. induction a as [|i a IH]; intros b m; cbn [app turns]; auto. destruct (turn P m i); auto. Qed.

Lemma happens_ind : forall P p ts (Q : many -> Prop), Q (start p ts) ->
  (forall m i m', happens P p ts m -> Q m -> turn P m i = Some m' -> Q m') -> forall m, happens P p ts m -> Q m.
Proof.
  intros P p ts Q H0 HS m (l & H). revert m H. induction l as [|i l IH] using rev_ind; intros m H.
  - injection H as <-. exact H0.
  - rewrite turns_app in H. destruct (turns P (start p ts) l) as [m1|] eqn:E; [|discriminate]. cbn [turns] in H.
    destruct (turn P m1 i) as [m2|] eqn:T; [|discriminate]. injection H as <-. apply (HS m1 i m2); auto. exists l. exact E.
Qed.

Lemma turn_inv : forall P m i m', turn P m i = Some m' ->
  exists a q b s q', m_requests m = a ++ q :: b /\ i = List.length a /\ act P (m_shared m) q = Some (s, q') /\ m' = Many s (a ++ q' :: b).
Proof.
  intros P m i m' H. unfold turn in H. destruct (nth_error (m_requests m) i) as [q|] eqn:N; [|discriminate].
  destruct (act P (m_shared m) q) as [[s q']|] eqn:A; [|discriminate].
  assert (m' = Many s (firstn i (m_requests m) ++ q' :: skipn (S i) (m_requests m))) as -> by congruence. clear H.
  destruct (nth_error_split _ _ N) as (a & b & E & L). exists a, q, b, s, q'. split; auto. split; auto. split; auto. rewrite E, <- L.
  assert (A1 : firstn (List.length a) (a ++ q :: b) = a) by (rewrite firstn_app, Nat.sub_diag, firstn_all; apply app_nil_r).
  assert (A2 : skipn (S (List.length a)) (a ++ q :: b) = b).
  { rewrite skipn_app, skipn_all2 by lia. replace (S (List.length a) - List.length a) with 1 by lia. reflexivity. }
  rewrite A1, A2. reflexivity.
Qed.

Lemma turn_make : forall P a q b s s' q', act P s q = Some (s', q') -> turn P (Many s (a ++ q :: b)) (List.length a) = Some (Many s' (a ++ q' :: b)).
Proof.
  intros P a q b s s' q' A. unfold turn. cbn [m_requests m_shared]. rewrite nth_error_app2, Nat.sub_diag by auto. cbn [nth_error]. rewrite A.
  assert (A1 : firstn (List.length a) (a ++ q :: b) = a) by (rewrite firstn_app, Nat.sub_diag, firstn_all; apply app_nil_r).
  assert (A2 : skipn (S (List.length a)) (a ++ q :: b) = b).
  { rewrite skipn_app, skipn_all2 by lia. replace (S (List.length a) - List.length a) with 1 by lia. reflexivity. }
  now rewrite A1, A2.
Qed.

(** ** Names *)

Lemma name_eqb_eq : forall a b, name_eqb a b = true <-> a = b.
Proof. exact path_eqb_eq. Qed.

Lemma prefixes_snoc : forall n x, prefixes (n ++ [x]) = prefixes n ++ [n ++ [x]].
Proof.
  intros n x. unfold prefixes. rewrite app_length. cbn [List.length]. rewrite Nat.add_1_r, seq_S, map_app. cbn [map]. f_equal.
  - apply map_ext_in. intros k I. apply in_seq in I. rewrite firstn_app. replace (S k - List.length n) with 0 by lia. now rewrite app_nil_r.
  - f_equal. rewrite Nat.add_0_l. replace (S (List.length n)) with (List.length (n ++ [x])) by (rewrite app_length; cbn; lia). now rewrite firstn_all.
Qed.

Lemma prefixes_last : forall n, n <> [] -> prefixes n = prefixes (removelast n) ++ [n].
Proof.
  intros n N. destruct (exists_last N) as (m & x & ->). rewrite removelast_app by discriminate. cbn [removelast]. rewrite app_nil_r. apply prefixes_snoc.
Qed.

Lemma prefixes_length : forall n, List.length (prefixes n) = List.length n.
Proof. intro n. unfold prefixes. now rewrite map_length, seq_length. Qed.

Lemma prefixes_inj : forall a b, prefixes a = prefixes b -> a = b.
Proof.
  intros a b E. destruct a as [|x a].
  - assert (L := f_equal (@List.length _) E). rewrite !prefixes_length in L. destruct b; [auto|discriminate].
  - assert (Na : x :: a <> []) by discriminate. assert (Nb : b <> []).
    { intros ->. assert (L := f_equal (@List.length _) E). rewrite !prefixes_length in L. discriminate. }
    rewrite (prefixes_last _ Na), (prefixes_last _ Nb) in E. now apply app_inj_tail in E.
Qed.

Lemma prefixes_chain : forall x n w ws, prefixes x = prefixes n ++ w :: ws -> w <> [] /\ prefixes w = prefixes n ++ [w].
Proof.
  intros x. induction x as [|c x IH] using rev_ind; intros n w ws E.
  - destruct (prefixes n); discriminate.
  - rewrite prefixes_snoc in E. destruct ws as [|v ws].
    + apply app_inj_tail in E. destruct E as [E1 E2]. subst w. split; [now destruct x|]. rewrite prefixes_snoc. now rewrite E1.
    + destruct (exists_last (l := v :: ws)) as (l & z & El); [discriminate|]. rewrite El in E.
      rewrite app_comm_cons, app_assoc in E. apply app_inj_tail in E. destruct E as [E _]. now apply (IH n w l).
Qed.

Lemma entry_in : forall s n r, entry s n = Some r -> In (n, r) (s_mods s).
Proof.
  intros s n r H. unfold entry in H. destruct (find _ _) as [[k v]|] eqn:F; [|discriminate]. injection H as <-. apply find_some in F.
  destruct F as [I E]. cbn [fst] in E. apply name_eqb_eq in E. now subst.
Qed.

(** ** Where modules come from *)

Section Origin.
Context (P : projects) (R : path -> Prop).

Definition from (x : name * path) : Prop := R (snd x) /\ loadable P (snd x) (fst x).

Definition state_ok (s : shared) : Prop :=
  (forall x, In x (s_mods s) -> fst x <> [] /\ from x) /\ (s_there s = true -> forall r, s_path s = Some r -> R r).

(** What has been collected while importing [x], with [l] to come *)
Definition collected (t : name) (acc : list (name * path)) (rest : list name) : Prop :=
  exists r0 acc', acc = (t, r0) :: acc' /\ map fst acc' ++ rest = map (fun y => t ++ [y]) (l_subs P r0 t).

Definition working (t n : name) (wait : list name) (acc : list (name * path)) (todo : option (list name)) : Prop :=
  n <> [] /\ Forall from acc /\
  match todo with
  | None => acc = [] /\ prefixes t = prefixes n ++ wait
  | Some l => exists x, prefixes x = prefixes n ++ wait /\ collected t acc (x :: l)
  end.

Definition result_ok (t : name) (r : res (list (name * path))) : Prop :=
  match r with
  | Ok ms => Forall from ms /\ collected t ms []
  | Err e => e = KeyError \/ e = ImportError \/ exists root n, R root /\ l_load P root n = Err e
  end.

Definition place_ok (q : request) : Prop :=
  q_name q <> [] /\
  match q_place q with
  | Entering | Setting => True
  | Needing n wait acc todo | Loading n wait acc todo => working (q_name q) n wait acc todo
  | Binding n r wait acc todo => working (q_name q) n wait acc todo /\ from (n, r)
  | Leaving r | Purging _ r | Over r => result_ok (q_name q) r
  end.

Lemma imported_ok : forall root t n r wait acc todo, t <> [] -> working t n wait acc todo -> from (n, r) ->
  place_ok (Request root t (imported P n r wait acc todo)).
Proof.
  intros root t n r wait acc todo Nt (Nn & Fa & W) F. split; [exact Nt|]. cbn [q_name q_place]. unfold imported. destruct wait as [|w ws].
  - assert (C : exists rest, (match todo with None => map (fun x => n ++ [x]) (l_subs P r n) | Some ts => ts end) = rest /\ collected t (acc ++ [(n, r)]) rest).
    { destruct todo as [l|].
      - destruct W as (x & Ex & r0 & acc' & -> & Em). rewrite app_nil_r in Ex. apply prefixes_inj in Ex. subst x. exists l. split; auto.
        exists r0, (acc' ++ [(n, r)]). split; auto. rewrite map_app, <- app_assoc. exact Em.
      - destruct W as [-> Ex]. rewrite app_nil_r in Ex. apply prefixes_inj in Ex. subst n. eexists. split; [reflexivity|]. exists r, []. auto. }
    destruct C as (rest & -> & C). assert (Fa' : Forall from (acc ++ [(n, r)])) by (apply Forall_app; auto).
    destruct rest as [|x rest]; cbn [continue]; [now split|]. split; [|split; auto].
    + destruct C as (r0 & acc' & _ & Em). assert (I : In x (map (fun y => t ++ [y]) (l_subs P r0 t))) by (rewrite <- Em; apply in_or_app; simpl; auto).
      apply in_map_iff in I. destruct I as (y & <- & _). now destruct t.
    + exists x. split; [now rewrite app_nil_r|exact C].
  - assert (K : forall x, prefixes x = prefixes n ++ w :: ws -> w <> [] /\ prefixes x = prefixes w ++ ws).
    { intros x Ex. destruct (prefixes_chain _ _ _ _ Ex) as [Nw Ew]. split; auto. rewrite Ew, <- app_assoc. exact Ex. }
    destruct todo as [l|].
    + destruct W as (x & Ex & C). destruct (K x Ex) as [Nw Ew]. split; [exact Nw|]. split; auto. exists x. auto.
    + destruct W as [-> Ex]. destruct (K t Ex) as [Nw Ew]. split; [exact Nw|]. split; auto.
Qed.

Lemma entry_ok : forall s n r, state_ok s -> entry s n = Some r -> from (n, r).
Proof. intros s n r [M _] E. apply entry_in in E. now destruct (M _ E). Qed.

Lemma load_ok : forall s n r, state_ok s -> n <> [] -> package s (removelast n) = Ok (Some r) -> R r /\ (l_load P r n = Ok tt -> from (n, r)).
Proof.
  intros s n r So Nn Pk. unfold package in Pk. destruct (removelast n) as [|p0 p1] eqn:Er.
  - destruct So as [_ Sp]. destruct (s_there s) eqn:Et; [|discriminate]. assert (R r) by (apply Sp; congruence). split; auto.
    intro L. split; auto. intros p Ip. cbn [fst snd] in *. rewrite (prefixes_last _ Nn), Er in Ip. destruct Ip as [<-|[]]. exact L.
  - destruct (entry s (p0 :: p1)) as [r'|] eqn:En; [|discriminate]. injection Pk as ->. destruct (entry_ok _ _ _ So En) as [Rr Lr]. split; auto.
    intro L. split; auto. intros p Ip. cbn [fst snd] in *. rewrite (prefixes_last _ Nn), Er in Ip. apply in_app_iff in Ip. destruct Ip as [Ip|[<-|[]]]; auto.
Qed.

Lemma act_ok : forall s q s' q', R (q_root q) -> state_ok s -> place_ok q -> act P s q = Some (s', q') ->
  state_ok s' /\ place_ok q' /\ q_root q' = q_root q /\ q_name q' = q_name q.
Proof.
  intros s [root t pl] s' q' Rq So [Nt Pq] A. unfold act in A. cbn [q_root q_name q_place] in *.
  destruct pl as [| |n wait acc todo|n wait acc todo|n r wait acc todo|r|keys r|r]; cbv zeta in A.
  - injection A as <- <-. split; [|split; [split; [exact Nt|exact I]|auto]]. destruct (s_there s); auto. split; [apply So|discriminate].
  - injection A as <- <-. split; [split; [apply So|intros _ r X; injection X as <-; auto]|]. split; [|auto]. split; [exact Nt|]. cbn [q_place q_name].
    split; auto. split; auto. split; auto. now rewrite app_nil_r.
  - destruct (entry s n) as [r|] eqn:En.
    + injection A as <- <-. split; auto. split; [|auto]. apply imported_ok; auto. eapply entry_ok; eauto.
    + destruct (there s (removelast n)) eqn:Th.
      * injection A as <- <-. split; auto. split; [|auto]. split; auto.
      * destruct (removelast n) as [|p0 p1] eqn:Er.
        -- injection A as <- <-. split; [split; [apply So|discriminate]|]. split; [|auto]. split; auto.
        -- injection A as <- <-. split; auto. split; [|auto]. split; auto. cbn [q_place q_name]. destruct Pq as (Nn & Fa & W).
           split; [discriminate|]. split; auto. rewrite (prefixes_last _ Nn), Er, <- app_assoc in W. exact W.
  - destruct (entry s n) as [r|] eqn:En.
    + injection A as <- <-. split; auto. split; [|auto]. apply imported_ok; auto. eapply entry_ok; eauto.
    + destruct Pq as (Nn & Fa & W). destruct (package s (removelast n)) as [[r|]|e] eqn:Pk.
      * destruct (load_ok _ _ _ So Nn Pk) as [Rr Lr]. destruct (l_load P r n) as [[]|e] eqn:L; injection A as <- <-.
        -- specialize (Lr eq_refl). split; [|split; [|auto]].
           ++ split; [|apply So]. cbn [s_mods]. intros x [<-|Ix]; [split; auto|now apply So].
           ++ split; [exact Nt|]. split; auto. split; auto.
        -- split; auto. split; [|auto]. split; [exact Nt|]. cbn. right. right. exists r, n. auto.
      * injection A as <- <-. split; auto. split; [|auto]. split; [exact Nt|]. cbn. auto.
      * injection A as <- <-. split; auto. split; [|auto]. split; [exact Nt|]. cbn. left.
        unfold package in Pk. destruct (removelast n) as [|p0 p1]; [destruct (s_there s)|destruct (entry s (p0 :: p1))]; congruence.
  - destruct Pq as [W F]. destruct (there s (removelast n)); injection A as <- <-; (split; [exact So|]); (split; [|auto]).
    + now apply imported_ok.
    + split; [exact Nt|]. cbn. auto.
  - injection A as <- <-. split; auto. split; [|auto]. split; [exact Nt|]. exact Pq.
  - injection A as <- <-. split; [|split; [|auto]].
    + split; cbn [s_mods s_there s_path].
      * intros x Ix. apply filter_In in Ix. now apply So.
      * intro E. apply andb_true_iff in E. now apply So.
    + split; [exact Nt|]. exact Pq.
  - discriminate.
Qed.
End Origin.

Definition about (ts : list (path * name)) (i : nat) (q : request) : Prop := nth_error ts i = Some (q_root q, q_name q).

Lemma many_ok : forall P p ts m, happens P p ts m -> (forall t, In t ts -> snd t <> []) ->
  state_ok P (fun r => In r (map fst ts)) (m_shared m) /\ map (fun q => (q_root q, q_name q)) (m_requests m) = ts /\
  forall q, In q (m_requests m) -> place_ok P (fun r => In r (map fst ts)) q.
Proof.
  intros P p ts m H Ne. pattern m. revert m H. apply (happens_ind P p ts).
  - split; [|split].
    + split; [intros x []|discriminate].
    + cbn [start m_requests]. rewrite map_map. rewrite <- (map_id ts) at 2. apply map_ext. now intros [].
    + intros q I. cbn [start m_requests] in I. apply in_map_iff in I. destruct I as (t & <- & It). split; [now apply Ne|exact Logic.I].
  - intros m i m' _ (So & Em & Pl) T. apply turn_inv in T. destruct T as (a & q & b & s & q' & E & _ & A & ->). cbn [m_shared m_requests].
    rewrite E in *. assert (Iq : In q (a ++ q :: b)) by (apply in_or_app; simpl; auto).
    assert (Rq : In (q_root q) (map fst ts)).
    { rewrite <- Em, map_map. cbn [fst]. now apply in_map. }
    destruct (act_ok P _ _ _ _ _ Rq So (Pl q Iq) A) as (So' & Pq' & Er & En). split; auto. split.
    + rewrite <- Em, !map_app. cbn [map]. now rewrite Er, En.
    + intros z Iz. apply in_app_iff in Iz. destruct Iz as [Iz|[<-|Iz]]; auto; apply Pl; apply in_or_app; simpl; auto.
Qed.

(** ** C83 *)

(** In every interleaving: the modules whose rules a request gets are the module it asks for and the submodules that this has, each loaded, with
    the packages it is in, from the project of some request; an exception is ImportError, KeyError or one of a module. *)
Theorem C83_origin : forall P p ts m i root t q r, happens P p ts m -> (forall t, In t ts -> snd t <> []) ->
  nth_error ts i = Some (root, t) -> nth_error (m_requests m) i = Some q -> result_of q = Some r ->
  match r with
  | Ok ms => (forall n d, In (n, d) ms -> In d (map fst ts) /\ loadable P d n) /\
             exists d0, map fst ms = t :: map (fun s => t ++ [s]) (l_subs P d0 t) /\ nth_error ms 0 = Some (t, d0)
  | Err e => e = KeyError \/ e = ImportError \/ exists d n, In d (map fst ts) /\ l_load P d n = Err e
  end.
Proof.
  intros P p ts m i root t q r H Ne Nt Nq Rq. destruct (many_ok P p ts m H Ne) as (_ & Em & Pl). destruct (Pl q (nth_error_In _ _ Nq)) as [_ Pq].
  assert (Eq : q_name q = t).
  { rewrite <- Em, (map_nth_error _ _ _ Nq) in Nt. congruence. }
  unfold result_of in Rq. destruct (q_place q); try discriminate. injection Rq as ->. rewrite Eq in Pq. destruct r as [ms|e]; [|exact Pq].
  destruct Pq as [F (r0 & acc & -> & Ea)]. split.
  - intros n d I. rewrite Forall_forall in F. exact (F (n, d) I).
  - exists r0. rewrite app_nil_r in Ea. cbn [map fst]. rewrite Ea. auto.
Qed.

Lemma load_all : forall P root l, (forall p, In p l -> l_load P root p = Ok tt) -> exists us, map_res (l_load P root) l = Ok us.
Proof.
  intros P root l. induction l as [|x l IH]; intro H; cbn [map_res]; [eauto|]. rewrite (H x) by (simpl; auto). cbn [bind].
  destruct IH as (us & ->); [intros; apply H; simpl; auto|]. cbn [bind]. eauto.
Qed.

Lemma load_subs : forall P root l, (forall x, In x l -> snd x = root /\ l_load P root (fst x) = Ok tt) ->
  map_res (fun x => let! _ := l_load P root x in Ok (x, root)) (map fst l) = Ok l.
Proof.
  intros P root l. induction l as [|[n r] l IH]; intro H; cbn [map map_res fst]; [reflexivity|]. destruct (H (n, r)) as [E L]; [simpl; auto|]. cbn [fst snd] in *. subst r.
  rewrite L. cbn [bind]. rewrite IH by (intros; apply H; simpl; auto). reflexivity.
Qed.

Lemma whole_ok : forall P root t ms, Forall (from P (eq root)) ms -> collected P t ms [] -> local_modules P root t = Ok ms.
Proof.
  intros P root t ms F (r0 & acc & -> & Ea). rewrite app_nil_r in Ea. inversion F as [|? ? F0 Fa]. subst. destruct F0 as [E L]. cbn [fst snd] in *. subst r0.
  unfold local_modules. destruct (load_all P root (prefixes t) L) as (us & ->). cbn [bind]. rewrite <- Ea, load_subs; [reflexivity|].
  intros x I. rewrite Forall_forall in Fa. destruct (Fa x I) as [-> Lx]. split; auto. apply Lx.
  assert (N : fst x <> []).
  { assert (J : In (fst x) (map fst acc)) by now apply in_map. rewrite Ea in J. apply in_map_iff in J. destruct J as (y & <- & _). now destruct t. }
  rewrite (prefixes_last _ N). apply in_or_app. simpl. auto.
Qed.

(** If all requests are for the same project, a request that ends without an exception has got exactly the modules of this project that it should. *)
Theorem C83_same_project : forall P p ts m i root t q ms, happens P p ts m -> (forall t, In t ts -> snd t <> []) ->
  (forall t, In t ts -> fst t = root) -> nth_error ts i = Some (root, t) -> nth_error (m_requests m) i = Some q -> result_of q = Some (Ok ms) ->
  local_modules P root t = Ok ms.
Proof.
  intros P p ts m i root t q ms H Ne Sa Nt Nq Rq. destruct (many_ok P p ts m H Ne) as (_ & Em & Pl). destruct (Pl q (nth_error_In _ _ Nq)) as [_ Pq].
  assert (Eq : q_name q = t).
  { rewrite <- Em, (map_nth_error _ _ _ Nq) in Nt. congruence. }
  unfold result_of in Rq. destruct (q_place q); try discriminate. injection Rq as ->. rewrite Eq in Pq. destruct Pq as [F C].
  apply whole_ok; auto. apply (Forall_impl _ (P := from P (fun r => In r (map fst ts)))); auto. intros x [I L]. split; auto.
  apply in_map_iff in I. destruct I as (y & <- & I). symmetry. now apply Sa.
Qed.

(** *** Nothing stays *)

(** The request will remove [k] from sys.modules. *)
Definition charged (q : request) (k : name) : Prop :=
  match q_place q with
  | Entering | Over _ => False
  | Purging keys _ => In k keys
  | _ => True
  end.

Lemma named_in_spec : forall keys n, named_in keys n = true <-> In n keys.
Proof.
  intros keys n. unfold named_in. rewrite existsb_exists. split.
  - intros (x & I & E). apply name_eqb_eq in E. now subst.
  - intro I. exists n. split; auto. now apply name_eqb_eq.
Qed.

Lemma keys_cons : forall s k, In k (keys_of s) <-> (s_there s = true /\ k = []) \/ In k (map fst (s_mods s)).
Proof. intros s k. unfold keys_of. rewrite in_app_iff. destruct (s_there s); simpl; intuition congruence. Qed.

(** A step adds only keys the request will remove, and stops being charged only with keys that are gone. *)
Lemma act_charged : forall P s q s' q', act P s q = Some (s', q') ->
  (forall k, In k (keys_of s') -> In k (keys_of s) \/ charged q' k) /\
  (forall k, In k (keys_of s') -> charged q k -> charged q' k).
Proof.
  intros P s [root t pl] s' q' A. unfold act in A. cbn [q_root q_name q_place] in A.
  assert (Im : forall n r wait acc todo k, charged (Request root t (imported P n r wait acc todo)) k).
  { intros. unfold charged, imported. cbn [q_place]. destruct wait as [|w ws]; auto. unfold continue. destruct (match todo with None => _ | Some _ => _ end); exact I. }
  destruct pl as [| |n wait acc todo|n wait acc todo|n r wait acc todo|r|keys r|r]; cbv zeta in A.
  - injection A as <- <-. split; intros k Ik; [right|intros []]. exact I.
  - injection A as <- <-. split; intros k Ik; [right; exact I|intros _; exact I].
  - destruct (entry s n) as [r|]; [|destruct (there s (removelast n)); [|destruct (removelast n)]]; injection A as <- <-;
      (split; intros k Ik; [right|intros _]); try apply Im; exact I.
  - destruct (entry s n) as [r|]; [|destruct (package s (removelast n)) as [[r|]|e]; [destruct (l_load P r n)| |]]; injection A as <- <-;
      (split; intros k Ik; [right|intros _]); try apply Im; exact I.
  - destruct (there s (removelast n)); injection A as <- <-; (split; intros k Ik; [right|intros _]); try apply Im; exact I.
  - injection A as <- <-. split; intros k Ik; auto.
  - injection A as <- <-. split; intros k Ik.
    + left. rewrite keys_cons in *. cbn [s_there s_mods] in Ik. destruct Ik as [[B ->]|Ik].
      * left. apply andb_true_iff in B. tauto.
      * right. apply in_map_iff in Ik. destruct Ik as (x & <- & Ix). apply filter_In in Ix. apply in_map. tauto.
    + unfold charged. cbn [q_place]. intro Ck. rewrite keys_cons in Ik. cbn [s_there s_mods] in Ik. destruct Ik as [[B ->]|Ik].
      * apply andb_true_iff in B. destruct B as [_ B]. apply negb_true_iff in B. apply named_in_spec in Ck. congruence.
      * apply in_map_iff in Ik. destruct Ik as (x & <- & Ix). apply filter_In in Ix. destruct Ix as [_ B]. apply negb_true_iff in B.
        apply named_in_spec in Ck. congruence.
  - discriminate.
Qed.

(** When no request is underway, nothing of fixit.local is in sys.modules. *)
Theorem C83_clean : forall P p ts m, happens P p ts m -> (forall q, In q (m_requests m) -> idle q) -> clean (m_shared m).
Proof.
  intros P p ts m H Idle. assert (K : forall k, In k (keys_of (m_shared m)) -> exists q, In q (m_requests m) /\ charged q k).
  { clear Idle. pattern m. revert m H. apply (happens_ind P p ts); [intros k []|].
    intros m i m' _ IH T. apply turn_inv in T. destruct T as (a & q & b & s & q' & E & _ & A & ->). cbn [m_shared m_requests].
    intros k Ik. destruct (act_charged _ _ _ _ _ A) as [A1 A2].
    assert (Iq : In q' (a ++ q' :: b)) by (apply in_or_app; simpl; auto).
    destruct (A1 k Ik) as [Ok|C]; [|eauto]. destruct (IH k Ok) as (z & Iz & Cz). rewrite E in Iz. apply in_app_iff in Iz. destruct Iz as [Iz|[<-|Iz]].
    - exists z. split; auto. apply in_or_app. auto.
    - exists q'. split; auto.
    - exists z. split; auto. apply in_or_app. simpl. auto. }
  assert (N : forall k, ~ In k (keys_of (m_shared m))).
  { intros k Ik. destruct (K k Ik) as (q & Iq & C). destruct (Idle q Iq) as [E|(r & E)]; unfold charged in C; now rewrite E in C. }
  split.
  - destruct (s_there (m_shared m)) eqn:E; auto. exfalso. apply (N []). rewrite keys_cons. auto.
  - destruct (s_mods (m_shared m)) as [|x l] eqn:E; auto. exfalso. apply (N (fst x)). rewrite keys_cons, E. simpl. auto.
Qed.

(** *** Every request ends *)

Definition rest_cost (B : nat) (t : name) (todo : option (list name)) : nat :=
  match todo with
  | None => 2 + B * (3 * S (List.length t))
  | Some l => 2 + list_sum (map (fun x => 3 * List.length x) l)
  end.

Definition left_over (B : nat) (q : request) : nat :=
  match q_place q with
  | Entering => 5 + 3 * List.length (q_name q) + B * (3 * S (List.length (q_name q)))
  | Setting => 4 + 3 * List.length (q_name q) + B * (3 * S (List.length (q_name q)))
  | Needing n wait _ todo => List.length n + 2 * (List.length n + List.length wait) + rest_cost B (q_name q) todo
  | Loading n wait _ todo => 2 * (1 + List.length wait) + rest_cost B (q_name q) todo
  | Binding n _ wait _ todo => 1 + 2 * List.length wait + rest_cost B (q_name q) todo
  | Leaving _ => 2
  | Purging _ _ => 1
  | Over _ => 0
  end.

Lemma continue_cost : forall B root t acc l, left_over B (Request root t (continue acc l)) = 2 + list_sum (map (fun x => 3 * List.length x) l).
Proof.
  intros B root t acc [|x l]; [reflexivity|]. unfold left_over, continue. cbn [q_place q_name rest_cost List.length].
  change (list_sum (map (fun x => 3 * List.length x) (x :: l))) with (3 * List.length x + list_sum (map (fun x => 3 * List.length x) l)). lia.
Qed.

Lemma imported_cost : forall P B (R : path -> Prop) root t n r wait acc todo, (forall r, R r -> List.length (l_subs P r t) <= B) -> R r ->
  working P R t n wait acc todo ->
  left_over B (Request root t (imported P n r wait acc todo)) <= 2 * List.length wait + rest_cost B t todo.
Proof.
  intros P B R root t n r wait acc todo HB Rr (Nn & _ & W). unfold imported. destruct wait as [|w ws].
  - rewrite continue_cost. destruct todo as [l|]; cbn [rest_cost List.length]; [lia|]. destruct W as [_ E]. rewrite app_nil_r in E. apply prefixes_inj in E. subst n.
    rewrite map_map. assert (K : list_sum (map (fun x => 3 * List.length (t ++ [x])) (l_subs P r t)) = List.length (l_subs P r t) * (3 * S (List.length t))).
    { induction (l_subs P r t) as [|x l IH]; [reflexivity|].
      change (list_sum (map (fun x => 3 * List.length (t ++ [x])) (x :: l))) with (3 * List.length (t ++ [x]) + list_sum (map (fun x => 3 * List.length (t ++ [x])) l)).
      rewrite IH, app_length. cbn [List.length]. lia. }
    rewrite K. specialize (HB r Rr). nia.
  - unfold left_over. cbn [q_place q_name List.length]. lia.
Qed.

Lemma act_cost : forall P B (R : path -> Prop) s q s' q', (forall r, R r -> List.length (l_subs P r (q_name q)) <= B) -> R (q_root q) ->
  state_ok P R s -> place_ok P R q -> act P s q = Some (s', q') -> left_over B q' < left_over B q.
Proof.
  intros P B R s [root t pl] s' q' HB Rq So [Nt Pq] A. unfold act in A. cbn [q_root q_name q_place] in *. unfold left_over at 2. cbn [q_place q_name].
  destruct pl as [| |n wait acc todo|n wait acc todo|n r wait acc todo|r|keys r|r]; cbv zeta in A.
  - injection A as <- <-. unfold left_over. cbn [q_place q_name]. lia.
  - injection A as <- <-. unfold left_over. cbn [q_place q_name List.length rest_cost]. lia.
  - pose proof Pq as (Nn & _). assert (1 <= List.length n) by (destruct n; [congruence|cbn; lia]). destruct (entry s n) as [r|] eqn:En.
    + injection A as <- <-. destruct (entry_ok P R s n r So En) as [Rr _]. pose proof (imported_cost P B R root t n r wait acc todo HB Rr Pq). lia.
    + destruct (there s (removelast n)); [|destruct (removelast n) as [|p0 p1] eqn:Er]; injection A as <- <-; unfold left_over; cbn [q_place q_name]; [lia|lia|].
      assert (L : List.length n = S (List.length (p0 :: p1))).
      { rewrite <- Er. destruct (exists_last Nn) as (m & x & ->). rewrite removelast_app by discriminate. cbn [removelast]. rewrite app_nil_r, app_length. cbn. lia. }
      cbn [List.length] in *. lia.
  - destruct (entry s n) as [r|] eqn:En.
    + injection A as <- <-. destruct (entry_ok P R s n r So En) as [Rr _]. pose proof (imported_cost P B R root t n r wait acc todo HB Rr Pq). lia.
    + assert (2 <= rest_cost B t todo) by (destruct todo; cbn [rest_cost]; lia).
      destruct (package s (removelast n)) as [[r|]|e]; [destruct (l_load P r n)| |]; injection A as <- <-; unfold left_over; cbn [q_place q_name]; lia.
  - destruct Pq as [W [Rr _]]. assert (2 <= rest_cost B t todo) by (destruct todo; cbn [rest_cost]; lia).
    destruct (there s (removelast n)); injection A as <- <-.
    + pose proof (imported_cost P B R root t n r wait acc todo HB Rr W). lia.
    + unfold left_over. cbn [q_place]. lia.
  - injection A as <- <-. unfold left_over. cbn [q_place]. lia.
  - injection A as <- <-. unfold left_over. cbn [q_place]. lia.
  - discriminate.
Qed.

Lemma act_stuck : forall P s q, act P s q = None -> exists r, result_of q = Some r.
Proof.
  intros P s [root t pl] A. unfold act in A. cbn [q_place] in A.
  destruct pl as [| |n wait acc todo|n wait acc todo|n r wait acc todo|r|keys r|r]; cbv zeta in A; try discriminate.
  - destruct (entry s n); [discriminate|]. destruct (there s (removelast n)); [discriminate|]. destruct (removelast n); discriminate.
  - destruct (entry s n); [discriminate|]. destruct (package s (removelast n)) as [[r|]|e]; [destruct (l_load P r n)| |]; discriminate.
  - destruct (there s (removelast n)); discriminate.
  - exists r. reflexivity.
Qed.

Lemma bound_exists : forall P (ts : list (path * name)), exists B, forall t r, In t ts -> In r (map fst ts) -> List.length (l_subs P r (snd t)) <= B.
Proof.
  intros P ts. set (l := flat_map (fun t => map (fun u => List.length (l_subs P (fst u) (snd t))) ts) ts). exists (list_max l). intros t r It Ir.
  assert (I : In (List.length (l_subs P r (snd t))) l).
  { apply in_flat_map. exists t. split; auto. apply in_map_iff in Ir. destruct Ir as (v & <- & Iv). apply (in_map (fun v => List.length (l_subs P (fst v) (snd t)))). exact Iv. }
  pose proof (proj1 (list_max_le l (list_max l)) (Nat.le_refl _)) as F. rewrite Forall_forall in F. auto.
Qed.

(** A request that is not over can always take its next turn, whatever the others are doing, and there is a bound to the length of schedules. *)
Theorem C83_ends : forall P p ts, (forall t, In t ts -> snd t <> []) -> exists N, forall l m, turns P (start p ts) l = Some m ->
  List.length l <= N /\
  forall i q, nth_error (m_requests m) i = Some q -> result_of q = None -> exists m', turns P (start p ts) (l ++ [i]) = Some m'.
Proof.
  intros P p ts Ne. destruct (bound_exists P ts) as (B & HB). exists (list_sum (map (left_over B) (m_requests (start p ts)))). intros l m H. split.
  - enough (K : List.length l + list_sum (map (left_over B) (m_requests m)) <= list_sum (map (left_over B) (m_requests (start p ts)))) by lia.
    revert m H. induction l as [|i l IH] using rev_ind; intros m H; [injection H as <-; cbn [List.length]; lia|].
    rewrite turns_app in H. destruct (turns P (start p ts) l) as [m1|] eqn:E1; [|discriminate]. cbn [turns] in H.
    destruct (turn P m1 i) as [m2|] eqn:T; [|discriminate]. injection H as <-. specialize (IH m1 eq_refl).
    destruct (many_ok P p ts m1 (ex_intro _ l E1) Ne) as (So & Em & Pl).
    apply turn_inv in T. destruct T as (a & q & b & s & q' & E & _ & A & ->). cbn [m_requests]. rewrite E in *.
    assert (Iq : In q (a ++ q :: b)) by (apply in_or_app; simpl; auto).
    assert (It : In (q_root q, q_name q) ts) by (rewrite <- Em; apply (in_map (fun q => (q_root q, q_name q))); exact Iq).
    assert (C : left_over B q' < left_over B q).
    { eapply (act_cost P B (fun r => In r (map fst ts))); eauto; [intros r Ir; exact (HB _ r It Ir)|]. apply (in_map fst) in It. exact It. }
    rewrite map_app, list_sum_app in *. cbn [map] in *. rewrite app_length. cbn [List.length].
    change (list_sum (left_over B q :: map (left_over B) b)) with (left_over B q + list_sum (map (left_over B) b)) in IH.
    change (list_sum (left_over B q' :: map (left_over B) b)) with (left_over B q' + list_sum (map (left_over B) b)). lia.
  - intros i q N R. rewrite turns_app, H. cbn [turns]. unfold turn. rewrite N. destruct (act P (m_shared m) q) as [[s q']|] eqn:A; eauto.
    destruct (act_stuck _ _ _ A) as (r & X). congruence.
Qed.

(** *** A request that is not disturbed *)

Lemma entry_cons : forall a b n r l, entry (Shared a b ((n, r) :: l)) n = Some r.
Proof. intros. unfold entry. cbn [s_mods find fst]. rewrite (proj2 (name_eqb_eq n n) eq_refl). reflexivity. Qed.

Lemma entry_keep : forall a b x l k r, entry (Shared a b l) k = Some r -> exists r', entry (Shared a b (x :: l)) k = Some r'.
Proof. intros a b x l k r H. unfold entry in *. cbn [s_mods find] in *. destruct (name_eqb (fst x) k); [eauto|]. destruct (find _ l); [eauto|discriminate]. Qed.

Lemma there_keep : forall a b x l k, there (Shared a b l) k = true -> there (Shared a b (x :: l)) k = true.
Proof.
  intros a b x l k H. unfold there in *. destruct k as [|k0 k1]; [exact H|]. destruct (entry (Shared a b l) (k0 :: k1)) as [r|] eqn:E; [|discriminate].
  destruct (entry_keep a b x l _ _ E) as (r' & ->). reflexivity.
Qed.

Definition settled (s : shared) (root : path) : Prop := s_there s = true /\ s_path s = Some root.

Definition sub_ready (s : shared) (t : name) (wait : list name) (todo : option (list name)) : Prop :=
  match todo with None => True | Some _ => wait = [] /\ there s t = true end.

Definition solo (P : projects) (s : shared) (q : request) : Prop :=
  let root := q_root q in
  match q_place q with
  | Entering => clean s
  | Setting => s_there s = true /\ s_mods s = []
  | Needing n wait acc todo => settled s root /\ sub_ready s (q_name q) wait todo /\ (todo <> None -> there s (removelast n) = true)
  | Loading n wait acc todo => settled s root /\ sub_ready s (q_name q) wait todo /\ there s (removelast n) = true
  | Binding n r wait acc todo => settled s root /\ sub_ready s (q_name q) wait todo /\ there s (removelast n) = true /\ there s n = true
  | Leaving (Err e) => local_modules P root (q_name q) = Err e
  | Leaving (Ok _) => True
  | Purging keys r => (match r with Err e => local_modules P root (q_name q) = Err e | Ok _ => True end) /\ forall k, In k (keys_of s) -> In k keys
  | Over r => (match r with Err e => local_modules P root (q_name q) = Err e | Ok _ => True end) /\ clean s
  end.

Lemma removelast_snoc : forall {A} (l : list A) x, removelast (l ++ [x]) = l.
Proof. intros. rewrite removelast_app by discriminate. cbn [removelast]. apply app_nil_r. Qed.

Lemma map_res_err : forall {A B} (f : A -> res B) a x b e ys, map_res f a = Ok ys -> f x = Err e -> map_res f (a ++ x :: b) = Err e.
Proof.
  intros A B f a. induction a as [|y a IH]; intros x b e ys H E; cbn [app map_res] in *; [now rewrite E|].
  destruct (f y) as [v|]; [|discriminate]. cbn [bind] in *. destruct (map_res f a) as [vs|] eqn:Ea; [|discriminate]. cbn [bind] in H.
  rewrite (IH x b e vs eq_refl E). reflexivity.
Qed.

Lemma imported_solo : forall P s root t n r wait acc todo, working P (eq root) t n wait acc todo -> settled s root -> sub_ready s t wait todo ->
  n <> [] -> there s n = true -> solo P s (Request root t (imported P n r wait acc todo)).
Proof.
  intros P s root t n r wait acc todo (Nn & Fa & W) Se Su _ Th. unfold imported. destruct wait as [|w ws].
  - unfold continue.
    assert (K : forall x l, (match todo with None => map (fun x => n ++ [x]) (l_subs P r n) | Some ts => ts end) = x :: l -> there s t = true /\ removelast x = t).
    { intros x l E. destruct todo as [ts|].
      - destruct Su as [_ Tt]. split; auto. subst ts. destruct W as (y & _ & r0 & acc' & _ & Em).
        assert (I : In x (map (fun y => t ++ [y]) (l_subs P r0 t))) by (rewrite <- Em; apply in_or_app; simpl; auto).
        apply in_map_iff in I. destruct I as (z & <- & _). apply removelast_snoc.
      - destruct W as [_ E']. rewrite app_nil_r in E'. apply prefixes_inj in E'. subst n. split; auto.
        assert (I : In x (map (fun y => t ++ [y]) (l_subs P r t))) by (rewrite E; simpl; auto).
        apply in_map_iff in I. destruct I as (z & <- & _). apply removelast_snoc. }
    destruct (match todo with None => _ | Some _ => _ end) as [|x l]; [exact I|]. destruct (K x l eq_refl) as [Tt Rx].
    cbn. split; auto. split; [split; auto|]. intros _. now rewrite Rx.
  - destruct todo as [ts|]; [destruct Su; discriminate|]. destruct W as [-> E]. destruct (prefixes_chain _ _ _ _ E) as [Nw Ew].
    cbn [solo q_place q_root]. split; auto. split; [exact I|]. rewrite (prefixes_last _ Nw) in Ew. apply app_inj_tail in Ew. destruct Ew as [Ew _].
    apply prefixes_inj in Ew. now rewrite Ew.
Qed.

Lemma act_solo : forall P s q s' q', state_ok P (eq (q_root q)) s -> place_ok P (eq (q_root q)) q -> solo P s q -> act P s q = Some (s', q') -> solo P s' q'.
Proof.
  intros P s [root t pl] s' q' So [Nt Pq] Sq A. unfold act in A. unfold solo in Sq. cbn [q_root q_name q_place] in *.
  destruct pl as [| |n wait acc todo|n wait acc todo|n r wait acc todo|r|keys r|r]; cbv zeta in A.
  - injection A as <- <-. destruct Sq as [E1 E2]. rewrite E1. cbn. auto.
  - injection A as <- <-. destruct Sq as [E1 E2]. cbn. split; [split; auto|]. split; [exact I|congruence].
  - destruct Sq as (Se & Su & Pa). pose proof Pq as (Nn & _ & W). destruct (entry s n) as [r|] eqn:En.
    + injection A as <- <-. apply imported_solo; auto. unfold there. rewrite En. destruct n; [congruence|reflexivity].
    + destruct (there s (removelast n)) eqn:Th.
      * injection A as <- <-. cbn. auto.
      * assert (todo = None) as -> by (destruct todo; auto; exfalso; assert (X : Some l <> None) by discriminate; specialize (Pa X); discriminate).
        destruct (removelast n) as [|p0 p1] eqn:Er.
        -- exfalso. cbn [there] in Th. destruct Se. congruence.
        -- injection A as <- <-. cbn. split; [auto|split; [exact I|congruence]].
  - destruct Sq as (Se & Su & Th). pose proof Pq as (Nn & Fa & W). destruct (entry s n) as [r|] eqn:En.
    + injection A as <- <-. apply imported_solo; auto. unfold there. rewrite En. destruct n; [congruence|reflexivity].
    + assert (Pk : package s (removelast n) = Ok (Some root)).
      { unfold package, there in *. destruct (removelast n) as [|p0 p1]; [destruct Se as [-> ->]; reflexivity|].
        destruct (entry s (p0 :: p1)) as [r|] eqn:Er; [|discriminate]. destruct (entry_ok P (eq root) s _ _ So Er) as [Z _]. cbn [snd] in Z. congruence. }
      rewrite Pk in A. destruct (l_load P root n) as [[]|e] eqn:L; injection A as <- <-.
      * destruct s as [a b l]. cbn. destruct Se as [S1 S2]. cbn [s_there s_path] in *. split; [split; auto|].
        split; [destruct todo; [destruct Su as [S3 S4]; split; auto; now apply there_keep|exact I]|]. split; [now apply there_keep|].
        unfold there. rewrite entry_cons. destruct n; [congruence|reflexivity].
      * cbn. (* the first module that cannot be loaded *)
        assert (Lp : forall p, In p (prefixes (removelast n)) -> l_load P root p = Ok tt).
        { intros p Ip. destruct (removelast n) as [|p0 p1] eqn:Er; [destruct Ip|]. unfold there in Th. destruct (entry s (p0 :: p1)) as [r|] eqn:Ee; [|discriminate].
          destruct (entry_ok P (eq root) s _ _ So Ee) as [Z Lo]. cbn [fst snd] in *. subst r. now apply Lo. }
        unfold local_modules. destruct todo as [ts|].
        -- destruct Su as [-> Tt]. destruct W as (x & Ex & r0 & acc' & -> & Em). rewrite app_nil_r in Ex. apply prefixes_inj in Ex. subst x.
           inversion Fa as [|? ? F0 F1]. subst. destruct F0 as [Er0 L0]. cbn [fst snd] in *. subst r0.
           destruct (load_all P root (prefixes t) L0) as (us & ->). cbn [bind]. rewrite <- Em.
           erewrite (map_res_err _ (map fst acc') n ts e acc'); [reflexivity| |rewrite L; reflexivity].
           apply load_subs. intros y Iy. rewrite Forall_forall in F1. destruct (F1 y Iy) as [Z Ly]. split; [now symmetry|]. rewrite <- Z in Ly. apply Ly.
           assert (N : fst y <> []).
           { assert (J : In (fst y) (map (fun z => t ++ [z]) (l_subs P root t))) by (rewrite <- Em; apply in_or_app; left; now apply in_map).
             apply in_map_iff in J. destruct J as (z & <- & _). now destruct t. }
           rewrite (prefixes_last _ N). apply in_or_app. simpl. auto.
        -- destruct W as [-> Ex]. rewrite Ex, (prefixes_last _ Nn), <- app_assoc. cbn [app]. destruct (load_all P root _ Lp) as (us & Us).
           erewrite map_res_err; eauto. reflexivity.
  - destruct Sq as (Se & Su & Th & Tn). destruct Pq as [W _]. rewrite Th in A. injection A as <- <-. apply imported_solo; auto. apply W.
  - injection A as <- <-. cbn. split; auto.
  - injection A as <- <-. destruct Sq as [Er K]. cbn. split; auto. split; cbn [s_there s_mods].
    + destruct (s_there s) eqn:E; auto. cbn. rewrite (proj2 (named_in_spec keys [])); auto. apply K. rewrite keys_cons. auto.
    + assert (F : forall x, In x (s_mods s) -> named_in keys (fst x) = true).
      { intros x Ix. apply named_in_spec, K. rewrite keys_cons. right. now apply in_map. }
      clear - F. induction (s_mods s) as [|x l IH]; [reflexivity|]. cbn [filter]. rewrite (F x) by (simpl; auto). cbn [negb]. apply IH. intros. apply F. simpl. auto.
  - discriminate.
Qed.

(** From a state in which no request is underway, a request that then runs without being interrupted ends with exactly what it should, whether
    modules or an exception, and leaves nothing behind; the others are where they were. *)
Theorem C83_alone : forall P p ts m a root t b, happens P p ts m -> (forall t, In t ts -> snd t <> []) ->
  (forall q, In q (m_requests m) -> idle q) -> m_requests m = a ++ Request root t Entering :: b ->
  exists n s, turns P m (repeat (List.length a) n) = Some (Many s (a ++ Request root t (Over (local_modules P root t)) :: b)) /\ clean s.
Proof.
  intros P p ts m a root t b H Ne Idle E. pose proof (C83_clean P p ts m H Idle) as Cl. destruct m as [s rs]. cbn [m_requests m_shared] in *. subst rs.
  assert (Nt : t <> []).
  { destruct (many_ok P p ts _ H Ne) as (_ & _ & Pl). cbn [m_requests] in Pl. destruct (Pl (Request root t Entering)) as [N _]; auto. apply in_or_app. simpl. auto. }
  assert (Go : forall N s q, left_over (List.length (l_subs P root t)) q < N -> q_root q = root -> q_name q = t ->
     state_ok P (eq root) s -> place_ok P (eq root) q -> solo P s q ->
     exists n s', turns P (Many s (a ++ q :: b)) (repeat (List.length a) n) = Some (Many s' (a ++ Request root t (Over (local_modules P root t)) :: b)) /\ clean s').
  { induction N as [|N IH]; intros s0 q L Er En So Po Sq; [lia|]. destruct (act P s0 q) as [[s1 q1]|] eqn:A.
    - assert (Er' : eq root (q_root q)) by auto. destruct (act_ok P (eq root) s0 q s1 q1 Er' So Po A) as (So1 & Po1 & R1 & N1).
      assert (C : left_over (List.length (l_subs P root t)) q1 < left_over (List.length (l_subs P root t)) q).
      { apply (act_cost P _ (eq root) s0 q s1 q1); auto. rewrite En. intros r <-. apply Nat.le_refl. }
      assert (S1 : solo P s1 q1) by (apply (act_solo P s0 q s1 q1); auto; now rewrite Er).
      destruct (IH s1 q1) as (n & s' & T & Cs); auto; [lia|congruence|congruence|]. exists (S n), s'. split; auto. cbn [repeat turns].
      rewrite (turn_make P a q b s0 s1 q1 A). exact T.
    - destruct (act_stuck _ _ _ A) as (r & X). unfold result_of in X. destruct q as [root' t' pl]. cbn [q_root q_name q_place] in *. subst root' t'.
      destruct pl; try discriminate. injection X as ->. destruct Sq as [S1 S2]. destruct Po as [_ Po]. cbn [q_place q_name q_root] in *.
      exists 0, s0. split; auto. cbn [repeat turns]. destruct r as [ms|e]; [|now rewrite S1].
      destruct Po as [F C]. now rewrite (whole_ok P root t ms F C). }
  apply (Go (S (left_over (List.length (l_subs P root t)) (Request root t Entering)))); auto.
  - destruct Cl as [C1 C2]. split; [rewrite C2; intros x []|congruence].
  - split; [exact Nt|exact I].
Qed.

(** ** Examples *)

(** Two projects, "/a" and "/b", each with a package "rules" with a submodule: "one" and "two". *)
Definition P0 : projects := Projects
  (fun r n =>
     if path_eqb r [u "a"] && existsb (name_eqb n) [[u "rules"]; [u "rules"; u "one"]] then Ok tt
     else if path_eqb r [u "b"] && existsb (name_eqb n) [[u "rules"]; [u "rules"; u "two"]] then Ok tt
     else Err ImportError)
  (fun r n =>
     if negb (name_eqb n [u "rules"]) then [] else if path_eqb r [u "a"] then [u "one"] else if path_eqb r [u "b"] then [u "two"] else []).

Definition rules_of (r : string) : path * name := ([u r], [u "rules"]).
Definition outcome (l : list nat) (ts : list (path * name)) : option (shared * list (option (res (list (name * path))))) :=
  match turns P0 (start None ts) l with Some m => Some (m_shared m, map result_of (m_requests m)) | None => None end.

(** One after the other *)
Example C83_example :
  outcome (repeat 0 10 ++ repeat 1 10) [rules_of "a"; rules_of "b"] =
    Some (Shared false (Some [u "b"]) [],
          [Some (Ok [([u "rules"], [u "a"]); ([u "rules"; u "one"], [u "a"])]); Some (Ok [([u "rules"], [u "b"]); ([u "rules"; u "two"], [u "b"])])]) /\
  local_modules P0 [u "a"] [u "rules"] = Ok [([u "rules"], [u "a"]); ([u "rules"; u "one"], [u "a"])] /\
  local_modules P0 [u "a"] [u "other"] = Err ImportError /\
  (* the same project twice, interleaved, one request using what the other has imported *)
  outcome (repeat 0 5 ++ repeat 1 2 ++ [1] ++ repeat 0 3 ++ repeat 1 1 ++ repeat 0 2 ++ repeat 1 2) [rules_of "a"; rules_of "a"] =
    Some (Shared false (Some [u "a"]) [],
          [Some (Ok [([u "rules"], [u "a"]); ([u "rules"; u "one"], [u "a"])]); Some (Ok [([u "rules"], [u "a"]); ([u "rules"; u "one"], [u "a"])])]).
Proof. repeat split; vm_compute; reflexivity. Qed.

(** Requests for two projects can get each other's rules, without an exception. *)
Theorem C83_mixed_refuted : exists P ts l m q ms, turns P (start None ts) l = Some m /\ (forall t, In t ts -> snd t <> []) /\
  nth_error ts 0 = Some (rules_of "a") /\ nth_error (m_requests m) 0 = Some q /\ result_of q = Some (Ok ms) /\
  (forall n r, In (n, r) ms -> r = [u "b"]) /\ ms <> [] /\ exists ms', local_modules P [u "a"] [u "rules"] = Ok ms' /\ forall n r, In (n, r) ms' -> r = [u "a"].
Proof.
  exists P0, [rules_of "a"; rules_of "b"], ([0; 0; 1; 1] ++ repeat 0 8). do 3 eexists. split; [vm_compute; reflexivity|].
  split; [intros t [<-|[<-|[]]]; discriminate|]. split; [reflexivity|]. split; [reflexivity|]. split; [vm_compute; reflexivity|].
  split; [intros n r [X|[X|[]]]; injection X as _ <-; reflexivity|]. split; [discriminate|]. eexists. split; [vm_compute; reflexivity|].
  intros n r [X|[X|[]]]; injection X as _ <-; reflexivity.
Qed.

(** Even requests for the same project and module can fail although the module is there: with ImportError, or with KeyError, which
    find_rules does not turn into a CollectionError. *)
Theorem C83_lost_refuted : forall e, e = ImportError \/ e = KeyError -> exists P ts l m q ms,
  turns P (start None ts) l = Some m /\ ts = [rules_of "a"; rules_of "a"] /\
  nth_error (m_requests m) 1 = Some q /\ result_of q = Some (Err e) /\ local_modules P [u "a"] [u "rules"] = Ok ms.
Proof.
  intros e [-> | ->]; exists P0, [rules_of "a"; rules_of "a"].
  - exists ([0; 0; 1; 1] ++ repeat 0 8 ++ repeat 1 4). do 3 eexists. split; [vm_compute; reflexivity|]. split; [reflexivity|]. split; [reflexivity|].
    split; vm_compute; reflexivity.
  - exists ([0; 0; 1; 1; 1] ++ repeat 0 8 ++ repeat 1 3). do 3 eexists. split; [vm_compute; reflexivity|]. split; [reflexivity|]. split; [reflexivity|].
    split; vm_compute; reflexivity.
Qed.
