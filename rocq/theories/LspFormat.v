(** * The language server: formatting (C43), and examples for C39-C44 *)
From Coq Require Import String List NArith ZArith Bool Arith Lia.
From Verif Require Import Base PyStr Ftypes Paths Config Suppress Cst Engine EngineProps Api ApiSpec ApiFacts ApiProps Lsp LspSpec LspFacts LspProps LspPublish.
Import ListNotations.

Opaque fixit_bytes.

(** ** What a formatting request does *)
Lemma silent_reply : forall es e, silent es -> ~ In (VReplied e) es.
Proof. intros es e H I. exact (H _ I). Qed.

Lemma reply_did : forall e es j, did (JReply e (JEnd (Ok tt))) es j -> forall e', In (VReplied e') es -> e' = e.
Proof. intros e es j D e' I. inversion D as [ | | | | | | |? ? es3 ? D']; subst; [contradiction|]. inversion D'; subst. destruct I as [I|[]]. congruence. Qed.

Lemma validate_no_reply : forall S u v es j e, did (validate_job S u v) es j -> ~ In (VReplied e) es.
Proof.
  intros S u v es j e D I. destruct (z_path S u) as [p|] eqn:P.
  - unfold validate_job in D. apply results_did with (p := p) in D; auto.
    destruct D as [[-> E]|(t & es' & -> & [[Si _]|(text & content & cfg & evs & r & es1 & es2 & -> & Si & _ & _ & _ & _ & _ & _ & D)])]; auto.
    + destruct I as [I|I]; [discriminate|]. eapply silent_reply; eauto.
    + destruct I as [I|I]; [discriminate|]. apply in_app_iff in I. destruct I as [I|I]; [eapply silent_reply; eauto|].
      inversion D as [ | | | | | |? ? ? es3 ? D'|]; subst; [contradiction|]. inversion D'; subst. destruct I as [I|[]]. discriminate.
  - apply no_path_validate in D; auto. destruct D as [-> _]. contradiction.
Qed.

Lemma format_did : forall S u p es j e, z_path S u = Some p -> did (format_job S u) es j -> In (VReplied e) es ->
  exists text content cfg evs r es', es = VDoc (Ok text) :: es' /\ z_encode S text = Ok content /\
    In (VFetched p (Some cfg)) es /\ run (fixit_bytes (z_tool S) p content cfg true false) evs (Returned r) /\
    (forall F, In (ELook F) evs -> In (VLooked F) es) /\
    match e with
    | None => r = None \/ r = Some []
    | Some ed => exists c text2, r = Some c /\ c <> [] /\ In (VDoc (Ok text2)) es /\
                   entire_range (splitlines text2) = Ok (e_range ed) /\ z_decode S c = Ok (e_text ed)
    end.
Proof.
  intros S u p es j e P D I. unfold format_job in D. apply results_did with (p := p) in D; auto.
  destruct D as [[-> E]|(t & es' & -> & [[Si _]|(text & content & cfg & evs & r & es1 & es2 & -> & Si & -> & Ec & Fe & Ru & _ & Lo & D)])]; [contradiction|..].
  - destruct I as [I|I]; [discriminate|]. exfalso. eapply silent_reply; eauto.
  - destruct I as [I|I]; [discriminate|]. apply in_app_iff in I. destruct I as [I|I]; [exfalso; eapply silent_reply; eauto|].
    exists text, content, cfg, evs, r, (es1 ++ es2). split; auto. split; auto. split; [right; apply in_app_iff; auto|]. split; auto.
    split; [intros F J; right; apply in_app_iff; auto|].
    destruct r as [[|c l]|].
    + pose proof (reply_did _ _ _ D _ I) as ->. auto.
    + inversion D as [ |t2 ? es3 ? D'| | | | | | ]; subst; [contradiction|]. destruct I as [I|I]; [discriminate|].
      apply lift_did in D'. destruct D' as [(text2 & -> & D')|(x & _ & -> & _)]; [|contradiction].
      apply lift_did in D'. destruct D' as [(rg & Er & D')|(x & _ & -> & _)]; [|contradiction].
      apply lift_did in D'. destruct D' as [(new & En & D')|(x & _ & -> & _)]; [|contradiction].
      pose proof (reply_did _ _ _ D' _ I) as ->. exists (c :: l), text2. split; auto. split; [discriminate|].
      split; [right; apply in_app_iff; right; simpl; auto|]. auto.
    + pose proof (reply_did _ _ _ D _ I) as ->. auto.
Qed.

(** ** The document is not changed while it is formatted *)
Lemma text_step : forall S q l q' u, step S q l = Some q' -> (forall t, l <> SetText u t) -> d_text (q_docs q' u) = d_text (q_docs q u).
Proof.
  intros S q l q' u E N. destruct (about u l) eqn:A; [|now rewrite (doc_other _ _ _ _ _ E A)].
  rewrite (doc_self _ _ _ _ _ E A). cbv zeta. destruct l as [n|F|u' x|u' v|u'|u' i|u' i]; auto.
  - cbn in A. apply str_eqb_eq in A. subst u'. exfalso. eapply N; eauto.
  - destruct (_ =? _)%N; auto.
  - destruct (nth_error _ _); auto.
  - destruct (nth_error _ _) as [[j es now]|]; auto. destruct (act _ _ _ _) as [[[[] j'] q1]|]; auto.
Qed.

Definition formats (S : server) (F : fs) (h : list label) (q : state) (u : uri) (k : nat) (t : thread) : Prop :=
  (exists v, h_job t = validate_job S u v) \/
  h_job t = format_job S u /\ (ended (h_now t) = false -> q_main q = Some (u, k)) /\
  forall r rest, h_done t = VDoc r :: rest ->
    exists h1 h2 q1, h = h1 ++ h2 /\ reaches S F h1 q1 /\ source S q1 u = r /\
      forall x, d_text (q_docs q1 u) = Some x ->
        (ended (h_now t) = false -> d_text (q_docs q u) = Some x) /\ forall r', In (VDoc r') (h_done t) -> r' = Ok x.

Lemma formats_reached : forall S F h q, reaches S F h q -> forall u k t, nth_error (d_threads (q_docs q u)) k = Some t -> formats S F h q u k t.
Proof.
  intros S F. apply (reaches_ind S F (fun h q => forall u k t, nth_error (d_threads (q_docs q u)) k = Some t -> formats S F h q u k t)).
  { intros u [|k] t; discriminate. }
  intros h l q q' R IH E u k t N. destruct (thread_after _ _ _ _ _ _ _ E N) as [[N0 Na]|[(-> & [(v & -> & _)|[-> ->]])|(j & es & now & e & j' & q1 & -> & N0 & X & ->)]].
  - destruct (IH _ _ _ N0) as [V|(V1 & V2 & V3)]; [left; auto|]. right. split; auto.
    assert (M : ended (h_now t) = false -> q_main q' = Some (u, k) /\ forall x, l <> SetText u x).
    { intro En. specialize (V2 En). pose proof (main_step _ _ _ _ E) as Ms.
      destruct l as [n|F1|u' x|u' v|u'|u' i|u' i]; try (destruct Ms; congruence); try (split; [congruence|discriminate]).
      - cbn [step] in E. rewrite V2 in E. discriminate.
      - split; [|discriminate]. destruct Ms as [Ms|[Ms _]]; [congruence|]. rewrite Ms in V2. injection V2 as -> ->. contradiction. }
    split; [intro En; now apply M|]. intros r rest Hd. destruct (V3 r rest Hd) as (h1 & h2 & q1 & -> & A & B & C).
    exists h1, (h2 ++ [l]), q1. split; [now rewrite app_assoc|]. split; auto. split; auto. intros x Hx. destruct (C x Hx) as [C1 C2]. split; auto.
    intro En. rewrite (text_step _ _ _ _ _ E); [auto|now apply M].
  - left. exists v. reflexivity.
  - right. split; auto. split; [|intros r rest; discriminate]. cbn. intro En. cbn [step] in E. destruct (q_main q); [discriminate|]. injection E as <-.
    unfold on_main. rewrite En. reflexivity.
  - destruct (IH _ _ _ N0) as [V|(V1 & V2 & V3)]; [left; auto|]. right. cbn [h_job h_done h_now] in *. split; auto.
    assert (Ac : ended now = false) by (destruct now; auto; discriminate). specialize (V2 Ac).
    split.
    { intro En. cbn [step] in E. rewrite N0, X in E. injection E as <-. unfold release. cbn [set_doc q_main]. apply main_act in X. rewrite X, V2.
      rewrite En, andb_false_r. cbn. congruence. }
    assert (Tx : d_text (q_docs q' u) = d_text (q_docs q u)) by (apply (text_step _ _ _ _ _ E); discriminate).
    assert (Ed : forall r, e = VDoc r -> source S q u = r) by (intros r ->; destruct now; cbn in X; try discriminate; injection X as <- _ _; reflexivity).
    intros r rest Hd. destruct es as [|e0 es].
    + cbn in Hd. injection Hd as -> <-. exists h, [Act u k], q. split; auto. split; auto. split; [now apply Ed|]. intros x Hx. split; [congruence|].
      intros r' [I|[]]. injection I as <-. rewrite <- (Ed r eq_refl). unfold source. now rewrite Hx.
    + cbn in Hd. injection Hd as -> <-. destruct (V3 r es eq_refl) as (h1 & h2 & q2 & -> & A & B & C).
      exists h1, (h2 ++ [Act u k]), q2. split; [now rewrite app_assoc|]. split; auto. split; auto. intros x Hx. destruct (C x Hx) as [C1 C2]. specialize (C1 Ac).
      split; [congruence|]. intros r' I. change (In (VDoc r') ((VDoc r :: es) ++ [e])) in I. apply in_app_iff in I. destruct I as [I|[I|[]]]; auto.
      rewrite <- (Ed r' I). unfold source. now rewrite C1.
Qed.

(** ** C43: the answer to a formatting request *)

(** The new text is that of the fixed and formatted content of a text that the document had; the
    range is that of the same text if the document is open. *)
Theorem C43_reply : forall S F h q u t ed, reaches S F h q -> In t (d_threads (q_docs q u)) -> In (VReplied (Some ed)) (h_done t) ->
  exists p text content cfg F1 F2 c text2 h1 h2 q1,
    z_path S u = Some p /\
    h = h1 ++ h2 /\ reaches S F h1 q1 /\ source S q1 u = Ok text /\ z_encode S text = Ok content /\
    was_cached S F h p cfg /\ was_fs S F h F1 /\ was_fs S F h F2 /\
    fst (lint_of (z_tool S) F1 p content cfg) <> [] /\ snd (lint_of (z_tool S) F1 p content cfg) = None /\
    fixed_content (z_tool S) F2 p content cfg (fst (lint_of (z_tool S) F1 p content cfg)) = Ok c /\
    z_decode S c = Ok (e_text ed) /\
    entire_range (splitlines text2) = Ok (e_range ed) /\ (d_text (q_docs q1 u) <> None -> text2 = text).
Proof.
  intros S F h q u t ed R I J. destruct (thread_ok_reached _ _ _ _ R) as [_ T]. specialize (T _ _ I).
  destruct (In_nth_error _ _ I) as (k & N). pose proof (to_did _ _ _ _ _ _ T) as D.
  destruct (formats_reached _ _ _ _ R _ _ _ N) as [(v & V)|(V1 & _ & V3)].
  { exfalso. rewrite V in D. eapply validate_no_reply; eauto. }
  rewrite V1 in D. destruct (z_path S u) as [p|] eqn:P.
  2: { unfold format_job, with_results in D. rewrite P in D. pose proof (reply_did _ _ _ D _ J). discriminate. }
  destruct (format_did _ _ _ _ _ _ P D J) as (text & content & cfg & evs & r & es' & Es & Ec & Fe & Ru & Lo & c & text2 & -> & Nc & D2 & Er & De).
  destruct (V3 _ _ Es) as (h1 & h2 & q1 & H1 & H2 & H3 & H4).
  destruct (to_fetched _ _ _ _ _ _ T _ _ Fe) as (c' & X & Wc). injection X as <-.
  destruct (C29_complete _ _ _ _ _ _ _ _ Ru) as (F1 & ev' & vs & err & err' & Ev & Li & Re & Er').
  pose proof (C30_content _ _ _ _ _ _ _ _ Ru) as (A1 & A2 & F2 & A3 & A4).
  rewrite (C30_autofix_all _ _ _ _ _ _ _ Ru) in A1, A4. fold (violations (results evs)) in A1, A4. rewrite Re, violations_report in A1, A4.
  assert (Ne : err = None).
  { destruct err' as [e|]; auto. exfalso. rewrite Re in A2. specialize (A2 (Result p None (Some e))). discriminate A2. unfold report_of. apply in_app_iff. simpl. auto. }
  exists p, text, content, cfg, F1, F2, c, text2, h1, h2, q1. repeat (split; [solve [auto]|]).
  split; [apply (to_looked _ _ _ _ _ _ T), Lo; rewrite Ev; simpl; auto|]. split; [apply (to_looked _ _ _ _ _ _ T), Lo; auto|].
  rewrite Li. cbn [fst snd]. repeat (split; [solve [auto]|]). intro Op. destruct (d_text (q_docs q1 u)) as [x|] eqn:Dx; [|congruence].
  destruct (H4 x eq_refl) as [_ H5]. pose proof (H5 _ D2) as Q. injection Q as ->. unfold source in H3. rewrite Dx in H3. injection H3 as ->. reflexivity.
Qed.

(** No edit is answered only if there is nothing to fix, an error, or nothing is left. *)
Theorem C43_nothing : forall S F h q u t p, reaches S F h q -> In t (d_threads (q_docs q u)) -> In (VReplied None) (h_done t) ->
  z_path S u = Some p ->
  exists text content cfg F1 h1 h2 q1,
    h = h1 ++ h2 /\ reaches S F h1 q1 /\ source S q1 u = Ok text /\ z_encode S text = Ok content /\
    was_cached S F h p cfg /\ was_fs S F h F1 /\
    (fst (lint_of (z_tool S) F1 p content cfg) = [] \/ (exists e, snd (lint_of (z_tool S) F1 p content cfg) = Some e) \/
     (exists F2, was_fs S F h F2 /\ fixed_content (z_tool S) F2 p content cfg (fst (lint_of (z_tool S) F1 p content cfg)) = Ok []) \/
     exists F2 e, fixed_content (z_tool S) F2 p content cfg (fst (lint_of (z_tool S) F1 p content cfg)) = Err e).
Proof.
  intros S F h q u t p R I J P. destruct (thread_ok_reached _ _ _ _ R) as [_ T]. specialize (T _ _ I).
  destruct (In_nth_error _ _ I) as (k & N). pose proof (to_did _ _ _ _ _ _ T) as D.
  destruct (formats_reached _ _ _ _ R _ _ _ N) as [(v & V)|(V1 & _ & V3)].
  { exfalso. rewrite V in D. eapply validate_no_reply; eauto. }
  rewrite V1 in D. destruct (format_did _ _ _ _ _ _ P D J) as (text & content & cfg & evs & r & es' & Es & Ec & Fe & Ru & Lo & Rr).
  destruct (V3 _ _ Es) as (h1 & h2 & q1 & H1 & H2 & H3 & H4).
  destruct (to_fetched _ _ _ _ _ _ T _ _ Fe) as (c' & X & Wc). injection X as <-.
  pose proof (bytes_run _ _ _ _ _ _ _ _ Ru) as [_ [[_ X]|(F1 & ev' & Ev & K)]]; [discriminate|].
  destruct (lint_of (z_tool S) F1 p content cfg) as [vs err] eqn:Li. destruct K as (err' & Re & K).
  exists text, content, cfg, F1, h1, h2, q1. repeat (split; [solve [auto]|]).
  split; [apply (to_looked _ _ _ _ _ _ T), Lo; rewrite Ev; simpl; auto|]. rewrite Li. cbn [fst snd].
  assert (Ac : accepted true (given evs) = vs).
  { rewrite (C30_autofix_all _ _ _ _ _ _ _ Ru). fold (violations (results evs)). now rewrite Re, violations_report. }
  rewrite Ac in K. destruct err' as [e|].
  - destruct K as [_ [K|[(_ & X & _)|(_ & _ & F2 & K)]]]; [right; left; eauto|discriminate|]. right. right. right. eauto.
  - destruct K as [_ K]. destruct vs as [|v vs]; auto. destruct K as (F2 & c & K1 & K2 & ->). right. right. left. exists F2.
    split; [apply (to_looked _ _ _ _ _ _ T), Lo; rewrite Ev; simpl; auto|]. destruct Rr as [Rr|Rr]; [discriminate|]. injection Rr as ->. exact K2.
Qed.

(** ** Applying the edit *)
Lemma split_ind : forall P : str -> Prop,
  P [] -> (forall c, P [c]) ->
  (forall s, P s -> P (13%N :: 10%N :: s)) ->
  (forall c d s, ((c =? 13) && (d =? 10))%N = false -> P (d :: s) -> P (c :: d :: s)) ->
  forall s, P s.
Proof.
  intros P H0 H1 H2 H3 s. assert (K : P s /\ forall c, P (c :: s)); [|apply K].
  induction s as [|d s [IH1 IH2]]; [auto|]. split; auto. intro c. destruct ((c =? 13) && (d =? 10))%N eqn:E.
  - apply andb_true_iff in E. destruct E as [E1 E2]. apply N.eqb_eq in E1, E2. subst. auto.
  - apply H3; auto.
Qed.

Lemma splitlines_pair : forall s, splitlines (13%N :: 10%N :: s) = [13; 10]%N :: splitlines s.
Proof. reflexivity. Qed.
Lemma splitlines_cons : forall c d s, ((c =? 13) && (d =? 10))%N = false ->
  splitlines (c :: d :: s) = if is_linebreak c then [c] :: splitlines (d :: s)
    else match splitlines (d :: s) with h :: t => (c :: h) :: t | [] => [[c]] end.
Proof. intros c d s E. cbn [splitlines]. rewrite E. reflexivity. Qed.

Lemma splitlines_some : forall c s, splitlines (c :: s) <> [].
Proof.
  intros c s. destruct s as [|d s]; [discriminate|]. destruct ((c =? 13) && (d =? 10))%N eqn:E.
  - cbn [splitlines]. rewrite E. discriminate.
  - rewrite splitlines_cons by auto. destruct (is_linebreak c); [discriminate|]. destruct (splitlines (d :: s)); discriminate.
Qed.

Lemma splitlines_concat : forall s, concat (splitlines s) = s.
Proof.
  apply split_ind; auto.
  - intros s IH. rewrite splitlines_pair. cbn. now rewrite IH.
  - intros c d s E IH. rewrite splitlines_cons by auto. destruct (is_linebreak c); [cbn [concat app]; now rewrite IH|].
    destruct (splitlines (d :: s)) as [|h t] eqn:Q; [destruct (splitlines_some d s Q)|]. cbn [concat app] in *. now rewrite IH.
Qed.

Definition plain (s : str) : Prop := forall c, In c s -> is_linebreak c = true -> c = 10%N \/ c = 13%N.
Definition bmp (s : str) : Prop := forall c, In c s -> (c < 65536)%N.

Lemma break10 : is_linebreak 10 = true. Proof. reflexivity. Qed.
Lemma break13 : is_linebreak 13 = true. Proof. reflexivity. Qed.
Lemma nobreak : forall c, is_linebreak c = false -> ((c =? 10)%N || (c =? 13)%N)%bool = false.
Proof. intros c H. destruct (N.eqb_spec c 10) as [->|]; [discriminate|]. destruct (N.eqb_spec c 13) as [->|]; [discriminate|]. reflexivity. Qed.

Lemma ending_cons : forall c d s, ((c =? 13) && (d =? 10))%N = false -> ending (c :: d :: s) = ending (d :: s).
Proof. intros c d s E. cbn [ending]. destruct s; auto. now rewrite E. Qed.
Lemma ending_pair : forall x s, ending (13%N :: 10%N :: x :: s) = ending (x :: s).
Proof. intros x s. cbn [ending]. destruct s; reflexivity. Qed.

(** One line: everything but its end. *)
Lemma upto_line : forall s n, plain s -> bmp s -> List.length (splitlines s) = 1 -> (Z.of_nat (List.length s) <= n)%Z ->
  skipn (upto n s) s = ending s.
Proof.
  intro s. pattern s. revert s. apply split_ind.
  - intros n _ _ L. discriminate.
  - intros c n Pl Bm _ Ln. cbn [upto ending]. cbn in Ln. destruct ((c =? 10)%N || (c =? 13)%N) eqn:B; [reflexivity|].
    assert (U : units c = 1%Z). { unfold units. specialize (Bm c (or_introl eq_refl)). apply N.ltb_lt in Bm. now rewrite Bm. }
    rewrite U. destruct (Z.leb_spec 1 n); [reflexivity|lia].
  - intros s IH n Pl Bm L Ln. rewrite splitlines_pair in L. cbn [List.length] in L. destruct s as [|x s]; [reflexivity|].
    destruct (splitlines (x :: s)) eqn:Q; [destruct (splitlines_some x s Q)|discriminate].
  - intros c d s E IH n Pl Bm L Ln. rewrite splitlines_cons in L by auto. destruct (is_linebreak c) eqn:B.
    + cbn [List.length] in L. destruct (splitlines (d :: s)) eqn:Q; [destruct (splitlines_some d s Q)|discriminate].
    + rewrite ending_cons by auto. cbn [upto]. rewrite (nobreak _ B).
      assert (U : units c = 1%Z). { unfold units. pose proof (Bm c (or_introl eq_refl)) as X. apply N.ltb_lt in X. now rewrite X. }
      rewrite U. cbn [List.length] in Ln. destruct (Z.leb_spec 1 n); [|lia]. cbn [skipn]. apply IH.
      * intros x X. apply Pl. simpl. auto.
      * intros x X. apply Bm. simpl. auto.
      * destruct (splitlines (d :: s)) eqn:Q; [destruct (splitlines_some d s Q)|exact L].
      * cbn [List.length]. lia.
Qed.

Lemma upto_cons : forall n c s, is_linebreak c = false -> (c < 65536)%N -> (1 <= n)%Z -> upto n (c :: s) = Datatypes.S (upto (n - 1) s).
Proof.
  intros n c s B L Ln. change (upto n (c :: s)) with (if (c =? 10)%N || (c =? 13)%N then 0 else if (units c <=? n)%Z then Datatypes.S (upto (n - units c) s) else 0).
  rewrite (nobreak _ B). unfold units. apply N.ltb_lt in L. rewrite L. destruct (Z.leb_spec 1 n); [reflexivity|lia].
Qed.

Lemma offset_cr : forall l n d s, (d =? 10)%N = false -> offset (Datatypes.S l) n (13%N :: d :: s) = Datatypes.S (offset l n (d :: s)).
Proof. intros l n d s E. change (offset (Datatypes.S l) n (13%N :: d :: s)) with (if (d =? 10)%N then 2 + offset l n s else 1 + offset l n (d :: s)). now rewrite E. Qed.

Lemma offset_end : forall s, s <> [] -> plain s -> bmp (last (splitlines s) []) ->
  skipn (offset (List.length (splitlines s) - 1) (Z.of_nat (List.length (last (splitlines s) []))) s) s = ending s.
Proof.
  intro s. pattern s. revert s. apply split_ind.
  - congruence.
  - intros c _ Pl Bm. change (skipn (upto 1 [c]) [c] = ending [c]). apply upto_line; auto. cbn. lia.
  - intros s IH _ Pl Bm. rewrite splitlines_pair in *. destruct s as [|x s]; [reflexivity|].
    destruct (splitlines (x :: s)) as [|h t] eqn:Q; [destruct (splitlines_some x s Q)|]. cbn [List.length].
    change (last ([13; 10]%N :: h :: t) []) with (last (h :: t) []) in *.
    replace (Datatypes.S (Datatypes.S (List.length t)) - 1) with (Datatypes.S (List.length t)) by lia.
    cbn [offset]. change (13 =? 13)%N with true. change (10 =? 10)%N with true. cbn iota. rewrite ending_pair. cbn [skipn Nat.add].
    cbn [List.length] in IH. replace (Datatypes.S (List.length t) - 1) with (List.length t) in IH by lia. apply IH; auto; [discriminate|].
    intros y Y. apply Pl. simpl in *. auto.
  - intros c d s E IH _ Pl Bm. assert (Pl' : plain (d :: s)) by (intros y Y; apply Pl; simpl in *; auto).
    pose proof (splitlines_concat (d :: s)) as Cc.
    rewrite ending_cons by auto. rewrite splitlines_cons in * by auto. destruct (splitlines (d :: s)) as [|h t] eqn:Q; [destruct (splitlines_some d s Q)|].
    destruct (is_linebreak c) eqn:B.
    + change (last ([c] :: h :: t) []) with (last (h :: t) []) in *. cbn [List.length] in *.
      replace (Datatypes.S (Datatypes.S (List.length t)) - 1) with (Datatypes.S (List.length t)) by lia.
      replace (Datatypes.S (List.length t) - 1) with (List.length t) in IH by lia.
      destruct (Pl c (or_introl eq_refl) B) as [->| ->].
      * cbn [offset]. change (10 =? 13)%N with false. change (10 =? 10)%N with true. cbn iota. cbn [Nat.add skipn]. apply IH; auto. discriminate.
      * change (13 =? 13)%N with true in *. cbn in E. rewrite offset_cr by auto. cbn [skipn]. apply IH; auto. discriminate.
    + destruct t as [|h2 t].
      * cbn [List.length last] in *. change (1 - 1) with 0. cbn [offset]. cbn [concat] in Cc. rewrite app_nil_r in Cc. subst h.
        cbn [List.length] in *. rewrite upto_cons; auto; [|apply Bm; simpl; auto|lia]. cbn [skipn].
        apply upto_line; auto.
        -- intros y Y. apply Bm. simpl. auto.
        -- now rewrite Q.
        -- cbn [List.length]. lia.
      * change (last ((c :: h) :: h2 :: t) []) with (last (h :: h2 :: t) []) in *. cbn [List.length] in *.
        replace (Datatypes.S (Datatypes.S (List.length t)) - 1) with (Datatypes.S (List.length t)) in * by lia.
        apply nobreak in B. apply orb_false_iff in B. destruct B as [B1 B2].
        change (skipn (offset (Datatypes.S (List.length t)) (Z.of_nat (List.length (last (h :: h2 :: t) []))) (c :: d :: s)) (c :: d :: s) = ending (d :: s)).
        remember (Z.of_nat (List.length (last (h :: h2 :: t) []))) as n. cbn [offset]. rewrite B1, B2. cbn [Nat.add skipn]. apply IH; auto. discriminate.
Qed.

(** The edit replaces everything but the line end at the end of the document, if lines end with \n,
    \r or \r\n only and the last line has no characters beyond the basic plane. *)
Theorem C43_applied : forall text new rg, plain text -> bmp (last (splitlines text) []) -> entire_range (splitlines text) = Ok rg ->
  apply_edit (Edit rg new) text = new ++ ending text.
Proof.
  intros text new rg Pl Bm E. unfold entire_range in E. destruct (rev (splitlines text)) as [|l ls] eqn:Rv; [discriminate|]. injection E as <-.
  assert (Sp : splitlines text = rev ls ++ [l]) by (rewrite <- (rev_involutive (splitlines text)), Rv; reflexivity).
  assert (La : last (splitlines text) [] = l) by (rewrite Sp; apply last_last).
  assert (Ne : text <> []) by (intros ->; discriminate).
  pose proof (offset_end text Ne Pl Bm) as K. rewrite La in K. unfold apply_edit. cbn [e_range e_text rstart rend line column].
  assert (Z0 : offset 0 0 text = 0). { cbn [offset]. destruct text as [|c s]; [reflexivity|]. cbn. destruct (_ || _); auto. unfold units. destruct (c <? 65536)%N; reflexivity. }
  change (Z.to_nat 0) with 0. rewrite Z0. cbn [firstn app].
  replace (Z.to_nat (Z.of_nat (List.length (splitlines text)) - 1)) with (List.length (splitlines text) - 1) by lia. now rewrite K.
Qed.

(** How many UTF-16 code units a text has. *)
Fixpoint size (s : str) : Z := match s with [] => 0 | c :: s' => units c + size s' end.
Lemma units_pos : forall c, (1 <= units c)%Z.
Proof. intro c. unfold units. destruct (c <? 65536)%N; lia. Qed.
Lemma size_least : forall s, (Z.of_nat (List.length s) <= size s)%Z.
Proof. induction s as [|c s IH]; cbn [size List.length]; [lia|]. pose proof (units_pos c). lia. Qed.
Lemma size_bmp : forall s, (size s <= Z.of_nat (List.length s))%Z <-> bmp s.
Proof.
  induction s as [|c s IH]; [split; [intros _ c []|cbn; lia]|]. cbn [size List.length]. pose proof (size_least s). split.
  - intro H1. assert (U : units c = 1%Z) by (pose proof (units_pos c); lia). intros x [<-|X].
    + unfold units in U. destruct (N.ltb_spec c 65536); [assumption|discriminate].
    + apply IH in X; [exact X|lia].
  - intro B. assert (Bs : bmp s) by (intros x X; apply B; simpl; auto). apply IH in Bs. assert (U : units c = 1%Z). { unfold units. specialize (B c (or_introl eq_refl)). apply N.ltb_lt in B. now rewrite B. } lia.
Qed.

(** Python knows more line breaks than the protocol. A text that has one of these before its last character: *)
Definition python_breaks (s : str) : Prop := exists a c b, s = a ++ c :: b /\ b <> [] /\ is_linebreak c = true /\ c <> 10%N /\ c <> 13%N.

(** ... and one that has none *)
Definition settled (s : str) : Prop := forall a c b, s = a ++ c :: b -> is_linebreak c = true -> c = 10%N \/ c = 13%N \/ b = [].
Lemma settled_tail : forall c s, settled (c :: s) -> settled s.
Proof. intros c s H a x b E. exact (H (c :: a) x b (f_equal (cons c) E)). Qed.
Lemma settled_iff : forall s, settled s \/ python_breaks s.
Proof.
  induction s as [|c s IH].
  - left. intros [|y a] x b E; discriminate.
  - destruct IH as [IH|(a & x & b & -> & X)]; [|right; exists (c :: a), x, b; auto].
    assert (D : settled (c :: s) \/ (is_linebreak c = true /\ c <> 10%N /\ c <> 13%N /\ s <> [])).
    { destruct (is_linebreak c) eqn:B; [|left; intros [|y a] x b E Bx; injection E as <- E; [congruence|eapply IH; eauto]].
      destruct (N.eqb_spec c 10); [left; subst; intros [|y a] x b E Bx; injection E as <- E; [auto|eapply IH; eauto]|].
      destruct (N.eqb_spec c 13); [left; subst; intros [|y a] x b E Bx; injection E as <- E; [auto|eapply IH; eauto]|].
      destruct s as [|d s]; [left; intros [|y a] x b E Bx; injection E as <- E; [auto|destruct a; discriminate]|right; repeat split; auto; discriminate]. }
    destruct D as [D|(A & B & C & D)]; [left; exact D|right; exists [], c, s; auto].
Qed.
Lemma python_not_settled : forall s, python_breaks s -> ~ settled s.
Proof. intros s (a & c & b & -> & Nb & B & N1 & N2) H. destruct (H a c b eq_refl B) as [X|[X|X]]; contradiction. Qed.

(** How many lines the protocol sees before the last one *)
Fixpoint breaks (s : str) : nat :=
  match s with
  | [] => 0
  | c :: s' => (if (c =? 10)%N then 1 else if (c =? 13)%N then match s' with d :: _ => if (d =? 10)%N then 0 else 1 | [] => 1 end else 0) + breaks s'
  end.

Lemma offset_beyond : forall s l n, breaks s < l -> skipn (offset l n s) s = [].
Proof.
  intro s. pattern s. revert s. apply split_ind.
  - intros [|l] n H; reflexivity.
  - intros c [|l] n H; [lia|]. cbn [offset breaks] in *. destruct (N.eqb_spec c 13) as [->|N3].
    + reflexivity.
    + destruct (N.eqb_spec c 10); cbn in H |- *; [destruct l; [lia|reflexivity]|]. reflexivity.
  - intros s IH [|l] n H; [lia|]. cbn [offset breaks] in *. change (13 =? 10)%N with false in H. change (10 =? 10)%N with true in H. cbn iota in H.
    change (13 =? 13)%N with true in *. change (10 =? 10)%N with true. cbn iota in *. cbn [Nat.add skipn]. apply IH. lia.
  - intros c d s E IH [|l] n H; [lia|]. destruct (N.eqb_spec c 13) as [->|N3].
    + change (13 =? 13)%N with true in E. cbn in E. rewrite offset_cr by auto. cbn [skipn]. apply IH.
      change (breaks (13%N :: d :: s)) with ((if (d =? 10)%N then 0 else 1) + breaks (d :: s)) in H. rewrite E in H. lia.
    + assert (B : breaks (c :: d :: s) = (if (c =? 10)%N then 1 else 0) + breaks (d :: s)).
      { cbn [breaks]. destruct (N.eqb_spec c 10); auto. destruct (N.eqb_spec c 13); congruence. }
      rewrite B in H. change (offset (Datatypes.S l) n (c :: d :: s)) with
        (if (c =? 13)%N then (if (d =? 10)%N then 2 + offset l n s else 1 + offset l n (d :: s))
         else if (c =? 10)%N then 1 + offset l n (d :: s) else 1 + offset (Datatypes.S l) n (d :: s)).
      destruct (N.eqb_spec c 13); [contradiction|]. destruct (N.eqb_spec c 10); cbn [Nat.add skipn]; apply IH; lia.
Qed.

Lemma offset_last : forall s n, ending s <> [] -> skipn (offset (breaks s) n s) s = [].
Proof.
  intro s. pattern s. revert s. apply split_ind.
  - intros n H. exfalso. apply H. reflexivity.
  - intros c n H. cbn [ending breaks] in *. destruct (N.eqb_spec c 10) as [->|N1]; [reflexivity|]. destruct (N.eqb_spec c 13) as [->|N3]; [reflexivity|].
    exfalso. apply H. reflexivity.
  - intros s IH n H. destruct s as [|x s]; [reflexivity|]. rewrite ending_pair in H. specialize (IH n H).
    change (breaks (13%N :: 10%N :: x :: s)) with (Datatypes.S (breaks (x :: s))). remember (x :: s) as r. cbn [offset].
    change (13 =? 13)%N with true. change (10 =? 10)%N with true. cbn iota. cbn [Nat.add skipn]. exact IH.
  - intros c d s E IH n H. rewrite ending_cons in H by auto. specialize (IH n H).
    assert (P : 0 < breaks (d :: s)).
    { clear -H. revert H. generalize (d :: s). clear. intro s. pattern s. revert s. apply split_ind.
      - intro H. exfalso. apply H. reflexivity.
      - intros c H. cbn [ending breaks] in *. destruct (c =? 10)%N; [lia|]. destruct (c =? 13)%N; [lia|]. exfalso. apply H. reflexivity.
      - intros s _ _. cbn [breaks]. change (10 =? 10)%N with true. cbn iota. lia.
      - intros c d s E IH H. rewrite ending_cons in H by auto. specialize (IH H). change (breaks (c :: d :: s)) with
          ((if (c =? 10)%N then 1 else if (c =? 13)%N then (if (d =? 10)%N then 0 else 1) else 0) + breaks (d :: s)). lia. }
    change (breaks (c :: d :: s)) with ((if (c =? 10)%N then 1 else if (c =? 13)%N then (if (d =? 10)%N then 0 else 1) else 0) + breaks (d :: s)).
    destruct (N.eqb_spec c 10) as [->|N1].
    + cbn [Nat.add]. remember (d :: s) as r. cbn [offset]. change (10 =? 13)%N with false. change (10 =? 10)%N with true. cbn iota. cbn [Nat.add skipn]. exact IH.
    + destruct (N.eqb_spec c 13) as [->|N3].
      * change (13 =? 13)%N with true in E. cbn in E. rewrite E. cbn [Nat.add]. rewrite offset_cr by auto. cbn [skipn]. exact IH.
      * cbn [Nat.add]. destruct (breaks (d :: s)) as [|m] eqn:Bm; [lia|].
        change (offset (Datatypes.S m) n (c :: d :: s)) with
          (if (c =? 13)%N then (if (d =? 10)%N then 2 + offset m n s else 1 + offset m n (d :: s))
           else if (c =? 10)%N then 1 + offset m n (d :: s) else 1 + offset (Datatypes.S m) n (d :: s)).
        destruct (N.eqb_spec c 13); [contradiction|]. destruct (N.eqb_spec c 10); [contradiction|]. cbn [Nat.add skipn]. exact IH.
Qed.

Definition open_end (s : str) : nat := match ending s with [] => 1 | _ => 0 end.
Lemma lines_least : forall s, s <> [] -> breaks s + open_end s <= List.length (splitlines s).
Proof.
  intro s. pattern s. revert s. apply split_ind.
  - congruence.
  - intros c _. unfold open_end. cbn [ending breaks splitlines List.length]. destruct (c =? 10)%N; [cbn; lia|]. destruct (c =? 13)%N; cbn; lia.
  - intros s IH _. rewrite splitlines_pair. change (breaks (13%N :: 10%N :: s)) with (Datatypes.S (breaks s)). cbn [List.length].
    destruct s as [|x s]; [cbn; lia|]. unfold open_end. rewrite ending_pair. fold (open_end (x :: s)). specialize (IH ltac:(discriminate)). lia.
  - intros c d s E IH _. specialize (IH ltac:(discriminate)). unfold open_end. rewrite ending_cons by auto. fold (open_end (d :: s)). rewrite splitlines_cons by auto.
    change (breaks (c :: d :: s)) with ((if (c =? 10)%N then 1 else if (c =? 13)%N then (if (d =? 10)%N then 0 else 1) else 0) + breaks (d :: s)).
    destruct (splitlines (d :: s)) as [|h t] eqn:Q; [destruct (splitlines_some d s Q)|].
    destruct (is_linebreak c) eqn:B.
    + cbn [List.length] in *. destruct (c =? 10)%N; [lia|]. destruct (c =? 13)%N; [destruct (d =? 10)%N; lia|lia].
    + apply nobreak in B. apply orb_false_iff in B. destruct B as [-> ->]. cbn [List.length] in *. lia.
Qed.
Lemma lines_more : forall s, python_breaks s -> breaks s + open_end s < List.length (splitlines s).
Proof.
  intro s. pattern s. revert s. apply split_ind.
  - intros ([|y a] & c & b & X & _); discriminate.
  - intros c ([|y a] & x & b & X & Nb & _); injection X as <- X; [congruence|destruct a; discriminate].
  - intros s IH (a & x & b & X & Nb & Bx & N1 & N3).
    assert (Ps : python_breaks s).
    { destruct a as [|a0 a]; [injection X as <- _; congruence|]. injection X as <- X. destruct a as [|a1 a]; [injection X as <- _; congruence|]. injection X as <- X.
      exists a, x, b. auto. }
    specialize (IH Ps). rewrite splitlines_pair. change (breaks (13%N :: 10%N :: s)) with (Datatypes.S (breaks s)). cbn [List.length].
    destruct s as [|y s]; [cbn in IH; lia|]. unfold open_end. rewrite ending_pair. fold (open_end (y :: s)). lia.
  - intros c d s E IH (a & x & b & X & Nb & Bx & N1 & N3). unfold open_end. rewrite ending_cons by auto. fold (open_end (d :: s)). rewrite splitlines_cons by auto.
    change (breaks (c :: d :: s)) with ((if (c =? 10)%N then 1 else if (c =? 13)%N then (if (d =? 10)%N then 0 else 1) else 0) + breaks (d :: s)).
    pose proof (lines_least (d :: s) ltac:(discriminate)) as Le.
    destruct (splitlines (d :: s)) as [|h t] eqn:Q; [destruct (splitlines_some d s Q)|]. destruct a as [|a0 a].
    + injection X as <- X. rewrite Bx. cbn [List.length] in *. destruct (N.eqb_spec c 10); [contradiction|]. destruct (N.eqb_spec c 13); [contradiction|]. lia.
    + injection X as <- X. assert (Ps : python_breaks (d :: s)) by (exists a, x, b; auto). specialize (IH Ps).
      destruct (is_linebreak c) eqn:B.
      * cbn [List.length] in *. destruct (c =? 10)%N; [lia|]. destruct (c =? 13)%N; [destruct (d =? 10)%N; lia|lia].
      * apply nobreak in B. apply orb_false_iff in B. destruct B as [-> ->]. cbn [List.length] in *. lia.
Qed.

Lemma upto_all : forall s n, settled s -> List.length (splitlines s) = 1 -> (skipn (upto n s) s = [] <-> ending s = [] /\ (size s <= n)%Z).
Proof.
  intro s. pattern s. revert s. apply split_ind.
  - intros n _ L. discriminate.
  - intros c n Pl _. cbn [upto ending size]. destruct ((c =? 10)%N || (c =? 13)%N); [split; [discriminate|intros [H _]; discriminate]|].
    destruct (Z.leb_spec (units c) n); cbn [skipn]; split; try discriminate; try (intros _; split; [reflexivity|lia]); try reflexivity. intros [_ H1]. lia.
  - intros s IH n Pl L. rewrite splitlines_pair in L. cbn [List.length] in L. destruct s as [|x s]; [split; [discriminate|intros [H _]; discriminate]|].
    destruct (splitlines (x :: s)) eqn:Q; [destruct (splitlines_some x s Q)|discriminate].
  - intros c d s E IH n Pl L. rewrite splitlines_cons in L by auto. destruct (is_linebreak c) eqn:B.
    + cbn [List.length] in L. destruct (splitlines (d :: s)) eqn:Q; [destruct (splitlines_some d s Q)|discriminate].
    + rewrite ending_cons by auto. cbn [upto]. rewrite (nobreak _ B).
      assert (Pl' : settled (d :: s)) by (exact (settled_tail _ _ Pl)).
      assert (L' : List.length (splitlines (d :: s)) = 1) by (destruct (splitlines (d :: s)) eqn:Q; [destruct (splitlines_some d s Q)|exact L]).
      change (size (c :: d :: s)) with (units c + size (d :: s))%Z. specialize (IH (n - units c)%Z Pl' L').
      destruct (Z.leb_spec (units c) n).
      * cbn [skipn]. rewrite IH. split; intros [H1 H2]; split; auto; lia.
      * split; [discriminate|]. intros [_ H2]. pose proof (size_least (d :: s)). lia.
Qed.

Lemma offset_all : forall s, s <> [] -> settled s ->
  (skipn (offset (List.length (splitlines s) - 1) (Z.of_nat (List.length (last (splitlines s) []))) s) s = [] <-> ending s = [] /\ bmp (last (splitlines s) [])).
Proof.
  intro s. pattern s. revert s. apply split_ind.
  - congruence.
  - intros c _ Pl. change (skipn (upto (Z.of_nat (List.length [c])) [c]) [c] = [] <-> ending [c] = [] /\ bmp [c]). rewrite upto_all, size_bmp; auto; reflexivity.
  - intros s IH _ Pl. rewrite splitlines_pair in *. destruct s as [|x s]; [split; [discriminate|intros [H _]; discriminate]|].
    destruct (splitlines (x :: s)) as [|h t] eqn:Q; [destruct (splitlines_some x s Q)|]. cbn [List.length].
    change (last ([13; 10]%N :: h :: t) []) with (last (h :: t) []) in *.
    replace (Datatypes.S (Datatypes.S (List.length t)) - 1) with (Datatypes.S (List.length t)) by lia.
    cbn [offset]. change (13 =? 13)%N with true. change (10 =? 10)%N with true. cbn iota. rewrite ending_pair. cbn [skipn Nat.add].
    cbn [List.length] in IH. replace (Datatypes.S (List.length t) - 1) with (List.length t) in IH by lia. apply IH; auto; [discriminate|].
    exact (settled_tail _ _ (settled_tail _ _ Pl)).
  - intros c d s E IH _ Pl. assert (Pl' : settled (d :: s)) by (exact (settled_tail _ _ Pl)).
    pose proof (splitlines_concat (d :: s)) as Cc.
    pose proof (upto_all (c :: d :: s)) as UA.
    rewrite ending_cons in * by auto. rewrite splitlines_cons in * by auto. destruct (splitlines (d :: s)) as [|h t] eqn:Q; [destruct (splitlines_some d s Q)|].
    destruct (is_linebreak c) eqn:B.
    + change (last ([c] :: h :: t) []) with (last (h :: t) []) in *. cbn [List.length] in *.
      replace (Datatypes.S (Datatypes.S (List.length t)) - 1) with (Datatypes.S (List.length t)) by lia.
      replace (Datatypes.S (List.length t) - 1) with (List.length t) in IH by lia.
      destruct (Pl [] c (d :: s) eq_refl B) as [->|[->|X]]; [| |discriminate].
      * cbn [offset]. change (10 =? 13)%N with false. change (10 =? 10)%N with true. cbn iota. cbn [Nat.add skipn]. apply IH; auto. discriminate.
      * change (13 =? 13)%N with true in *. cbn in E. rewrite offset_cr by auto. cbn [skipn]. apply IH; auto. discriminate.
    + destruct t as [|h2 t].
      * cbn [concat] in Cc. rewrite app_nil_r in Cc. subst h. change (last [c :: d :: s] []) with (c :: d :: s).
        change (skipn (upto (Z.of_nat (List.length (c :: d :: s))) (c :: d :: s)) (c :: d :: s) = [] <-> ending (d :: s) = [] /\ bmp (c :: d :: s)).
        rewrite UA, size_bmp; auto. reflexivity.
      * change (last ((c :: h) :: h2 :: t) []) with (last (h :: h2 :: t) []) in *. cbn [List.length] in *.
        replace (Datatypes.S (Datatypes.S (List.length t)) - 1) with (Datatypes.S (List.length t)) in * by lia.
        apply nobreak in B. apply orb_false_iff in B. destruct B as [B1 B2].
        remember (Z.of_nat (List.length (last (h :: h2 :: t) []))) as n.
        assert (Of : offset (Datatypes.S (List.length t)) n (c :: d :: s) = Datatypes.S (offset (Datatypes.S (List.length t)) n (d :: s))) by (cbn [offset]; rewrite B1, B2; reflexivity).
        rewrite Of. cbn [skipn]. apply IH; auto. discriminate.
Qed.

(** So the result is the formatted content exactly if the document has a line break that only Python knows before its last character, or it does not end with a
    line end and its last line has no characters beyond the basic plane. *)
Theorem C43_exact_partial : forall text new rg, entire_range (splitlines text) = Ok rg ->
  (apply_edit (Edit rg new) text = new <-> python_breaks text \/ (ending text = [] /\ bmp (last (splitlines text) []))).
Proof.
  intros text new rg E. unfold entire_range in E. destruct (rev (splitlines text)) as [|l ls] eqn:Rv; [discriminate|]. injection E as <-.
  assert (Sp : splitlines text = rev ls ++ [l]) by (rewrite <- (rev_involutive (splitlines text)), Rv; reflexivity).
  assert (La : last (splitlines text) [] = l) by (rewrite Sp; apply last_last).
  assert (Ne : text <> []) by (intros ->; discriminate).
  assert (K : skipn (offset (List.length (splitlines text) - 1) (Z.of_nat (List.length l)) text) text = [] <-> python_breaks text \/ (ending text = [] /\ bmp l)).
  { destruct (settled_iff text) as [St|Pb].
    - pose proof (offset_all text Ne St) as K. rewrite La in K. rewrite K. split; [auto|]. intros [Pb|X]; [destruct (python_not_settled text Pb St)|exact X].
    - split; [auto|]. intros _. pose proof (lines_more text Pb) as Lm. unfold open_end in Lm. destruct (ending text) as [|x e] eqn:En.
      + apply offset_beyond. lia.
      + destruct (Nat.eq_dec (List.length (splitlines text) - 1) (breaks text)) as [->|Nq]; [apply offset_last; congruence|apply offset_beyond; lia]. }
  rewrite La. unfold apply_edit. cbn [e_range e_text rstart rend line column].
  assert (Z0 : offset 0 0 text = 0). { cbn [offset]. destruct text as [|c s]; [reflexivity|]. cbn. destruct (_ || _); auto. unfold units. destruct (c <? 65536)%N; reflexivity. }
  change (Z.to_nat 0) with 0. rewrite Z0. cbn [firstn app].
  replace (Z.to_nat (Z.of_nat (List.length (splitlines text)) - 1)) with (List.length (splitlines text) - 1) by lia. rewrite <- K. split.
  - intro H. rewrite <- (app_nil_r new) in H at 2. now apply app_inv_head in H.
  - intros ->. apply app_nil_r.
Qed.
