(** * Regex: Python's backtracking [re] engine for the constructs fixit uses

    [m r st] is the list of all ways to match [r] at state [st], in the order in which
    CPython's matcher tries them; a successful [re.match] is the first element. *)
From Coq Require Import List NArith Bool Arith Lia.
From Verif Require Import Base.
Import ListNotations.
Set Implicit Arguments.

Inductive re :=
| Eps
| Chr (p : N -> bool)          (* one character of a class *)
| Cat (r1 r2 : re)
| Alt (r1 r2 : re)             (* r1|r2, r1 first *)
| Star (r : re)                (* greedy *)
| Grp (n : nat) (r : re)       (* capturing group *)
| Bos                          (* ^ *)
| Eos.                         (* $ without MULTILINE *)

Definition Opt (r : re) : re := Alt r Eps.
Definition Plus (r : re) : re := Cat r (Star r).
Definition Lit (s : str) : re := fold_right (fun c r => Cat (Chr (N.eqb c)) r) Eps s.

(** Matcher state: are we at position 0, the rest of the subject, the captures (latest first). *)
Record st := St { st_bos : bool; st_rest : str; st_caps : list (nat * str) }.

Definition consumed (a b : st) : str :=
  firstn (length (st_rest a) - length (st_rest b)) (st_rest a).

(** The iterations of a greedy star; an iteration that consumes nothing is not repeated. *)
Fixpoint star (body : st -> list st) (fuel : nat) (s : st) : list st :=
  match fuel with
  | 0 => [s]
  | S n =>
      flat_map (fun s' => if length (st_rest s') <? length (st_rest s) then star body n s' else [])
               (body s) ++ [s]
  end.

Fixpoint m (r : re) (s : st) : list st :=
  match r with
  | Eps => [s]
  | Chr p =>
      match st_rest s with
      | c :: t => if p c then [St false t (st_caps s)] else []
      | [] => []
      end
  | Cat r1 r2 => flat_map (m r2) (m r1 s)
  | Alt r1 r2 => m r1 s ++ m r2 s
  | Star r1 => star (m r1) (length (st_rest s)) s
  | Grp n r1 =>
      map (fun s' => St (st_bos s') (st_rest s') ((n, consumed s s') :: st_caps s')) (m r1 s)
  | Bos => if st_bos s then [s] else []
  | Eos => match st_rest s with
           | [] => [s]
           | [c] => if N.eqb c 10 then [s] else []
           | _ => []
           end
  end.

(** The latest value of a group, [None] if it did not take part. *)
Fixpoint group (n : nat) (caps : list (nat * str)) : option str :=
  match caps with
  | [] => None
  | (k, v) :: caps' => if Nat.eqb n k then Some v else group n caps'
  end.

(** [re.match] *)
Definition re_match (r : re) (s : str) : option st := hd_error (m r (St true s [])).

Fixpoint search_from (r : re) (bos : bool) (s : str) : option st :=
  match hd_error (m r (St bos s [])) with
  | Some x => Some x
  | None => match s with
            | [] => None
            | _ :: t => search_from r false t
            end
  end.
(** [re.search] *)
Definition re_search (r : re) (s : str) : option st := search_from r true s.

(** ** Facts *)

Lemma m_cat_first : forall r1 r2 s s1 s2,
  hd_error (m r1 s) = Some s1 -> hd_error (m r2 s1) = Some s2 ->
  hd_error (m (Cat r1 r2) s) = Some s2.
Proof.
  intros r1 r2 s s1 s2 H1 H2. simpl. destruct (m r1 s) as [|x l]; [discriminate|].
  injection H1 as ->. simpl. destruct (m r2 s1); [discriminate|]. exact H2.
Qed.

Lemma m_cat_single : forall r1 r2 s s1, m r1 s = [s1] -> m (Cat r1 r2) s = m r2 s1.
Proof. intros. simpl. rewrite H. simpl. apply app_nil_r. Qed.

Lemma m_cat_nil : forall r1 r2 s, m r1 s = [] -> m (Cat r1 r2) s = [].
Proof. intros. simpl. now rewrite H. Qed.

Lemma m_chr_yes : forall p b c t k, p c = true -> m (Chr p) (St b (c :: t) k) = [St false t k].
Proof. intros. simpl. now rewrite H. Qed.

Lemma m_chr_no : forall p b c t k, p c = false -> m (Chr p) (St b (c :: t) k) = [].
Proof. intros. simpl. now rewrite H. Qed.

(** Longest prefix satisfying [p], and the remainder. *)
Fixpoint take_while (p : N -> bool) (s : str) : str :=
  match s with
  | c :: t => if p c then c :: take_while p t else []
  | [] => []
  end.
Fixpoint drop_while (p : N -> bool) (s : str) : str :=
  match s with
  | c :: t => if p c then drop_while p t else s
  | [] => []
  end.

Lemma take_drop : forall p s, take_while p s ++ drop_while p s = s.
Proof.
  induction s as [|c s IH]; simpl; auto. destruct (p c); simpl; congruence.
Qed.

Lemma take_while_all : forall p s, forallb p (take_while p s) = true.
Proof.
  induction s as [|c s IH]; simpl; auto. destruct (p c) eqn:E; simpl; auto. now rewrite E.
Qed.

Lemma drop_while_head : forall p s c t, drop_while p s = c :: t -> p c = false.
Proof.
  induction s as [|x s IH]; simpl; intros c t H; [discriminate|].
  destruct (p x) eqn:E; eauto. injection H as -> ->. exact E.
Qed.

Lemma take_drop_app : forall p a b,
  forallb p a = true -> (forall c t, b = c :: t -> p c = false) ->
  take_while p (a ++ b) = a /\ drop_while p (a ++ b) = b.
Proof.
  induction a as [|c a IH]; simpl; intros b Ha Hb.
  - destruct b as [|c t]; simpl; auto. rewrite (Hb c t eq_refl). auto.
  - apply andb_true_iff in Ha. destruct Ha as [-> Ha]. destruct (IH b Ha Hb) as [-> ->]. auto.
Qed.

(** All states reachable by a star over one character, longest first. *)
Fixpoint star_chr (p : N -> bool) (b : bool) (s : str) (k : list (nat * str)) : list st :=
  match s with
  | c :: t => if p c then star_chr p false t k ++ [St b s k] else [St b s k]
  | [] => [St b s k]
  end.

Lemma m_star_chr : forall p s b k, m (Star (Chr p)) (St b s k) = star_chr p b s k.
Proof.
  intros p s. cbn [m st_rest]. induction s as [|c t IH]; intros b k; auto.
  cbn [length star st_rest star_chr m st_caps]. destruct (p c); auto.
  cbn [flat_map st_rest].
  assert (E : (length t <? S (length t)) = true) by (apply Nat.ltb_lt; lia).
  rewrite E. rewrite IH. now rewrite app_nil_r.
Qed.

Lemma star_chr_first : forall p s b k,
  hd_error (star_chr p b s k) =
  Some (St (match take_while p s with [] => b | _ => false end) (drop_while p s) k).
Proof.
  induction s as [|c t IH]; intros b k; simpl; auto.
  destruct (p c); simpl; auto.
  specialize (IH false k). destruct (star_chr p false t k) as [|x l]; [discriminate|].
  simpl in *. rewrite IH. destruct (take_while p t); reflexivity.
Qed.

(** When what follows a star cannot start with one of its characters, only the longest
    match of the star matters. *)
Lemma star_chr_det : forall p (f : st -> list st) s b k,
  (forall b' c t k', p c = true -> f (St b' (c :: t) k') = []) ->
  flat_map f (star_chr p b s k) =
  f (St (match take_while p s with [] => b | _ => false end) (drop_while p s) k).
Proof.
  intros p f s b k H. revert b. induction s as [|c t IH]; intros b; simpl.
  - apply app_nil_r.
  - destruct (p c) eqn:E; simpl.
    + rewrite flat_map_app, IH. simpl. rewrite H by auto. rewrite app_nil_r.
      destruct (take_while p t); reflexivity.
    + apply app_nil_r.
Qed.

(** A greedy star always succeeds. *)
Lemma star_nonempty : forall f n s, star f n s <> [].
Proof.
  intros f [|n] s; simpl; [discriminate | intro H; apply app_eq_nil in H; destruct H; discriminate].
Qed.

(** One unrolling of the first success of a star. *)
Lemma star_first_step : forall f n s s1,
  hd_error (f s) = Some s1 -> length (st_rest s1) < length (st_rest s) ->
  hd_error (star f (S n) s) = hd_error (star f n s1).
Proof.
  intros f n s s1 H Hl. cbn [star]. destruct (f s) as [|x l]; [discriminate|]. injection H as ->.
  cbn [flat_map]. apply Nat.ltb_lt in Hl. rewrite Hl.
  destruct (star f n s1) eqn:E; [exfalso; eapply star_nonempty; eauto|]. reflexivity.
Qed.

Lemma star_first_stop : forall f n s, f s = [] -> hd_error (star f n s) = Some s.
Proof. intros f [|n] s H; simpl; auto. now rewrite H. Qed.

(** With more fuel than characters the fuel does not matter. *)
Lemma star_fuel : forall f n n' s,
  length (st_rest s) <= n -> length (st_rest s) <= n' -> star f n s = star f n' s.
Proof.
  intros f. induction n as [|n IH]; intros [|n'] s H H'; simpl; auto.
  - assert (E : length (st_rest s) = 0) by lia. rewrite E.
    replace (flat_map _ (f s)) with (@nil st); auto.
    induction (f s); simpl; auto.
  - assert (E : length (st_rest s) = 0) by lia. rewrite E.
    replace (flat_map _ (f s)) with (@nil st); auto.
    induction (f s); simpl; auto.
  - f_equal. apply flat_map_ext. intro a.
    destruct (Nat.ltb_spec (length (st_rest a)) (length (st_rest s))); auto.
    apply IH; lia.
Qed.

Lemma m_lit : forall l b t k,
  m (Lit l) (St b (l ++ t) k) = [St (match l with [] => b | _ => false end) t k].
Proof.
  induction l as [|c l IH]; intros b t k; auto.
  cbn [Lit fold_right m st_rest app st_caps]. rewrite N.eqb_refl. cbn [flat_map].
  rewrite app_nil_r. change (fold_right _ Eps l) with (Lit l). rewrite IH.
  destruct l; reflexivity.
Qed.

Lemma m_lit_inv : forall l b s k x,
  In x (m (Lit l) (St b s k)) -> exists t, s = l ++ t.
Proof.
  induction l as [|c l IH]; intros b s k x H; [exists s; reflexivity|].
  cbn [Lit fold_right m st_rest st_caps] in H. destruct s as [|c' s]; [contradiction|].
  destruct (N.eqb_spec c c').
  - subst. cbn [flat_map] in H. rewrite app_nil_r in H.
    change (fold_right _ Eps l) with (Lit l) in H. apply IH in H. destruct H as (t & ->).
    exists t. reflexivity.
  - contradiction.
Qed.

Lemma m_lit_no : forall l b s k, (forall t, s <> l ++ t) -> m (Lit l) (St b s k) = [].
Proof.
  intros l b s k H. destruct (m (Lit l) (St b s k)) as [|x q] eqn:E; auto. exfalso.
  destruct (@m_lit_inv l b s k x) as (t & Ht); [rewrite E; simpl; auto|]. eapply H; eauto.
Qed.

(** ** Successes as a relation *)

Lemma in_plus_chr : forall p b s k x,
  In x (m (Plus (Chr p)) (St b s k)) <->
  exists w t, s = w ++ t /\ w <> [] /\ forallb p w = true /\ x = St false t k.
Proof.
  intros p b s k x. unfold Plus. change (m (Cat (Chr p) (Star (Chr p))) (St b s k))
    with (flat_map (m (Star (Chr p))) (m (Chr p) (St b s k))).
  assert (Hs : forall s b x, In x (star_chr p b s k) <->
     exists w t, s = w ++ t /\ forallb p w = true /\
                 x = St (match w with [] => b | _ => false end) t k).
  { clear. induction s as [|c s IH]; intros b x; cbn [star_chr].
    - simpl. split.
      + intros [<-|[]]. exists [], []. auto.
      + intros (w & t & E & _ & ->). destruct w; [|discriminate]. simpl in E. subst. auto.
    - destruct (p c) eqn:E.
      + rewrite in_app_iff, IH. simpl. split.
        * intros [(w & t & -> & Hw & ->)|[<-|[]]].
          -- exists (c :: w), t. simpl. rewrite E. simpl. destruct w; auto.
          -- exists [], (c :: s). auto.
        * intros (w & t & Es & Hw & ->). destruct w as [|c' w].
          -- simpl in Es. subst t. auto.
          -- injection Es as <- ->. left. exists w, t. simpl in Hw. rewrite E in Hw.
             destruct w; auto.
      + simpl. split.
        * intros [<-|[]]. exists [], (c :: s). auto.
        * intros (w & t & Es & Hw & ->). destruct w as [|c' w].
          -- simpl in Es. subst t. auto.
          -- injection Es as <- ->. simpl in Hw. rewrite E in Hw. discriminate. }
  rewrite in_flat_map. split.
  - intros (y & Hy & Hx). destruct s as [|c s]; [contradiction|].
    simpl in Hy. destruct (p c) eqn:E; [|contradiction]. destruct Hy as [<-|[]].
    rewrite m_star_chr, Hs in Hx. destruct Hx as (w & t & -> & Hw & ->).
    exists (c :: w), t. simpl. rewrite E, Hw. repeat split; auto; try discriminate.
    destruct w; auto.
  - intros (w & t & -> & Hne & Hw & ->). destruct w as [|c w]; [congruence|].
    simpl in Hw. apply andb_true_iff in Hw. destruct Hw as [E Hw].
    exists (St false (w ++ t) k). split.
    + simpl. rewrite E. simpl. auto.
    + rewrite m_star_chr, Hs. exists w, t. destruct w; auto.
Qed.

(** Iterations of a star: every success is a chain of successes of the body that consume. *)
Inductive star_chain (f : st -> list st) : st -> st -> Prop :=
| sc_done : forall s, star_chain f s s
| sc_step : forall s s1 s2, In s1 (f s) -> length (st_rest s1) < length (st_rest s) ->
    star_chain f s1 s2 -> star_chain f s s2.

Lemma in_star : forall f n s x, length (st_rest s) <= n ->
  (In x (star f n s) <-> star_chain f s x).
Proof.
  intros f. induction n as [|n IH]; intros s x Hn; simpl.
  - split.
    + intros [<-|[]]. constructor.
    + intro H. inversion H; subst; auto. lia.
  - rewrite in_app_iff, in_flat_map. simpl. split.
    + intros [(y & Hy & Hx)|[<-|[]]]; [|constructor].
      destruct (Nat.ltb_spec (length (st_rest y)) (length (st_rest s))); [|contradiction].
      apply IH in Hx; [|lia]. econstructor; eauto.
    + intro H. inversion H; subst; auto. left. exists s1. split; auto.
      apply Nat.ltb_lt in H1. rewrite H1. apply Nat.ltb_lt in H1. apply IH; auto. lia.
Qed.
