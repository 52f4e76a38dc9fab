(** * C69: the rules of [fixit upgrade] *)
From Coq Require Import String List NArith Bool Arith Lia.
From Verif Require Import Base PyStr Py Classes ClassesSpec ClassesProps SortedProps Imports ImportsProps Upgrade.
Import ListNotations.
Set Implicit Arguments.

(** ** Renamed classes *)
Inductive renamed : str -> str -> Prop :=
| r_cst : renamed (u "CstLintRule") (u "LintRule")
| r_CST : renamed (u "CSTLintRule") (u "LintRule")
| r_invalid : renamed (u "InvalidTestCase") (u "Invalid")
| r_valid : renamed (u "ValidTestCase") (u "Valid").

Lemma deprecations_iff : forall q old new, dget q deprecations = Some (old, new) <-> q = u "fixit." ++ old /\ renamed old new.
Proof.
  intros q old new. split.
  - unfold deprecations. cbn [dget].
    repeat match goal with |- context [str_eqb ?a ?b] => let Q := fresh in destruct (str_eqb a b) eqn:Q;
      [apply str_eqb_eq in Q; subst; intro H'; injection H' as <- <-; split; [reflexivity|constructor]|] end.
    discriminate.
  - intros (-> & R). destruct R; reflexivity.
Qed.

Lemma cut_dot : forall (a b c d : str), ~ In 46%N a -> ~ In 46%N c -> a ++ 46%N :: b = c ++ 46%N :: d -> a = c /\ b = d.
Proof.
  induction a as [|x a IH]; intros b [|y c] d Na Nc E.
  - injection E as ->. auto.
  - cbn in E. injection E as <- _. exfalso. apply Nc. simpl. auto.
  - cbn in E. injection E as -> _. exfalso. apply Na. simpl. auto.
  - cbn in E. injection E as -> E. destruct (IH b c d) as [-> ->]; auto; intro I; [apply Na|apply Nc]; simpl; auto.
Qed.

(** Exactly the old names imported from fixit are reported; the alias stays unless it is the new name. *)
Theorem C69_alias : forall m a, ~ In 46%N m ->
  match deprecated_alias m a with
  | Some a' => m = u "fixit" /\ renamed (al_name a) (al_name a') /\
      ((al_as a = Some (al_name a') /\ al_as a' = None) \/ (al_as a <> Some (al_name a') /\ al_as a' = al_as a))
  | None => m = u "fixit" -> forall new, ~ renamed (al_name a) new
  end.
Proof.
  intros m a Nm. unfold deprecated_alias. destruct (dget _ deprecations) as [[old new]|] eqn:D.
  - apply deprecations_iff in D. destruct D as [E R]. change (m ++ 46%N :: al_name a = u "fixit" ++ 46%N :: old) in E.
    apply cut_dot in E; auto; [|vm_compute; intuition discriminate]. destruct E as [-> <-]. cbn [al_name al_as]. split; auto. split; auto.
    destruct (al_as a) as [y|]; [|right; split; [discriminate|reflexivity]]. destruct (str_eqb y new) eqn:Q.
    + apply str_eqb_eq in Q. subst. auto.
    + right. split; auto. intro K. injection K as ->. rewrite str_eqb_refl in Q. discriminate.
  - intros -> new R. assert (X : dget (u "fixit" ++ u "." ++ al_name a) deprecations = Some (al_name a, new)) by (apply deprecations_iff; auto). congruence.
Qed.

Theorem C69_imports : forall i m l, f_module i = Some [m] -> f_names i = Some l -> ~ In 46%N m ->
  exists sel, keeps (fun a => m = u "fixit" /\ exists new, renamed (al_name a) new) l sel /\
    Forall2 (fun a r => fst r = a /\ deprecated_alias m a = Some (snd r)) sel (deprecated_imports i).
Proof.
  intros i m l Em El Nm. unfold deprecated_imports. rewrite Em, El. clear Em El. induction l as [|a l (sel & K & F)]; [exists []; split; constructor|].
  cbn [flat_map]. pose proof (C69_alias m a Nm) as A. destruct (deprecated_alias m a) as [a'|] eqn:D.
  - exists (a :: sel). split; [apply keeps_one; auto; destruct A as (A1 & A2 & _); eauto|]. constructor; auto.
  - exists sel. split; [|exact F]. apply keeps_not; auto. intros (E & new & R). exact (A E new R).
Qed.

(** A name is replaced exactly when the qualified name that is looked at is that of an old class and the name is the
    class' own. *)
Theorem C69_name : forall q qs x y, deprecated_name (q :: qs) x = Some y <-> q = u "fixit." ++ x /\ renamed x y.
Proof.
  intros q qs x y. unfold deprecated_name. destruct (dget q deprecations) as [[old new]|] eqn:D.
  - apply deprecations_iff in D. destruct D as [-> R]. destruct (str_eqb x old) eqn:Q.
    + apply str_eqb_eq in Q. subst. split; [intro H; injection H as <-; auto|]. intros (_ & R'). f_equal. destruct R; inversion R'; reflexivity.
    + split; [discriminate|]. intros (E & _). apply app_inv_head in E. subst. rewrite str_eqb_refl in Q. discriminate.
  - split; [discriminate|]. intros (-> & R). assert (X : dget (u "fixit." ++ x) deprecations = Some (x, y)) by (apply deprecations_iff; auto). congruence.
Qed.

(** Every use of an imported class still has the name it is imported as. *)
Definition new_name (q x : str) : str := match deprecated_name [q] x with Some y => y | None => x end.
Theorem C69_resolves : forall a a', deprecated_alias (u "fixit") a = Some a' -> al_as a <> Some (al_name a) ->
  new_name (u "fixit." ++ al_name a) (bound a) = bound a'.
Proof.
  intros a a' H N. pose proof (C69_alias (u "fixit") a) as A. rewrite H in A. destruct A as (_ & R & S); [vm_compute; intuition discriminate|].
  unfold new_name. pose proof (C69_name (u "fixit." ++ al_name a) [] (bound a)) as Hn. destruct (deprecated_name _ _) as [y|].
  - destruct (proj1 (Hn y) eq_refl) as [E R']. apply app_inv_head in E. unfold bound in *. destruct (al_as a) as [z|].
    + exfalso. apply N. now rewrite E.
    + destruct S as [[S _]|[_ S]]; [discriminate|]. rewrite S. destruct R; inversion R'; congruence.
  - unfold bound in *. destruct (al_as a) as [z|].
    + destruct S as [[S1 S2]|[_ S2]]; rewrite S2; congruence.
    + assert (X : None = Some (al_name a')) by (apply Hn; auto). discriminate.
Qed.

(** Except with [import CSTLintRule as CSTLintRule]. *)
Theorem C69_resolves_refuted : ~ (forall a a', deprecated_alias (u "fixit") a = Some a' -> new_name (u "fixit." ++ al_name a) (bound a) = bound a').
Proof.
  intro H. specialize (H (Alias (u "CSTLintRule") (Some (u "CSTLintRule"))) (Alias (u "LintRule") (Some (u "CSTLintRule"))) eq_refl). vm_compute in H. discriminate.
Qed.

(** [from .fixit import CSTLintRule] is reported too: the dots are not looked at. *)
Theorem C69_relative_refuted : ~ (forall i, deprecated_imports i <> [] -> f_dots i = 0).
Proof. intro H. specialize (H (From 1 (Some [u "fixit"]) (Some [al "CSTLintRule"]))). assert (E : 1 = 0) by (apply H; vm_compute; discriminate). discriminate. Qed.

(** ** Rule suffixes *)

(** The bases whose first qualified name is fixit.LintRule *)
Definition lint_base (b : option (list str)) : Prop := exists qs, b = Some (u "fixit.LintRule" :: qs).

Theorem C69_suffix : forall name bases,
  match remove_suffix name bases with
  | Ok (reports, _) =>
      (forall b, In b bases -> b <> Some []) /\
      exists sel, keeps lint_base bases sel /\
        ((exists stem, name = stem ++ u "Rule" /\ reports = repeat stem (List.length sel)) \/
         ((forall stem, name <> stem ++ u "Rule") /\ reports = []))
  | Err e => e = KeyError /\ In (Some []) bases
  end.
Proof.
  intros name bases.
  assert (D : (exists stem, name = stem ++ u "Rule" /\ endswith (u "Rule") name = true /\ firstn (List.length name - 4) name = stem) \/
              ((forall stem, name <> stem ++ u "Rule") /\ endswith (u "Rule") name = false)).
  { destruct (endswith (u "Rule") name) eqn:E.
    - left. apply endswith_spec in E. destruct E as (t & ->). exists t. repeat split. rewrite app_length. change (List.length (u "Rule")) with 4.
      replace (List.length t + 4 - 4) with (List.length t) by lia. rewrite firstn_app, firstn_all, Nat.sub_diag. cbn [firstn]. now rewrite app_nil_r.
    - right. split; auto. intros stem ->. assert (X : endswith (u "Rule") (stem ++ u "Rule") = true) by (apply endswith_spec; eauto). congruence. }
  induction bases as [|b bases IH]; cbn [remove_suffix].
  - split; [intros ? []|]. exists []. split; [constructor|]. destruct D as [(stem & -> & _)|(N & _)]; [left; exists stem; auto|right; auto].
  - destruct b as [[|q qs]|].
    + split; [reflexivity|simpl; auto].
    + destruct (remove_suffix name bases) as [[r rest]|e]; cbn [bind fst snd]; [|destruct IH; split; auto; simpl; auto].
      destruct IH as (H1 & sel & K & R). split; [intros b [<-|I]; [discriminate|auto]|].
      destruct (str_eqb q (u "fixit.LintRule")) eqn:Q.
      * apply str_eqb_eq in Q. subst q. exists (Some (u "fixit.LintRule" :: qs) :: sel). split; [apply keeps_one; auto; exists qs; reflexivity|].
        destruct D as [(stem & En & Ee & Ef)|(N & Ee)]; rewrite Ee; cbn [andb].
        -- left. exists stem. split; auto. rewrite Ef. cbn [List.length repeat app]. f_equal. destruct R as [(s' & E' & ->)|(N & _)]; [|exfalso; exact (N _ En)].
           rewrite En in E'. apply app_inv_tail in E'. now subst.
        -- right. split; auto. destruct R as [(s' & E' & _)|(_ & ->)]; [exfalso; exact (N _ E')|reflexivity].
      * exists sel. split; [apply keeps_not; auto; intros (qs' & E); assert (q = u "fixit.LintRule") by congruence; subst q; rewrite str_eqb_refl in Q; discriminate|].
        exact R.
    + destruct (remove_suffix name bases) as [[r rest]|e]; cbn [bind fst snd]; [|destruct IH; split; auto; simpl; auto].
      destruct IH as (H1 & sel & K & R). split; [intros b [<-|I]; [discriminate|auto]|]. exists sel. split; [apply keeps_not; auto; intros (qs & E); discriminate|exact R].
Qed.

(** A base without a known name makes the rule fail. *)
Theorem C69_suffix_crash_refuted : ~ (forall name bases, exists r, remove_suffix name bases = Ok r).
Proof. intro H. destruct (H (u "A") [Some []]) as (r & E). discriminate. Qed.
(** The new name may be empty, and the suffix may be left. *)
Theorem C69_suffix_name_refuted : ~ (forall name bases new rs rest, remove_suffix name bases = Ok (new :: rs, rest) -> new <> [] /\ forall stem, new <> stem ++ u "Rule").
Proof. intro H. destruct (H (u "Rule") [Some [u "fixit.LintRule"]] [] [] [Some []] eq_refl) as [N _]. now apply N. Qed.

(** ** Both at once: the base of an old class is not renamed, because the first rule has taken the name out of the set. *)
Theorem C69_together_refuted : ~ (forall name x q reports bases', upgrade_class name [(x, [q])] = Ok (reports, bases') ->
  bases' = [deprecated_name [q] x]).
Proof.
  intro H. specialize (H (u "FooRule") (u "CSTLintRule") (u "fixit.CSTLintRule") [] [None] eq_refl). vm_compute in H. discriminate.
Qed.
(** With one name per base, no base is ever renamed. *)
Theorem C69_together : forall name bases reports bases', (forall b, In b bases -> List.length (snd b) = 1) ->
  upgrade_class name bases = Ok (reports, bases') -> forall r, In r bases' -> r = None.
Proof.
  intros name bases reports bases' H E. unfold upgrade_class in E.
  destruct (remove_suffix name (map (fun b : str * list str => Some (snd b)) bases)) as [[rs rest]|] eqn:R; [|discriminate]. cbn [bind fst snd] in E. injection E as _ <-.
  assert (G : forall bs rs rest, (forall b, In b bs -> List.length (snd b) = 1) -> remove_suffix name (map (fun b : str * list str => Some (snd b)) bs) = Ok (rs, rest) -> forall x, In x rest -> x = Some []).
  { clear. induction bs as [|[x qs] bs IH]; intros rs rest H R; cbn in R; [injection R as _ <-; intros ? []|].
    pose proof (H (x, qs) (or_introl eq_refl)) as L. cbn in L. destruct qs as [|q [|]]; try discriminate.
    destruct (remove_suffix name (map _ bs)) as [[rs' rest']|] eqn:R'; [|discriminate]. cbn [bind fst snd] in R. injection R as _ <-.
    intros y [<-|I]; auto. eapply IH; eauto. intros b Ib. apply H. simpl. auto. }
  specialize (G bases rs rest H R). intros r I. apply in_map_iff in I. destruct I as ([b qs] & <- & I). apply in_combine_r in I. cbn [snd]. now rewrite (G qs I).
Qed.

(** In general each base is treated as if it had no first name, and is renamed by its own remaining names. *)
Theorem C69_bases : forall name bases reports bases', upgrade_class name bases = Ok (reports, bases') ->
  (forall b, In b bases -> snd b <> []) /\ bases' = map (fun b => deprecated_name (tl (snd b)) (fst b)) bases.
Proof.
  intros name bases. unfold upgrade_class. induction bases as [|[x qs] bases IH]; intros reports bases' E.
  - cbn in E. injection E as _ <-. split; [intros b []|reflexivity].
  - cbn [map snd] in E. destruct qs as [|q qs]; [discriminate|]. cbn [remove_suffix] in E.
    destruct (remove_suffix name (map (fun b : str * list str => Some (snd b)) bases)) as [[rs rest]|e]; [|discriminate]. cbn [bind fst snd combine map] in *.
    injection E as _ <-. destruct (IH _ _ eq_refl) as (N & B). split.
    + intros b [<-|I]; [discriminate|auto].
    + cbn [tl]. f_equal. exact B.
Qed.
Example C69_bases_example :
  upgrade_class (u "FooRule") [(u "Mixin", [u "m.Mixin"]); (u "CSTLintRule", [u "fixit.LintRule"; u "fixit.CSTLintRule"])] = Ok ([u "Foo"], [None; Some (u "LintRule")]).
Proof. reflexivity. Qed.

(** ** Keywords of test cases *)
Definition has_keyword (k : str) (a : arg) : Prop := snd (fst a) = Some k.
Definition old_keyword (a : arg) : Prop :=
  has_keyword (u "line") a \/ has_keyword (u "column") a \/ has_keyword (u "config") a \/ has_keyword (u "filename") a \/ has_keyword (u "kind") a.

Lemma keyword_is_iff : forall ks a, keyword_is ks a = true <-> exists k, In k ks /\ has_keyword k a.
Proof.
  intros ks a. unfold keyword_is, has_keyword. destruct (snd (fst a)) as [k|].
  - rewrite existsb_exists. split.
    + intros (x & I & E). apply str_eqb_eq in E. subst. eauto.
    + intros (x & I & E). injection E as <-. exists k. split; [exact I|]. apply str_eqb_refl.
  - split; [discriminate|]. intros (k & _ & E). discriminate.
Qed.
Lemma old_keyword_iff : forall a, keyword_is deprecated_keywords a = true <-> old_keyword a.
Proof.
  intro a. rewrite keyword_is_iff. unfold old_keyword, deprecated_keywords. split.
  - intros (k & I & E). cbn in I. intuition (subst; auto).
  - intro H. repeat (destruct H as [H|H]; [eexists; split; [|exact H]; simpl; auto 6|]). eexists; split; [|exact H]; simpl; auto 6.
Qed.

(** The value of a keyword that is given at most once. *)
Inductive keyword_value (k : str) (args : list arg) : option expr -> Prop :=
| kv_none : (forall a, In a args -> ~ has_keyword k a) -> keyword_value k args None
| kv_some : forall l1 a l2, args = l1 ++ a :: l2 -> has_keyword k a -> (forall b, In b l2 -> ~ has_keyword k b) -> keyword_value k args (Some (a_value a)).

Lemma last_value_spec : forall k args, keyword_value k args (last_value k args).
Proof.
  intros k args. unfold last_value. induction args as [|a args IH] using rev_ind; [constructor; intros ? []|].
  rewrite fold_left_app. cbn [fold_left]. destruct (keyword_is [k] a) eqn:Q.
  - apply keyword_is_iff in Q. destruct Q as (k' & [<-|[]] & H). apply kv_some with (l1 := args) (l2 := []); auto.
  - assert (N : ~ has_keyword k a) by (intro H; assert (X : keyword_is [k] a = true) by (apply keyword_is_iff; exists k; simpl; auto); congruence).
    destruct IH as [H|l1 b l2 -> Hb H].
    + apply kv_none. intros b I. apply in_app_or in I. destruct I as [I|[<-|[]]]; auto.
    + apply kv_some with (l1 := l1) (l2 := l2 ++ [a]); auto; [now rewrite <- app_assoc|]. intros c I. apply in_app_or in I. destruct I as [I|[<-|[]]]; auto.
Qed.

(** Reported exactly when an old keyword is given; all other arguments stay in order, line and column become a range. *)
Theorem C69_keywords : forall cr args,
  match convert_linecol cr args with
  | None => forall a, In a args -> ~ old_keyword a
  | Some new =>
      (exists a, In a args /\ old_keyword a) /\
      exists kept line column, keeps (fun a => ~ old_keyword a) args kept /\
        keyword_value (u "line") args line /\ keyword_value (u "column") args column /\
        new = kept ++ match line with
                      | Some l => [(NoStar, Some (u "range"), cr l (match column with Some c => c | None => Number (u "0") end))]
                      | None => []
                      end
  end.
Proof.
  intros cr args. unfold convert_linecol. destruct (existsb (keyword_is deprecated_keywords) args) eqn:E.
  - apply existsb_exists in E. destruct E as (a & I & E). apply old_keyword_iff in E. split; [eauto|].
    exists (filter (fun a => negb (keyword_is deprecated_keywords a)) args), (last_value (u "line") args), (last_value (u "column") args).
    split; [|split; [apply last_value_spec|split; [apply last_value_spec|]]].
    + apply keeps_filter. intros x _. rewrite negb_true_iff, <- old_keyword_iff. now rewrite not_true_iff_false.
    + destruct (last_value (u "line") args); [reflexivity|]. now rewrite app_nil_r.
  - intros a I K. apply old_keyword_iff in K. assert (X : existsb (keyword_is deprecated_keywords) args = true) by (apply existsb_exists; eauto). congruence.
Qed.

Theorem C69_keywords_once : forall cr args new, convert_linecol cr args = Some new -> convert_linecol cr new = None.
Proof.
  intros cr args new H. generalize (C69_keywords cr args), (C69_keywords cr new). rewrite H. intros (_ & kept & line & column & K & _ & _ & En) G.
  destruct (convert_linecol cr new) as [n|]; auto. destruct G as ((a & I & O) & _). exfalso. rewrite En in I. apply in_app_or in I. destruct I as [I|I].
  - apply (keeps_in K) in I. destruct I. contradiction.
  - destruct line; [|destruct I]. destruct I as [<-|[]]. unfold old_keyword, has_keyword in O. cbn [fst snd] in O. intuition discriminate.
Qed.

Example C69_example :
  let cr l c := Call (Name (u "CodeRange")) [plain_arg l; plain_arg c] in
  convert_linecol cr [plain_arg (Name (u "code")); (NoStar, Some (u "line"), Number (u "3")); (NoStar, Some (u "kind"), Name (u "K")); (NoStar, Some (u "x"), Name (u "y"))]
  = Some [plain_arg (Name (u "code")); (NoStar, Some (u "x"), Name (u "y")); (NoStar, Some (u "range"), cr (Number (u "3")) (Number (u "0")))] /\
  deprecated_imports (From 0 (Some [u "fixit"]) (Some [al "LintRule"; Alias (u "ValidTestCase") (Some (u "Valid"))]))
  = [(Alias (u "ValidTestCase") (Some (u "Valid")), al "Valid")] /\
  remove_suffix (u "FooRule") [Some [u "fixit.LintRule"]] = Ok ([u "Foo"], [Some []]).
Proof. repeat split; vm_compute; reflexivity. Qed.
