(** * Rules about lambdas and format strings (C59, C61). Uses functional extensionality (Coq.Logic). *)
From Coq Require Import String List NArith ZArith Bool Arith Lia FunctionalExtensionality.
From Verif Require Import Base PyStr Regex Py Rules RulesSpec PyToy RulesProps RulesProps2.
Import ListNotations.

(** ** Induction on expressions *)
Definition on_part (Q : expr -> Prop) (x : str + expr) : Prop := match x with inl _ => True | inr e => Q e end.
Definition on_clause (Q : expr -> Prop) (c : clause) : Prop := Q (fst (fst c)) /\ Q (snd (fst c)) /\ Forall Q (snd c).

Section ExprInd.
  Context (Q : expr -> Prop).
  Context (HName : forall s, Q (Name s)) (HNumber : forall s, Q (Number s)) (HString : forall p q r, Q (SimpleString p q r))
    (HConcat : forall l r, Q l -> Q r -> Q (Concatenated l r)) (HF : forall p q parts, Forall (on_part Q) parts -> Q (FString p q parts))
    (HAttr : forall e a, Q e -> Q (Attribute e a)) (HSub : forall e sl, Q e -> Forall Q sl -> Q (Subscript e sl))
    (HCall : forall f args, Q f -> Forall (fun a => Q (snd a)) args -> Q (Call f args)) (HNot : forall e, Q e -> Q (Not e))
    (HBool : forall l op r, Q l -> Q r -> Q (BoolOp l op r)) (HMod : forall l r, Q l -> Q r -> Q (Modulo l r))
    (HCmp : forall l rest, Q l -> Forall (fun x => Q (snd x)) rest -> Q (Compare l rest))
    (HTuple : forall es, Forall (fun x => Q (snd x)) es -> Q (Tuple es)) (HList : forall es, Forall (fun x => Q (snd x)) es -> Q (List es))
    (HSet : forall es, Forall (fun x => Q (snd x)) es -> Q (Set_ es)) (HDict : forall es, Forall (fun x => Q (fst x) /\ Q (snd x)) es -> Q (Dict es))
    (HLam : forall ps simple body, Q body -> Q (Lambda ps simple body))
    (HLC : forall elt cs, Q elt -> Forall (on_clause Q) cs -> Q (ListComp elt cs)) (HSC : forall elt cs, Q elt -> Forall (on_clause Q) cs -> Q (SetComp elt cs))
    (HGE : forall elt cs, Q elt -> Forall (on_clause Q) cs -> Q (GeneratorExp elt cs)) (HDC : forall k v cs, Q k -> Q v -> Forall (on_clause Q) cs -> Q (DictComp k v cs))
    (HOther : forall n es, Forall Q es -> Q (Other n es)).

  Section All.
    Context {A : Type} (R : A -> Prop) (f : forall a, R a).
    Fixpoint all (l : list A) : Forall R l := match l with [] => Forall_nil R | a :: l' => Forall_cons a (f a) (all l') end.
  End All.

  Fixpoint expr_all (e : expr) : Q e :=
    let clauses := all (on_clause Q) (fun c => match c with (t, it, ifs) => conj (expr_all t) (conj (expr_all it) (all Q expr_all ifs)) end) in
    let elems := all (fun x : bool * expr => Q (snd x)) (fun x => match x with (_, e) => expr_all e end) in
    match e with
    | Name s => HName s
    | Number s => HNumber s
    | SimpleString p q r => HString p q r
    | Concatenated l r => HConcat l r (expr_all l) (expr_all r)
    | FString p q parts => HF p q parts (all (on_part Q) (fun x => match x with inl _ => I | inr e => expr_all e end) parts)
    | Attribute e a => HAttr e a (expr_all e)
    | Subscript e sl => HSub e sl (expr_all e) (all Q expr_all sl)
    | Call f args => HCall f args (expr_all f) (all (fun a : arg => Q (snd a)) (fun a => match a with (_, e) => expr_all e end) args)
    | Not e => HNot e (expr_all e)
    | BoolOp l op r => HBool l op r (expr_all l) (expr_all r)
    | Modulo l r => HMod l r (expr_all l) (expr_all r)
    | Compare l rest => HCmp l rest (expr_all l) (all (fun x : cmpop * expr => Q (snd x)) (fun x => match x with (_, e) => expr_all e end) rest)
    | Tuple es => HTuple es (elems es)
    | List es => HList es (elems es)
    | Set_ es => HSet es (elems es)
    | Dict es => HDict es (all (fun x : expr * expr => Q (fst x) /\ Q (snd x)) (fun x => match x with (a, b) => conj (expr_all a) (expr_all b) end) es)
    | Lambda ps simple body => HLam ps simple body (expr_all body)
    | ListComp elt cs => HLC elt cs (expr_all elt) (clauses cs)
    | SetComp elt cs => HSC elt cs (expr_all elt) (clauses cs)
    | GeneratorExp elt cs => HGE elt cs (expr_all elt) (clauses cs)
    | DictComp k v cs => HDC k v cs (expr_all k) (expr_all v) (clauses cs)
    | Other n es => HOther n es (all Q expr_all es)
    end.
End ExprInd.

(** ** What evaluation depends on *)
Section Depends.
  Context {S A B : Type}.
  Lemma mapM_ext2 : forall (f g : A -> M S B) l, Forall (fun a => f a = g a) l -> mapM f l = mapM g l.
  Proof. intros f g l F. induction F as [|a l H F IH]; [reflexivity|]. cbn [mapM]. now rewrite H, IH. Qed.
End Depends.

Definition agree {P : py} (X : str -> Prop) (rho1 rho2 : scope P) : Prop := forall n, X n -> assoc n rho1 = assoc n rho2.
Lemma agree_app : forall (P : py) X (bs rho1 rho2 : scope P), agree X rho1 rho2 -> agree X (bs ++ rho1) (bs ++ rho2).
Proof. intros P X bs rho1 rho2 H n Xn. induction bs as [|[k v] bs IH]; cbn; [now apply H|]. destruct (str_eqb n k); auto. Qed.

Section Agree.
  Context (P : py) (L : lambda_law P).
  Definition same_at (X : str -> Prop) (e : expr) : Prop := forall rho1 rho2, agree X rho1 rho2 -> eval P rho1 e = eval P rho2 e.

  Lemma chain_same : forall X rho1 rho2 rest v, agree X rho1 rho2 -> Forall (fun x : cmpop * expr => same_at X (snd x)) rest -> chain P (eval P rho1) v rest = chain P (eval P rho2) v rest.
  Proof.
    intros X rho1 rho2 rest v Ag F. revert v. induction F as [|[op e] rest H F IH]; intro v; [reflexivity|]. cbn [chain]. cbn in H. rewrite (H rho1 rho2 Ag).
    f_equal. apply functional_extensionality. intro w. f_equal. apply functional_extensionality. intro c. destruct rest; [reflexivity|]. now rewrite IH.
  Qed.
  Lemma elements_same : forall X rho1 rho2 es, agree X rho1 rho2 -> Forall (fun x : bool * expr => same_at X (snd x)) es -> elements P (eval P rho1) es = elements P (eval P rho2) es.
  Proof. intros X rho1 rho2 es Ag F. induction F as [|[st e] es H F IH]; [reflexivity|]. cbn [elements]. cbn in H. now rewrite (H rho1 rho2 Ag), IH. Qed.
  Lemma arguments_same : forall X rho1 rho2 args, agree X rho1 rho2 -> Forall (fun x : arg => same_at X (snd x)) args -> arguments P (eval P rho1) args = arguments P (eval P rho2) args.
  Proof. intros X rho1 rho2 args Ag F. induction F as [|[[st kw] e] es H F IH]; [reflexivity|]. cbn [arguments]. cbn in H. now rewrite (H rho1 rho2 Ag), IH. Qed.
  Lemma all_true_same : forall X rho1 rho2 es, agree X rho1 rho2 -> Forall (same_at X) es -> all_true P (eval P rho1) es = all_true P (eval P rho2) es.
  Proof. intros X rho1 rho2 es Ag F. induction F as [|e es H F IH]; [reflexivity|]. cbn [all_true]. now rewrite (H rho1 rho2 Ag), IH. Qed.

  Lemma comp_same : forall X B (k : scope P -> M (state P) B) cs, Forall (on_clause (same_at X)) cs -> (forall rho1 rho2, agree X rho1 rho2 -> k rho1 = k rho2) ->
    forall rho1 rho2, agree X rho1 rho2 -> comp (eval P) k rho1 cs = comp (eval P) k rho2 cs.
  Proof.
    intros X B k cs F Hk. induction F as [|[[t it] ifs] cs (H1 & H2 & H3) F IH]; intros rho1 rho2 Ag; cbn [comp].
    - now rewrite (Hk _ _ Ag).
    - cbn in H2. rewrite (H2 _ _ Ag). f_equal. f_equal. apply functional_extensionality. intro v. f_equal. apply functional_extensionality. intro g. f_equal. f_equal.
      apply functional_extensionality. intro w. unfold body_of. f_equal. f_equal. apply functional_extensionality. intro bs. cbn in H3.
      pose proof (agree_app P X bs _ _ Ag) as Ag2. rewrite (all_true_same X _ _ ifs Ag2 H3). now rewrite (IH _ _ Ag2).
  Qed.
  Lemma comp_start_same : forall X B (k : scope P -> M (state P) B) cs, Forall (on_clause (same_at X)) cs -> (forall rho1 rho2, agree X rho1 rho2 -> k rho1 = k rho2) ->
    forall rho1 rho2, agree X rho1 rho2 -> comp_start (eval P) k rho1 cs = comp_start (eval P) k rho2 cs.
  Proof.
    intros X B k cs F Hk rho1 rho2 Ag. destruct F as [|[[t it] ifs] cs (H1 & H2 & H3) F]; cbn [comp_start]; [reflexivity|].
    cbn in H2. rewrite (H2 _ _ Ag). f_equal. apply functional_extensionality. intro v. f_equal. apply functional_extensionality. intro g. f_equal. f_equal.
    apply functional_extensionality. intro w. unfold body_of. f_equal. f_equal. apply functional_extensionality. intro bs. cbn in H3.
    pose proof (agree_app P X bs _ _ Ag) as Ag2. rewrite (all_true_same X _ _ ifs Ag2 H3). now rewrite (comp_same X B k cs F Hk _ _ Ag2).
  Qed.

  Lemma same_weak : forall (X Y : str -> Prop) e, (forall n, X n -> Y n) -> same_at X e -> same_at Y e.
  Proof. intros X Y e I H rho1 rho2 Ag. apply H. intros n Xn. apply Ag. auto. Qed.

  (** names of the parts of a list *)
  Lemma forall_fold : forall A (Q : A -> Prop) (men : str -> A -> Prop) (R : (str -> Prop) -> A -> Prop) l (X : str -> Prop),
    (forall a, Q a -> R (fun n => men n a) a) -> (forall (Y Z : str -> Prop) a, (forall n, Y n -> Z n) -> R Y a -> R Z a) ->
    Forall Q l -> (forall n, fold_right (fun a acc => men n a \/ acc) False l -> X n) -> Forall (R X) l.
  Proof.
    intros A Q men R l X HQ HW F. induction F as [|a l H F IH]; intro In_; constructor.
    - apply (HW (fun n => men n a)); auto. intros n Mn. apply In_. cbn. auto.
    - apply IH. intros n Mn. apply In_. cbn. auto.
  Qed.

  Theorem eval_same : forall e, same_at (fun n => mentions n e) e.
  Proof.
    set (Q := fun e => same_at (fun n => mentions n e) e).
    assert (One : forall (X : str -> Prop) e, Q e -> (forall n, mentions n e -> X n) -> same_at X e) by (intros X e H I; exact (same_weak _ _ _ I H)).
    assert (Elems : forall es (X : str -> Prop), Forall (fun x : bool * expr => Q (snd x)) es -> (forall n, fold_right (fun (x : bool * expr) acc => mentions n (snd x) \/ acc) False es -> X n) -> Forall (fun x : bool * expr => same_at X (snd x)) es).
    { intros es X. apply (forall_fold _ (fun x => Q (snd x)) (fun n x => mentions n (snd x)) (fun X x => same_at X (snd x))); auto. intros Y Z a; apply same_weak. }
    assert (Plain : forall es (X : str -> Prop), Forall Q es -> (forall n, fold_right (fun e acc => mentions n e \/ acc) False es -> X n) -> Forall (same_at X) es).
    { intros es X. apply (forall_fold _ Q mentions same_at); auto. intros Y Z a; apply same_weak. }
    assert (Clauses : forall cs (X : str -> Prop), Forall (on_clause Q) cs ->
      (forall n, fold_right (fun (c : clause) acc => mentions n (fst (fst c)) \/ mentions n (snd (fst c)) \/ fold_right (fun e acc => mentions n e \/ acc) False (snd c) \/ acc) False cs -> X n) -> Forall (on_clause (same_at X)) cs).
    { intros cs X F. induction F as [|c cs (H1 & H2 & H3) F IH]; intro I; constructor.
      - repeat split; [apply One; auto|apply One; auto|apply Plain; auto]; intros n Mn; apply I; cbn; auto.
      - apply IH. intros n Mn. apply I. cbn. auto. }
    apply (expr_all Q); unfold Q; intros; intros rho1 rho2 Ag; cbn [eval]; match type of Ag with agree ?X0 _ _ => set (X := X0 : str -> Prop) in Ag end.
    - rewrite (Ag s) by (cbn; auto). reflexivity.
    - reflexivity.
    - reflexivity.
    - rewrite (One X _ H (fun n M => or_introl M) _ _ Ag), (One X _ H0 (fun n M => or_intror M) _ _ Ag). reflexivity.
    - f_equal. apply mapM_ext2. clear - H Ag One. unfold X in Ag. cbn [mentions] in Ag. clear X. induction H as [|x parts H F IH]; constructor.
      + destruct x as [t|e]; [reflexivity|]. cbn in H. rewrite (One _ _ H (fun n M => M) rho1 rho2); [reflexivity|]. intros n Mn. apply Ag. cbn. auto.
      + apply IH. intros n Mn. apply Ag. cbn. destruct x; auto.
    - rewrite (One X _ H (fun n M => M) _ _ Ag). reflexivity.
    - rewrite (One X _ H (fun n M => or_introl M) _ _ Ag). f_equal. apply functional_extensionality. intro v. f_equal. apply mapM_ext2.
      eapply Forall_impl; [|exact (Plain _ X H0 (fun n M => or_intror M))]. intros e_ He. apply He. exact Ag.
    - rewrite (One X _ H (fun n M => or_introl M) _ _ Ag). f_equal. apply functional_extensionality. intro v. f_equal.
      apply arguments_same with (1 := Ag). apply (forall_fold _ (fun x : arg => Q (snd x)) (fun n x => mentions n (snd x)) (fun X x => same_at X (snd x))); auto; [intros Y Z a; apply same_weak|]. intros n M. right. exact M.
    - rewrite (One X _ H (fun n M => M) _ _ Ag). reflexivity.
    - rewrite (One X _ H (fun n M => or_introl M) _ _ Ag), (One X _ H0 (fun n M => or_intror M) _ _ Ag). reflexivity.
    - rewrite (One X _ H (fun n M => or_introl M) _ _ Ag), (One X _ H0 (fun n M => or_intror M) _ _ Ag). reflexivity.
    - rewrite (One X _ H (fun n M => or_introl M) _ _ Ag). f_equal. apply functional_extensionality. intro v.
      apply chain_same with (1 := Ag). apply (forall_fold _ (fun x : cmpop * expr => Q (snd x)) (fun n x => mentions n (snd x)) (fun X x => same_at X (snd x))); auto; [intros Y Z a; apply same_weak|]. intros n M. right. exact M.
    - now rewrite (elements_same _ _ _ _ Ag (Elems _ X H (fun n M => M))).
    - now rewrite (elements_same _ _ _ _ Ag (Elems _ X H (fun n M => M))).
    - now rewrite (elements_same _ _ _ _ Ag (Elems _ X H (fun n M => M))).
    - f_equal. apply mapM_ext2. clear - H Ag One. unfold X in Ag. cbn [mentions] in Ag. clear X. induction H as [|x es [H1 H2] F IH]; constructor.
      + rewrite (One _ _ H1 (fun n M => M) rho1 rho2), (One _ _ H2 (fun n M => M) rho1 rho2); [reflexivity| |]; intros n Mn; apply Ag; cbn; auto.
      + apply IH. intros n Mn. apply Ag. cbn. auto.
    - f_equal. apply L. exact Ag.
    - rewrite (comp_start_same _ _ _ _ (Clauses _ X H0 (fun n M => or_intror M)) (fun r1 r2 A => One X _ H (fun n M => or_introl M) r1 r2 A) _ _ Ag). reflexivity.
    - rewrite (comp_start_same _ _ _ _ (Clauses _ X H0 (fun n M => or_intror M)) (fun r1 r2 A => One X _ H (fun n M => or_introl M) r1 r2 A) _ _ Ag). reflexivity.
    - rewrite (comp_start_same _ _ _ _ (Clauses _ X H0 (fun n M => or_intror M)) (fun r1 r2 A => One X _ H (fun n M => or_introl M) r1 r2 A) _ _ Ag). reflexivity.
    - rewrite (comp_start_same _ _ (fun rho => let* a := eval P rho k in let* b := eval P rho v in ret (a, b)) _ (Clauses _ X H1 (fun n M => or_intror (or_intror M)))) with (rho2 := rho2); auto.
      intros r1 r2 A. now rewrite (One X _ H (fun n M => or_introl M) r1 r2 A), (One X _ H0 (fun n M => or_intror (or_introl M)) r1 r2 A).
    - f_equal. apply mapM_ext2. eapply Forall_impl; [|exact (Plain _ X H (fun n M => M))]. intros e_ He. apply He. exact Ag.
  Qed.
End Agree.

(** ** C59 *)

Lemma assoc_combine : forall (P : py) ps (vs : list (value P)) rho i p v, NoDup ps -> List.length vs = List.length ps ->
  nth_error ps i = Some p -> nth_error vs i = Some v -> assoc p (combine ps vs ++ rho) = Some v.
Proof.
  intros P ps. induction ps as [|q ps IH]; intros vs rho i p v N L Hp Hv; [destruct i; discriminate|]. destruct vs as [|w vs]; [discriminate|]. inversion N as [|? ? N1 N2]; subst. cbn.
  destruct i as [|i]; cbn in Hp, Hv.
  - injection Hp as ->. injection Hv as ->. now rewrite str_eqb_refl.
  - destruct (str_eqb p q) eqn:E; [apply str_eqb_eq in E; subst; exfalso; apply N1; eapply nth_error_In; eauto|]. eapply IH; eauto.
Qed.
Lemma assoc_not_in : forall (P : py) ps (vs : list (value P)) rho p, ~ List.In p ps -> assoc p (combine ps vs ++ rho) = assoc p rho.
Proof.
  intros P ps. induction ps as [|q ps IH]; intros vs rho p N; [reflexivity|]. destruct vs as [|w vs]; [reflexivity|]. cbn. destruct (str_eqb p q) eqn:E; [apply str_eqb_eq in E; subst; exfalso; apply N; left; reflexivity|].
  apply IH. intro H. apply N. right. exact H.
Qed.

Lemma pass_arguments : forall (P : py) rho ps args vs s, passes_params ps args = true -> List.length vs = List.length ps ->
  (forall i p v, nth_error ps i = Some p -> nth_error vs i = Some v -> forall s, eval P rho (Name p) s = (Ok v, s)) -> arguments P (eval P rho) args s = (Ok (vs, []), s).
Proof.
  intros P rho ps. induction ps as [|p ps IH]; intros args vs s H L E.
  - destruct args; [|discriminate]. destruct vs; [reflexivity|discriminate].
  - destruct args as [|[[[] [k|]] e] args]; try discriminate. cbn in H. destruct e as [n| | | | | | | | | | | | | | | | | | | | |]; try discriminate. apply andb_true_iff in H. destruct H as [H1 H2].
    apply str_eqb_eq in H1. subst n. destruct vs as [|v vs]; [discriminate|]. cbn [arguments]. unfold mbind, ret. rewrite (E 0 p v eq_refl eq_refl). rewrite (IH args vs s); auto. intros i q w Hq Hw. exact (E (S i) q w Hq Hw).
Qed.

(** Calling the lambda is calling the function that replaces it, with the same arguments: if evaluating
    this function has no effect, the parameters are distinct and the function does not mention them. *)
Theorem C59_lambda : forall P rho ps body f vf vs s, lambda_law P ->
  redundant_lambda (Lambda ps true body) = Some (Some f) ->
  NoDup ps -> (forall p, List.In p ps -> ~ mentions p f /\ keyword_value P p = None) ->
  (forall s, eval P rho f s = (Ok vf, s)) -> List.length vs = List.length ps ->
  call_lambda P rho ps body vs s = p_call P vf vs [] s.
Proof.
  intros P rho ps body f vf vs s L H N Ps Ev Len. cbn [redundant_lambda] in H. destruct body as [| | | | | | |g args| | | | | | | | | | | | | |]; try discriminate.
  destruct (passes_params ps args) eqn:Pa; [|discriminate]. injection H as ->. unfold call_lambda. rewrite Len, Nat.eqb_refl. cbn [eval]. unfold mbind.
  rewrite (eval_same P L f (combine ps vs ++ rho) rho); [|intros n Mn; apply assoc_not_in; intro I; now apply (Ps n I)]. rewrite Ev.
  rewrite (pass_arguments P _ ps args vs s Pa Len); [reflexivity|]. intros i p v Hp Hv s0. cbn [eval]. destruct (Ps p (nth_error_In _ _ Hp)) as [_ K]. rewrite K.
  now rewrite (assoc_combine P ps vs rho i p v N Len Hp Hv).
Qed.
(** The parameters may be mentioned: [lambda f: f(f)] becomes [f]. *)
Theorem C59_mention_refuted : ~ (forall P rho ps body f vf vs s, lambda_law P ->
  redundant_lambda (Lambda ps true body) = Some (Some f) -> NoDup ps ->
  (forall s, eval P rho f s = (Ok vf, s)) -> List.length vs = List.length ps -> call_lambda P rho ps body vs s = p_call P vf vs [] s).
Proof.
  intro H. specialize (H (toy some_globals) [] [u "list"] (Call (Name (u "list")) [plain_arg (Name (u "list"))]) (Name (u "list")) (TFun (u "list")) [TFun (u "f")] [] (toy_lambda _) eq_refl).
  specialize (H ltac:(repeat constructor; intros []) ltac:(reflexivity) eq_refl). vm_compute in H. discriminate.
Qed.
(** The function is looked up when the lambda is made, not when it is called. *)
Theorem C59_definition_refuted : ~ (forall P rho e f s v s', redundant_lambda e = Some (Some f) -> eval P rho e s = (Ok v, s') -> exists w s2, eval P rho f s = (Ok w, s2)).
Proof.
  intro H. destruct (H (toy some_globals) [] (Lambda [] true (Call (Name (u "nowhere")) [])) (Name (u "nowhere")) [] (TLam []) [] eq_refl eq_refl) as (w & s2 & E). vm_compute in E. discriminate.
Qed.
(** Only lambdas that pass on their plain parameters, all of them and in order, are reported. *)
Theorem C59_reported : forall e f, redundant_lambda e = Some (Some f) <-> exists ps, e = Lambda ps true (Call f (map (fun p => plain_arg (Name p)) ps)).
Proof.
  intros e f. split.
  - intro H. destruct e as [| | | | | | | | | | | | | | | |ps simple body| | | | |]; try discriminate. cbn in H. destruct simple; [|discriminate]. destruct body as [| | | | | | |g args| | | | | | | | | | | | | |]; try discriminate.
    destruct (passes_params ps args) eqn:Pa; [|discriminate]. injection H as ->. exists ps. f_equal. f_equal.
    revert args Pa. induction ps as [|p ps IH]; intros args Pa; destruct args as [|[[[] [k|]] e] args]; try discriminate; [reflexivity|]. cbn in Pa. destruct e; try discriminate. apply andb_true_iff in Pa. destruct Pa as [P1 P2].
    apply str_eqb_eq in P1. subst. cbn. f_equal. now apply IH.
  - intros [ps ->]. cbn. assert (passes_params ps (map (fun p => plain_arg (Name p)) ps) = true) as ->; [|reflexivity]. induction ps as [|p ps IH]; [reflexivity|]. cbn. now rewrite str_eqb_refl.
Qed.
Example C59_example : redundant_lambda (Lambda [u "a"; u "b"] true (Call (Attribute (Name (u "x")) (u "m")) [plain_arg (Name (u "a")); plain_arg (Name (u "b"))])) = Some (Some (Attribute (Name (u "x")) (u "m"))) /\
  redundant_lambda (Lambda [u "a"; u "b"] true (Call (Name (u "f")) [plain_arg (Name (u "b")); plain_arg (Name (u "a"))])) = None.
Proof. split; reflexivity. Qed.

(** ** C61 *)

(** Quotes do not matter for the meaning. *)
Section Quotes.
  Context (P : py) (L : quote_laws P).

  Lemma mapM_map : forall S A B C (f : B -> M S C) (g : A -> B) l, mapM f (map g l) = mapM (fun a => f (g a)) l.
  Proof. intros. induction l as [|a l IH]; [reflexivity|]. cbn [map mapM]. now rewrite IH. Qed.

  Definition plainly (e : expr) : Prop := forall rho, eval P rho (no_quotes e) = eval P rho e.

  Lemma all_true_plain : forall rho es, Forall plainly es -> all_true P (eval P rho) (map no_quotes es) = all_true P (eval P rho) es.
  Proof. intros rho es F. induction F as [|e es H F IH]; [reflexivity|]. cbn [map all_true]. now rewrite H, IH. Qed.
  Lemma bind_plain : forall t v, bind_target P (no_quotes t) v = bind_target P t v.
  Proof. intros t v. pose proof (proj2 L t v). destruct t; try exact H. reflexivity. Qed.

  Lemma comp_plain : forall B (k k' : scope P -> M (state P) B) cs, Forall (on_clause plainly) cs -> (forall rho, k rho = k' rho) -> forall rho,
    comp (eval P) k rho (map (fun c : clause => (no_quotes (fst (fst c)), no_quotes (snd (fst c)), map no_quotes (snd c))) cs) = comp (eval P) k' rho cs.
  Proof.
    intros B k k' cs F Hk. induction F as [|[[t it] ifs] cs (H1 & H2 & H3) F IH]; intro rho; cbn [map comp fst snd]; [now rewrite Hk|]. cbn in H2, H3. rewrite H2.
    f_equal. f_equal. apply functional_extensionality. intro v. f_equal. apply functional_extensionality. intro g. f_equal. f_equal. apply functional_extensionality. intro w. unfold body_of. rewrite bind_plain.
    f_equal. f_equal. apply functional_extensionality. intro bs. rewrite (all_true_plain _ ifs H3). now rewrite IH.
  Qed.
  Lemma comp_start_plain : forall B (k k' : scope P -> M (state P) B) cs, Forall (on_clause plainly) cs -> (forall rho, k rho = k' rho) -> forall rho,
    comp_start (eval P) k rho (map (fun c : clause => (no_quotes (fst (fst c)), no_quotes (snd (fst c)), map no_quotes (snd c))) cs) = comp_start (eval P) k' rho cs.
  Proof.
    intros B k k' cs F Hk rho. destruct F as [|[[t it] ifs] cs (H1 & H2 & H3) F]; cbn [map comp_start fst snd]; [reflexivity|]. cbn in H2, H3. rewrite H2.
    f_equal. apply functional_extensionality. intro v. f_equal. apply functional_extensionality. intro g. f_equal. f_equal. apply functional_extensionality. intro w. unfold body_of. rewrite bind_plain.
    f_equal. f_equal. apply functional_extensionality. intro bs. rewrite (all_true_plain _ ifs H3). now rewrite (comp_plain B k k' cs F Hk).
  Qed.
  Lemma elements_plain_ : forall rho es, Forall (fun x : bool * expr => plainly (snd x)) es -> elements P (eval P rho) (map (fun x => (fst x, no_quotes (snd x))) es) = elements P (eval P rho) es.
  Proof. intros rho es F. induction F as [|[st e] es H F IH]; [reflexivity|]. cbn [map elements fst snd]. cbn in H. now rewrite H, IH. Qed.

  Lemma eval_no_quotes : forall e, plainly e.
  Proof.
    apply (expr_all plainly); intros; intro rho; cbn [no_quotes eval]; auto; try rewrite H; try rewrite H0; auto.
    - f_equal. rewrite mapM_map. apply mapM_ext2. eapply Forall_impl; [|exact H]. intros [t|e] He; [reflexivity|]. cbn in He. now rewrite He.
    - f_equal. apply functional_extensionality. intro v. f_equal. rewrite mapM_map. apply mapM_ext2. eapply Forall_impl; [|exact H0]. intros e_ He. apply He.
    - f_equal. apply functional_extensionality. intro v. f_equal. clear - H0. induction H0 as [|[[st kw] e] args H F IH]; [reflexivity|]. cbn [map arguments fst snd]. cbn in H. now rewrite H, IH.
    - f_equal. apply functional_extensionality. clear - H0. induction H0 as [|[op e] rest H F IH]; intro v; [reflexivity|]. cbn [map chain fst snd]. cbn in H. rewrite H. f_equal. apply functional_extensionality. intro w.
      f_equal. apply functional_extensionality. intro c. destruct rest; [reflexivity|]. cbn [map] in *. now rewrite IH.
    - now rewrite elements_plain_.
    - now rewrite elements_plain_.
    - now rewrite elements_plain_.
    - f_equal. rewrite mapM_map. apply mapM_ext2. eapply Forall_impl; [|exact H]. intros [a b] [H1 H2]. cbn [fst snd] in *. now rewrite H1, H2.
    - f_equal. apply (proj1 L).
    - now rewrite (comp_start_plain _ _ (fun rho => eval P rho elt) cs H0 H rho).
    - now rewrite (comp_start_plain _ _ (fun rho => eval P rho elt) cs H0 H rho).
    - now rewrite (comp_start_plain _ _ (fun rho => eval P rho elt) cs H0 H rho).
    - rewrite (comp_start_plain _ _ (fun rho => let* a := eval P rho k in let* b := eval P rho v in ret (a, b)) cs H1); [reflexivity|]. intro r. now rewrite H, H0.
    - f_equal. rewrite mapM_map. apply mapM_ext2. eapply Forall_impl; [|exact H]. intros e_ He. apply He.
  Qed.
End Quotes.

Lemma opt_map_rel : forall A B (f : A -> option B) l l', opt_map f l = Some l' -> Forall2 (fun a b => f a = Some b) l l'.
Proof.
  intros A B f. induction l as [|a l IH]; intros l' H; cbn in H; [injection H as <-; constructor|]. destruct (f a) as [b|] eqn:E; [|discriminate]. destruct (opt_map f l) as [bs|]; [|discriminate].
  injection H as <-. constructor; auto.
Qed.
Lemma forall2_map : forall A (g : A -> A) (R : A -> A -> Prop) (Q : A -> Prop) l l', Forall Q l -> Forall2 R l l' -> (forall a b, Q a -> R a b -> g b = g a) -> map g l' = map g l.
Proof. intros A g R Q l l' F F2 H. induction F2 as [|a b l l' HR F2 IH]; [reflexivity|]. inversion F; subst. cbn. rewrite IH; auto. f_equal. eauto. Qed.

Section Requote.
  Context (reads_same : str -> str -> str -> str -> bool).
  Notation rq := (requote reads_same).
  Lemma requote_string_no : forall q p qu raw e', requote_string reads_same q p qu raw = Some e' -> no_quotes e' = SimpleString p [] raw.
  Proof.
    intros q p qu raw e' H. unfold requote_string in H. destruct (str_eqb q qu); [|injection H as <-; reflexivity]. destruct (find _ quotes); [|discriminate]. destruct (reads_same p qu s raw); [|discriminate].
    injection H as <-. reflexivity.
  Qed.
  Lemma requote_no : forall q e e', rq q e = Some e' -> no_quotes e' = no_quotes e.
  Proof.
    intro q. set (Q := fun e => forall e', rq q e = Some e' -> no_quotes e' = no_quotes e).
    assert (Elems : forall es es', Forall (fun x : bool * expr => Q (snd x)) es -> opt_map (fun x : bool * expr => match rq q (snd x) with Some e => Some (fst x, e) | None => None end) es = Some es' ->
      map (fun x : bool * expr => (fst x, no_quotes (snd x))) es' = map (fun x : bool * expr => (fst x, no_quotes (snd x))) es).
    { intros es es' F H. apply opt_map_rel in H. eapply forall2_map; eauto. intros [st a] [st' b] Qa H1. cbn in *. destruct (rq q a) as [c|] eqn:E; [|discriminate]. injection H1 as <- <-. f_equal. now apply Qa. }
    assert (Plain : forall es es', Forall Q es -> opt_map (rq q) es = Some es' -> map no_quotes es' = map no_quotes es).
    { intros es es' F H. apply opt_map_rel in H. eapply forall2_map; eauto. }
    assert (Clauses : forall cs cs', Forall (on_clause Q) cs -> opt_map (fun c => match c with (t, it, ifs) => match rq q t, rq q it, opt_map (rq q) ifs with Some t, Some it, Some ifs => Some (t, it, ifs) | _, _, _ => None end end) cs = Some cs' ->
      map (fun c : clause => (no_quotes (fst (fst c)), no_quotes (snd (fst c)), map no_quotes (snd c))) cs' = map (fun c : clause => (no_quotes (fst (fst c)), no_quotes (snd (fst c)), map no_quotes (snd c))) cs).
    { intros cs cs' F H. apply opt_map_rel in H. eapply forall2_map; eauto. intros [[t it] ifs] [[t' it'] ifs'] (Q1 & Q2 & Q3) H1. cbn [fst snd] in *.
      destruct (rq q t) as [x|] eqn:E1; [|discriminate]. destruct (rq q it) as [y|] eqn:E2; [|discriminate]. destruct (opt_map (rq q) ifs) as [z|] eqn:E3; [|discriminate]. injection H1 as <- <- <-.
      rewrite (Q1 _ E1), (Q2 _ E2), (Plain _ _ Q3 E3). reflexivity. }
    apply (expr_all Q); intros; intros e' HE; cbn [requote] in HE; unfold omap, omap2, option_map in HE.
    - injection HE as <-. reflexivity.
    - injection HE as <-. reflexivity.
    - apply requote_string_no in HE. exact HE.
    - destruct (rq q l) as [x|] eqn:E1; [|discriminate]. destruct (rq q r) as [y|] eqn:E2; [|discriminate]. injection HE as <-. cbn [no_quotes]. now rewrite (H _ E1), (H0 _ E2).
    - match type of HE with match ?m with _ => _ end = _ => destruct m as [ps|] eqn:E; [|discriminate] end. injection HE as <-. cbn [no_quotes]. f_equal. apply opt_map_rel in E. eapply forall2_map; eauto.
      intros [t|a] b Qa H1; [injection H1 as <-; reflexivity|]. cbn in *. destruct (rq q a) as [c|] eqn:Ea; [|discriminate]. injection H1 as <-. f_equal. now apply Qa.
    - destruct (rq q e) as [x|] eqn:E1; [|discriminate]. injection HE as <-. cbn [no_quotes]. now rewrite (H _ E1).
    - destruct (rq q e) as [x|] eqn:E1; [|discriminate]. destruct (opt_map (rq q) sl) as [y|] eqn:E2; [|discriminate]. injection HE as <-. cbn [no_quotes]. now rewrite (H _ E1), (Plain _ _ H0 E2).
    - destruct (rq q f) as [x|] eqn:E1; [|discriminate]. match type of HE with match ?m with _ => _ end = _ => destruct m as [y|] eqn:E2; [|discriminate] end. injection HE as <-. cbn [no_quotes]. rewrite (H _ E1). f_equal.
      apply opt_map_rel in E2. eapply forall2_map; eauto. intros [[st kw] a] [[st' kw'] b] Qa H1. cbn in *. destruct (rq q a) as [c|] eqn:E; [|discriminate]. injection H1 as <- <- <-. f_equal. now apply Qa.
    - destruct (rq q e) as [x|] eqn:E1; [|discriminate]. injection HE as <-. cbn [no_quotes]. now rewrite (H _ E1).
    - destruct (rq q l) as [x|] eqn:E1; [|discriminate]. destruct (rq q r) as [y|] eqn:E2; [|discriminate]. injection HE as <-. cbn [no_quotes]. now rewrite (H _ E1), (H0 _ E2).
    - destruct (rq q l) as [x|] eqn:E1; [|discriminate]. destruct (rq q r) as [y|] eqn:E2; [|discriminate]. injection HE as <-. cbn [no_quotes]. now rewrite (H _ E1), (H0 _ E2).
    - destruct (rq q l) as [x|] eqn:E1; [|discriminate]. match type of HE with match ?m with _ => _ end = _ => destruct m as [y|] eqn:E2; [|discriminate] end. injection HE as <-. cbn [no_quotes]. rewrite (H _ E1). f_equal.
      apply opt_map_rel in E2. eapply forall2_map; eauto. intros [op a] [op' b] Qa H1. cbn in *. destruct (rq q a) as [c|] eqn:E; [|discriminate]. injection H1 as <- <-. f_equal. now apply Qa.
    - match type of HE with match ?m with _ => _ end = _ => destruct m as [y|] eqn:E2; [|discriminate] end. injection HE as <-. cbn [no_quotes]. f_equal. eauto.
    - match type of HE with match ?m with _ => _ end = _ => destruct m as [y|] eqn:E2; [|discriminate] end. injection HE as <-. cbn [no_quotes]. f_equal. eauto.
    - match type of HE with match ?m with _ => _ end = _ => destruct m as [y|] eqn:E2; [|discriminate] end. injection HE as <-. cbn [no_quotes]. f_equal. eauto.
    - match type of HE with match ?m with _ => _ end = _ => destruct m as [y|] eqn:E2; [|discriminate] end. injection HE as <-. cbn [no_quotes]. f_equal. apply opt_map_rel in E2. eapply forall2_map; eauto.
      intros [a1 b1] [a2 b2] [Q1 Q2] H1. cbn in *. destruct (rq q a1) as [c|] eqn:Ea; [|discriminate]. destruct (rq q b1) as [d|] eqn:Eb; [|discriminate]. injection H1 as <- <-. f_equal; auto.
    - destruct (rq q body) as [x|] eqn:E1; [|discriminate]. injection HE as <-. cbn [no_quotes]. now rewrite (H _ E1).
    - destruct (rq q elt) as [x|] eqn:E1; [|discriminate]. match type of HE with match ?m with _ => _ end = _ => destruct m as [y|] eqn:E2; [|discriminate] end. injection HE as <-. cbn [no_quotes]. rewrite (H _ E1). f_equal. eauto.
    - destruct (rq q elt) as [x|] eqn:E1; [|discriminate]. match type of HE with match ?m with _ => _ end = _ => destruct m as [y|] eqn:E2; [|discriminate] end. injection HE as <-. cbn [no_quotes]. rewrite (H _ E1). f_equal. eauto.
    - destruct (rq q elt) as [x|] eqn:E1; [|discriminate]. match type of HE with match ?m with _ => _ end = _ => destruct m as [y|] eqn:E2; [|discriminate] end. injection HE as <-. cbn [no_quotes]. rewrite (H _ E1). f_equal. eauto.
    - destruct (rq q k) as [x|] eqn:E1; [|discriminate]. destruct (rq q v) as [w|] eqn:E3; [|discriminate]. match type of HE with match ?m with _ => _ end = _ => destruct m as [y|] eqn:E2; [|discriminate] end. injection HE as <-. cbn [no_quotes].
      rewrite (H _ E1), (H0 _ E3). f_equal. eauto.
    - match type of HE with match ?m with _ => _ end = _ => destruct m as [y|] eqn:E2; [|discriminate] end. injection HE as <-. cbn [no_quotes]. f_equal. eauto.
  Qed.
End Requote.

Lemma requote_eval : forall P reads_same q e e', quote_laws P -> requote reads_same q e = Some e' -> forall rho, eval P rho e' = eval P rho e.
Proof. intros P rs q e e' L H rho. rewrite <- (eval_no_quotes P L e' rho), <- (eval_no_quotes P L e rho). now rewrite (requote_no rs q e e' H). Qed.

(** The format: each % is followed by s, and there is one. *)
Definition eats (Q : str -> Prop) (r : re) : Prop := forall s x, List.In x (m r s) -> exists c, st_rest s = c ++ st_rest x /\ Q c.

Lemma only_s_nil : only_s [].
Proof. intros a b H. destruct a; discriminate. Qed.
Lemma only_s_app : forall c d, only_s c -> only_s d -> only_s (c ++ d).
Proof.
  intros c d C D a b H. revert d D a b H. induction c as [|x c IH]; intros d D a b H; [exact (D a b H)|].
  destruct a as [|y a]; cbn in H; injection H as E H.
  - subst x b. destruct (C [] c eq_refl) as [c' ->]. exists (c' ++ d). reflexivity.
  - apply (IH (fun a b E' => C (x :: a) b (f_equal (cons x) E')) d D a b H).
Qed.
Lemma eats_cat : forall r1 r2, eats only_s r1 -> eats only_s r2 -> eats only_s (Cat r1 r2).
Proof.
  intros r1 r2 H1 H2 s x H. cbn [m] in H. apply in_flat_map in H. destruct H as (y & Hy & Hx). destruct (H1 _ _ Hy) as (c & E & C). destruct (H2 _ _ Hx) as (d & E2 & D).
  exists (c ++ d). split; [rewrite E, E2; apply app_assoc|now apply only_s_app].
Qed.
Lemma eats_star : forall r, eats only_s r -> eats only_s (Star r).
Proof.
  intros r Hr s x H. cbn [m] in H. apply in_star in H; [|lia]. induction H as [s|s s1 s2 H1 L H2 IH]; [exists []; split; [reflexivity|apply only_s_nil]|].
  destruct (Hr _ _ H1) as (c & E & C). destruct IH as (d & E2 & D). exists (c ++ d). split; [rewrite E, E2; apply app_assoc|now apply only_s_app].
Qed.
Lemma eats_grp : forall n r, eats only_s r -> eats only_s (Grp n r).
Proof. intros n r Hr s x H. cbn [m] in H. apply in_map_iff in H. destruct H as (y & <- & Hy). exact (Hr _ _ Hy). Qed.
Lemma eats_not_percent : eats only_s not_percent.
Proof.
  apply eats_star. intros s x H. cbn [m] in H. destruct (st_rest s) as [|c t] eqn:E; [destruct H|]. destruct (N.eqb_spec c 37) as [->|N]; [destruct H|]. destruct H as [<-|[]]. exists [c]. split; [reflexivity|].
  intros a b Hab. destruct a as [|y a]; injection Hab as -> Hab; [congruence|]. destruct a; discriminate.
Qed.
Lemma percent_s : forall s x, List.In x (m (Lit (u "%s")) s) -> st_rest s = (u "%s") ++ st_rest x.
Proof. intros [b s k] x H. destruct (m_lit_inv _ _ _ _ _ H) as [t ->]. rewrite m_lit in H. destruct H as [<-|[]]. reflexivity. Qed.
Lemma only_s_s : only_s (u "%s").
Proof. intros a b H. destruct a as [|x [|y [|]]]; try discriminate. injection H as <-. eexists. reflexivity. Qed.
Lemma eats_percent : eats only_s (Lit (u "%s")).
Proof. intros s x H. exists (u "%s"). split; [now apply percent_s|apply only_s_s]. Qed.

Lemma simple_format_facts : forall raw, fullmatch simple_format raw = true -> only_s raw /\ exists a b, raw = a ++ 37%N :: 115%N :: b.
Proof.
  intros raw H. unfold fullmatch in H. apply existsb_exists in H. destruct H as (x & Hx & Ex). destruct (st_rest x) eqn:Rx; [clear Ex|discriminate].
  unfold simple_format in Hx. cbn [m] in Hx. apply in_flat_map in Hx. destruct Hx as (y & Hy & Hx). destruct (eats_not_percent _ _ Hy) as (c & E & C). cbn [st_rest] in E.
  unfold Plus in Hx. change (List.In x (flat_map (m (Star (Grp 1 (Cat (Lit (u "%s")) not_percent)))) (m (Grp 1 (Cat (Lit (u "%s")) not_percent)) y))) in Hx. apply in_flat_map in Hx. destruct Hx as (z & Hz & Hx).
  assert (G : eats only_s (Grp 1 (Cat (Lit (u "%s")) not_percent))) by (apply eats_grp, eats_cat; [apply eats_percent|apply eats_not_percent]).
  destruct (G _ _ Hz) as (d & E2 & D). destruct (eats_star _ G _ _ Hx) as (e & E3 & F). rewrite Rx, app_nil_r in E3. split.
  - rewrite E, E2, E3. apply only_s_app; auto. now apply only_s_app.
  - change (List.In z (map (fun s' => St (st_bos s') (st_rest s') ((1, consumed y s') :: st_caps s')) (m (Cat (Lit (u "%s")) not_percent) y))) in Hz. apply in_map_iff in Hz. destruct Hz as (w & _ & Hw).
    change (List.In w (flat_map (m not_percent) (m (Lit (u "%s")) y))) in Hw. apply in_flat_map in Hw. destruct Hw as (w2 & Hw2 & _). apply percent_s in Hw2. exists c, (st_rest w2). rewrite E, Hw2. reflexivity.
Qed.

(** Splitting *)
Lemma split2_2 : forall a b c d s, split2 a b (c :: d :: s) = if ((c =? a) && (d =? b))%N then [] :: split2 a b s else match split2 a b (d :: s) with t :: ts => (c :: t) :: ts | [] => [[c]] end.
Proof. reflexivity. Qed.
Lemma split2_ne : forall a b s, split2 a b s <> [].
Proof.
  intros a b. apply (two_induction _ (fun s => split2 a b s <> [])); try (cbn; discriminate). intros c d s I1 I2. rewrite split2_2.
  destruct ((c =? a) && (d =? b))%N; [discriminate|]. destruct (split2 a b (d :: s)); discriminate.
Qed.
Lemma holes_split : forall t, S (holes t) = List.length (split2 37 115 t).
Proof.
  apply (two_induction _ (fun t => S (holes t) = List.length (split2 37 115 t))); try reflexivity. intros c d s I1 I2. rewrite split2_2.
  change (holes (c :: d :: s)) with (if ((c =? 37) && (d =? 115))%N then S (holes s) else holes (d :: s)). destruct ((c =? 37) && (d =? 115))%N; [cbn; now rewrite <- I1|].
  rewrite I2. pose proof (split2_ne 37 115 (d :: s)). destruct (split2 37 115 (d :: s)); [congruence|reflexivity].
Qed.
Lemma holes_found : forall a b, holes (a ++ 37%N :: 115%N :: b) <> 0.
Proof.
  intros a b. revert a. apply (two_induction _ (fun a => holes (a ++ 37%N :: 115%N :: b) <> 0)).
  - discriminate.
  - intro c. cbn [app]. change (holes (c :: 37%N :: 115%N :: b)) with (if ((c =? 37) && (37 =? 115))%N then S (holes (115%N :: b)) else holes (37%N :: 115%N :: b)). rewrite andb_false_r. discriminate.
  - intros c d s I1 I2. cbn [app] in *. change (holes (c :: d :: s ++ 37%N :: 115%N :: b)) with (if ((c =? 37) && (d =? 115))%N then S (holes (s ++ 37%N :: 115%N :: b)) else holes (d :: s ++ 37%N :: 115%N :: b)).
    destruct ((c =? 37) && (d =? 115))%N; [discriminate|exact I2].
Qed.

(** doubling braces *)
Definition dd (c : N) : str := if (c =? 123)%N then [123; 123]%N else if (c =? 125)%N then [125; 125]%N else [c].
Definition dbl (s : str) : str := flat_map dd s.
Lemma doubled : forall s, replace1 125 [125; 125]%N (replace1 123 [123; 123]%N s) = dbl s.
Proof.
  unfold replace1, dbl. induction s as [|c s IH]; [reflexivity|]. cbn [flat_map]. rewrite flat_map_app, IH. f_equal. unfold dd.
  destruct (N.eqb_spec c 123) as [->|N]; [reflexivity|]. cbn [flat_map]. destruct (N.eqb_spec c 125) as [->|N2]; reflexivity.
Qed.
Lemma dd_first : forall c, exists r, dd c = c :: r.
Proof. intro c. unfold dd. destruct (N.eqb_spec c 123) as [->|]; [eauto|]. destruct (N.eqb_spec c 125) as [->|]; eauto. Qed.

Lemma split2_prepend : forall a b x r, (x <> a \/ hd_error r <> Some b) -> split2 a b (x :: r) = match split2 a b r with t :: ts => (x :: t) :: ts | [] => [[x]] end.
Proof.
  intros a b x r H. destruct r as [|d r]; [reflexivity|]. rewrite split2_2. destruct (N.eqb_spec x a) as [->|]; [|reflexivity]. destruct (N.eqb_spec d b) as [->|]; [|reflexivity]. exfalso. destruct H as [H|H]; apply H; reflexivity.
Qed.
Lemma split2_dbl : forall s, split2 37 115 (dbl s) = map dbl (split2 37 115 s).
Proof.
  assert (P1 : forall c s, (c <> 37%N \/ hd_error s <> Some 115%N) -> split2 37 115 (dbl s) = map dbl (split2 37 115 s) -> split2 37 115 (dbl (c :: s)) = map dbl (split2 37 115 (c :: s))).
  { intros c s H I. rewrite (split2_prepend 37 115 c s H). change (dbl (c :: s)) with (dd c ++ dbl s).
    pose proof (split2_ne 37 115 s) as Ne. destruct (split2 37 115 s) as [|t ts] eqn:E; [congruence|]. cbn [map] in I |- *. change (dbl (c :: t)) with (dd c ++ dbl t).
    unfold dd. destruct (N.eqb_spec c 123) as [->|N1]; [|destruct (N.eqb_spec c 125) as [->|N2]].
    - cbn [app]. rewrite split2_prepend by (left; discriminate). rewrite split2_prepend by (left; discriminate). now rewrite I.
    - cbn [app]. rewrite split2_prepend by (left; discriminate). rewrite split2_prepend by (left; discriminate). now rewrite I.
    - cbn [app]. rewrite split2_prepend; [now rewrite I|]. destruct H as [H|H]; [now left|]. right. destruct s as [|d s]; [discriminate|]. cbn. destruct (dd_first d) as [r ->]. exact H. }
  apply (two_induction _ (fun s => split2 37 115 (dbl s) = map dbl (split2 37 115 s))); [reflexivity| |].
  - intro c. apply P1; [right; discriminate|reflexivity].
  - intros c d s I1 I2. destruct (N.eqb_spec c 37) as [->|N]; [|apply P1; auto]. destruct (N.eqb_spec d 115) as [->|N2]; [|apply P1; auto; right; cbn; congruence].
    change (dbl (37%N :: 115%N :: s)) with (37%N :: 115%N :: dbl s). rewrite !split2_2. cbn [N.eqb Pos.eqb andb map]. now rewrite I1.
Qed.
Lemma unbrace_dbl : forall s, unbrace (dbl s) = s.
Proof.
  induction s as [|c s IH]; [reflexivity|]. change (dbl (c :: s)) with (dd c ++ dbl s). unfold dd. destruct (N.eqb_spec c 123) as [->|N1]; [cbn [app]; rewrite unbrace_2; cbn; now rewrite IH|].
  destruct (N.eqb_spec c 125) as [->|N2]; [cbn [app]; rewrite unbrace_2; cbn; now rewrite IH|]. cbn [app]. destruct (dbl s) as [|d r] eqn:E.
  - cbn in IH. subst s. reflexivity.
  - rewrite unbrace_2. apply N.eqb_neq in N1, N2. rewrite N1, N2. cbn [orb andb]. now rewrite IH.
Qed.
Lemma split2_in : forall a b s t, List.In t (split2 a b s) -> forall c, List.In c t -> List.In c s.
Proof.
  intros a b. apply (two_induction _ (fun s => forall t, List.In t (split2 a b s) -> forall c, List.In c t -> List.In c s)).
  - intros t [<-|[]] c []. 
  - intros x t [<-|[]] c H. exact H.
  - intros x d s I1 I2 t H c Hc. rewrite split2_2 in H. destruct ((x =? a) && (d =? b))%N.
    + destruct H as [<-|H]; [destruct Hc|]. right. right. eapply I1; eauto.
    + destruct (split2 a b (d :: s)) as [|t0 ts]; [destruct H as [<-|[]]; destruct Hc as [<-|[]]; left; reflexivity|].
      destruct H as [<-|H]; [destruct Hc as [<-|Hc]; [left; reflexivity|]; right; eapply I2; [left; reflexivity|exact Hc]|]. right. eapply I2; [right; exact H|exact Hc].
Qed.

(** texts and formatted values in turn *)
Fixpoint interleave (P : py) (t : str) (ts : list str) (vs : list (value P)) : M (state P) str :=
  match ts, vs with
  | t' :: ts', v :: vs' => let* x := p_format P v in let* y := interleave P t' ts' vs' in ret (t ++ x ++ y)
  | _, _ => ret t
  end.
Lemma interleave_cons : forall P c t ts vs s, interleave P (c :: t) ts vs s = (let* x := interleave P t ts vs in ret (c :: x)) s.
Proof.
  intros P c t ts vs s. destruct ts as [|t' ts]; [reflexivity|]. destruct vs as [|v vs]; [reflexivity|]. cbn [interleave]. unfold mbind, ret. destruct (p_format P v s) as [[x|e] s1]; auto. destruct (interleave P t' ts vs s1) as [[y|e] s2]; auto.
Qed.
Lemma percent_split : forall P raw vs t ts s, split2 37 115 raw = t :: ts -> List.length vs = List.length ts -> percent P raw vs s = interleave P t ts vs s.
Proof.
  intros P raw. assert (Nil : forall vs : list (value P), List.length vs = 0 -> vs = []) by (intros [|]; [reflexivity|discriminate]).
  apply (two_induction _ (fun raw => forall vs t ts s, split2 37 115 raw = t :: ts -> List.length vs = List.length ts -> percent P raw vs s = interleave P t ts vs s)); clear raw.
  - intros vs t ts s E L. injection E as <- <-. rewrite (Nil _ L). reflexivity.
  - intros a vs t ts s E L. injection E as <- <-. rewrite (Nil _ L). reflexivity.
  - intros c d raw I1 I2 vs t ts s E L. rewrite split2_2 in E.
    change (percent P (c :: d :: raw) vs s) with ((if ((c =? 37) && (d =? 115))%N then match vs with v :: vs' => let* t' := p_format P v in let* ts := percent P raw vs' in ret (t' ++ ts) | [] => throw TypeError end
                         else let* ts := percent P (d :: raw) vs in ret (c :: ts)) s).
    destruct ((c =? 37) && (d =? 115))%N.
    + injection E as <- <-. pose proof (split2_ne 37 115 raw) as Ne. destruct (split2 37 115 raw) as [|t' ts']; [congruence|]. destruct vs as [|v vs]; [discriminate|]. cbn in L. injection L as L.
      cbn [interleave app]. unfold mbind, ret. destruct (p_format P v s) as [[x|e] s1]; auto. rewrite (I1 vs t' ts' s1 eq_refl L). reflexivity.
    + destruct (split2 37 115 (d :: raw)) as [|t' ts'] eqn:E2; [now apply split2_ne in E2|]. injection E as <- <-. rewrite interleave_cons. unfold mbind, ret. now rewrite (I2 vs t' ts' s eq_refl L).
Qed.

Lemma mapM_app : forall S A B (f : A -> M S B) l1 l2 s, mapM f (l1 ++ l2) s = (let* x := mapM f l1 in let* y := mapM f l2 in ret (x ++ y)) s.
Proof.
  intros S A B f l1 l2. induction l1 as [|a l1 IH]; intro s; cbn [mapM app].
  - unfold mbind, ret. destruct (mapM f l2 s) as [[y|e] s1]; reflexivity.
  - unfold mbind, ret in *. destruct (f a s) as [[b|e] s1]; auto. rewrite IH. destruct (mapM f l1 s1) as [[x|e] s2]; auto. destruct (mapM f l2 s2) as [[y|e] s3]; auto.
Qed.

Section Fill.
  Context (P : py) (rho : scope P) (reads_same : str -> str -> str -> str -> bool) (tup : list (value P) -> value P) (is_tuple : value P -> Prop).
  Context (FL : format_laws P tup is_tuple) (QL : quote_laws P) (flag : bool) (q : str).
  Definition part : str + expr -> M (state P) str := fun p => match p with inl raw => p_text P flag (unbrace raw) | inr e => let* v := eval P rho e in p_format P v end.

  Lemma text_eval : forall t s, ~ List.In 92%N t -> exists l, mapM part (text_part (dbl t)) s = (Ok l, s) /\ concat l = t.
  Proof.
    intros t s N. destruct t as [|c t]; [exists []; split; reflexivity|]. exists [c :: t]. split; [|cbn; now rewrite app_nil_r].
    assert (E : text_part (dbl (c :: t)) = [inl (dbl (c :: t))]) by (destruct (dd_first c) as [r E]; change (dbl (c :: t)) with (dd c ++ dbl t); rewrite E; reflexivity).
    rewrite E. cbn [mapM part]. rewrite unbrace_dbl. unfold mbind, ret. rewrite (f_text _ _ _ FL flag (c :: t) s N). reflexivity.
  Qed.

  Lemma fill_eval : forall ts es vs parts t s, fill reads_same q (map dbl ts) es = Some parts -> List.length es = List.length ts ->
    Forall2 (fun e v => forall s, eval P rho e s = (Ok v, s)) es vs -> (forall x, List.In x (t :: ts) -> ~ List.In 92%N x) ->
    (let* l := mapM part (text_part (dbl t) ++ parts) in ret (concat l)) s = interleave P t ts vs s.
  Proof.
    induction ts as [|t' ts IH]; intros es vs parts t s H Len F N.
    - destruct es; [|discriminate]. inversion F; subst. injection H as <-. rewrite app_nil_r. destruct (text_eval t s (N t (or_introl eq_refl))) as (l & E & C). unfold mbind, ret. rewrite E, C. reflexivity.
    - destruct es as [|e es]; [discriminate|]. cbn [map fill] in H. destruct (requote reads_same q e) as [e'|] eqn:R; [|discriminate]. destruct (fill reads_same q (map dbl ts) es) as [ps|] eqn:Fl; [|discriminate]. injection H as <-.
      inversion F as [|? v ? vs' He F']; subst. cbn in Len. injection Len as Len. unfold mbind at 1. rewrite mapM_app. unfold mbind at 1. destruct (text_eval t s (N t (or_introl eq_refl))) as (l & E & C). rewrite E.
      cbn [mapM part]. unfold mbind. rewrite (requote_eval P reads_same q e e' QL R rho), He. cbn [interleave]. unfold mbind at 1. destruct (p_format P v s) as [[x|ex] s1]; [|reflexivity].
      specialize (IH es vs' ps t' s1 Fl Len F' (fun y Y => N y (or_intror Y))). unfold mbind in IH |- *. rewrite <- IH. destruct (mapM part (text_part (dbl t') ++ ps) s1) as [[y|ex] s2]; [|reflexivity].
      unfold ret. rewrite concat_app. cbn [concat]. now rewrite C.
  Qed.
End Fill.

(** With as many expressions as placeholders, none of them starred, whose evaluation has no effect, the
    f-string is the same text. (No backslash in the literal.) *)
Theorem C61_tuple : forall P rho tup is_tuple code_length reads_same prefix q raw es vs e', format_laws P tup is_tuple -> quote_laws P ->
  use_fstring code_length reads_same (Modulo (SimpleString prefix q raw) (Tuple es)) = Ok (Some (Some e')) ->
  ~ List.In 92%N raw -> List.length es = holes raw -> (forall x, List.In x es -> fst x = false) ->
  Forall2 (fun x v => forall s, eval P rho (snd x) s = (Ok v, s)) es vs ->
  same_meaning P rho (Modulo (SimpleString prefix q raw) (Tuple es)) e'.
Proof.
  intros P rho tup is_tuple cl rs prefix q raw es vs e' FL QL H Nb Len St F s. unfold use_fstring in H. cbn [simple_string] in H.
  destruct (negb (is_bytes prefix) && fullmatch simple_format raw && simple_expression cl (Tuple es)) eqn:B; [|destruct (is_bytes prefix); discriminate].
  apply andb_true_iff in B. destruct B as [B _]. apply andb_true_iff in B. destruct B as [B Fm]. apply negb_true_iff in B. destruct (simple_format_facts raw Fm) as [Os _].
  rewrite doubled, split2_dbl in H. pose proof (split2_ne 37 115 raw) as Ne. pose proof (holes_split raw) as Hs. pose proof (split2_in 37 115 raw) as Si.
  destruct (split2 37 115 raw) as [|t ts] eqn:Sp; [congruence|]. cbn [map] in H. cbn in Hs. injection Hs as Hs.
  destruct (fill rs q (map dbl ts) (map snd es)) as [parts|] eqn:Fl; [|discriminate]. destruct (valid_fprefix _) eqn:V; [|discriminate]. injection H as <-.
  change (eval P rho (Modulo (SimpleString prefix q raw) (Tuple es)) s) with ((let* x := eval P rho (SimpleString prefix q raw) in let* y := mbind (elements P (eval P rho) es) (p_tuple P) in p_mod P x y) s).
  match goal with |- _ = eval P rho (FString ?p q ?ps) s => set (flag := is_raw p);
    change (eval P rho (FString p q ps) s) with ((let* l := mapM (part P rho flag) ps in ret (p_str P (concat l))) s) end.
  assert (Es : eval P rho (SimpleString prefix q raw) s = (Ok (p_str P raw), s)) by (cbn [eval]; rewrite B; unfold mbind; now rewrite (f_text _ _ _ FL _ raw s Nb)).
  rewrite (mbind_eq _ _ _ _ _ _ _ _ Es).
  assert (El : mbind (elements P (eval P rho) es) (p_tuple P) s = (Ok (tup vs), s)).
  { assert (K : elements P (eval P rho) es s = (Ok vs, s)).
    { clear - F St. induction F as [|[st e] v es vs H F IH]; [reflexivity|]. pose proof (St _ (or_introl eq_refl)) as Sx. cbn in Sx. subst st. cbn [elements]. unfold mbind, ret. cbn in H. rewrite H. rewrite IH; [reflexivity|]. intros x X. apply St. right. exact X. }
    unfold mbind. rewrite K. apply (f_tuple _ _ _ FL). }
  rewrite (mbind_eq _ _ _ _ _ _ _ _ El).
  rewrite (f_mod _ _ _ FL raw vs s Os). assert (Lv : List.length es = List.length vs) by (clear - F; induction F; cbn; congruence).
  assert (Fe : (let* l := mapM (part P rho flag) (text_part (dbl t) ++ parts) in ret (concat l)) s = interleave P t ts vs s).
  { apply (fill_eval P rho rs tup is_tuple FL QL flag q ts (map snd es) vs parts t s Fl).
    - rewrite map_length. congruence.
    - clear - F. induction F; constructor; auto.
    - intros x X I. apply Nb. eapply Si; eauto. }
  unfold mbind at 1. rewrite (percent_split P raw vs t ts s Sp) by congruence. rewrite <- Fe. unfold mbind. destruct (mapM (part P rho flag) (text_part (dbl t) ++ parts) s) as [[l|ex] s1]; reflexivity.
Qed.

(** One value that is not a tuple: no other condition. *)
Theorem C61_single : forall P rho tup is_tuple code_length reads_same prefix q raw r e', format_laws P tup is_tuple -> quote_laws P ->
  use_fstring code_length reads_same (Modulo (SimpleString prefix q raw) r) = Ok (Some (Some e')) ->
  ~ List.In 92%N raw -> (forall es, r <> Tuple es) -> (forall s v s', eval P rho r s = (Ok v, s') -> ~ is_tuple v) ->
  same_meaning P rho (Modulo (SimpleString prefix q raw) r) e'.
Proof.
  intros P rho tup is_tuple cl rs prefix q raw r e' FL QL H Nb Nt Nv s. unfold use_fstring in H. cbn [simple_string] in H.
  destruct (negb (is_bytes prefix) && fullmatch simple_format raw && simple_expression cl r) eqn:B; [|destruct (is_bytes prefix); discriminate].
  apply andb_true_iff in B. destruct B as [B _]. apply andb_true_iff in B. destruct B as [B Fm]. apply negb_true_iff in B. destruct (simple_format_facts raw Fm) as (Os & a & b & Eraw).
  assert (Er : match r with Tuple xs => map snd xs | _ => [r] end = [r]) by (destruct r; auto; exfalso; eapply Nt; eauto). rewrite Er in H. clear Er.
  rewrite doubled, split2_dbl in H. pose proof (split2_ne 37 115 raw) as Ne. pose proof (holes_split raw) as Hs. pose proof (split2_in 37 115 raw) as Si. pose proof (holes_found a b) as Hf. rewrite <- Eraw in Hf.
  destruct (split2 37 115 raw) as [|t ts] eqn:Sp; [congruence|]. cbn [map] in H. cbn in Hs. injection Hs as Hs.
  destruct ts as [|t1 [|t2 ts]]; [cbn in Hs; congruence| |cbn [map fill] in H; destruct (requote rs q r); discriminate].
  cbn [map fill] in H. destruct (requote rs q r) as [r'|] eqn:R; [|discriminate]. destruct (valid_fprefix _) eqn:V; [|discriminate]. injection H as <-.
  change (eval P rho (Modulo (SimpleString prefix q raw) r) s) with ((let* x := eval P rho (SimpleString prefix q raw) in let* y := eval P rho r in p_mod P x y) s).
  match goal with |- _ = eval P rho (FString ?p q ?ps) s => set (flag := is_raw p);
    change (eval P rho (FString p q ps) s) with ((let* l := mapM (part P rho flag) ps in ret (p_str P (concat l))) s) end.
  assert (Es : eval P rho (SimpleString prefix q raw) s = (Ok (p_str P raw), s)) by (cbn [eval]; rewrite B; unfold mbind; now rewrite (f_text _ _ _ FL _ raw s Nb)).
  rewrite (mbind_eq _ _ _ _ _ _ _ _ Es). unfold mbind at 2. rewrite mapM_app. unfold mbind at 2.
  destruct (text_eval P rho tup is_tuple FL flag t s) as (l & E & C); [intro I; apply Nb; eapply Si; [left; reflexivity|exact I]|]. rewrite E. cbn [mapM part]. unfold mbind.
  rewrite (requote_eval P rs q r r' QL R rho). destruct (eval P rho r s) as [[v|ex] s1] eqn:Ev; [|reflexivity]. rewrite (f_mod1 _ _ _ FL raw v s1 Os (Nv _ _ _ Ev)). unfold mbind.
  rewrite (percent_split P raw [v] t [t1] s1 Sp eq_refl). cbn [interleave]. unfold mbind. destruct (p_format P v s1) as [[x|ex] s2]; [|reflexivity]. rewrite app_nil_r.
  destruct (text_eval P rho tup is_tuple FL flag t1 s2) as (l1 & E1 & C1); [intro I; apply Nb; eapply Si; [right; left; reflexivity|exact I]|]. rewrite E1. unfold ret. rewrite concat_app. cbn [concat]. now rewrite C, C1.
Qed.

Definition sl (n : nat) : expr -> nat := fun _ => n.
Definition ss (t : string) : expr := SimpleString [] [39%N] (u t).
Definition yes (a b c d : str) : bool := true.
(** More expressions than placeholders: an error becomes a text. *)
Theorem C61_extra_refuted : ~ (forall P rho tup is_tuple e e', format_laws P tup is_tuple -> quote_laws P -> use_fstring (sl 0) yes e = Ok (Some (Some e')) -> same_meaning P rho e e').
Proof.
  intro H. specialize (H (toy some_globals) [] TTup _ (Modulo (ss "a %s") (Tuple [(false, Name (u "x")); (false, Name (u "y"))])) _ (toy_format _) (toy_quotes _) eq_refl []). vm_compute in H. discriminate.
Qed.
(** A value that is a tuple: its element is formatted by %, the tuple by the f-string. *)
Theorem C61_tuple_value_refuted : ~ (forall P rho tup is_tuple t r e', format_laws P tup is_tuple -> quote_laws P -> use_fstring (sl 0) yes (Modulo (ss t) r) = Ok (Some (Some e')) ->
  (forall es, r <> Tuple es) -> same_meaning P rho (Modulo (ss t) r) e').
Proof.
  intro H. specialize (H (toy (fun _ => Some (TTup [TInt 1]))) [] TTup _ "a %s"%string (Name (u "x")) _ (toy_format _) (toy_quotes _) eq_refl ltac:(discriminate) []). vm_compute in H. discriminate.
Qed.
(** A literal with the prefix u makes the rule fail. *)
Theorem C61_prefix_refuted : ~ (forall e, exists r, use_fstring (sl 0) yes e = Ok r).
Proof. intro H. destruct (H (Modulo (SimpleString (u "u") [39%N] (u "a %s")) (Name (u "x")))) as [r R]. vm_compute in R. discriminate. Qed.
(** ... and no other literal does, if there is no prefix but u, r and b. *)
Theorem C61_no_crash : forall code_length reads_same l r, (forall p q raw, l = SimpleString p q raw -> map ascii_lower p = [] \/ map ascii_lower p = u "r") ->
  exists x, use_fstring code_length reads_same (Modulo l r) = Ok x.
Proof.
  intros cl rs l r H. unfold use_fstring. destruct (simple_string l && simple_expression cl r).
  - destruct l as [| |p q raw| | | | | | | | | | | | | | | | | | |]; try (eexists; reflexivity). destruct (split2 _ _ _); [eexists; reflexivity|]. destruct (fill _ _ _ _); [|eexists; reflexivity].
    destruct (H p q raw eq_refl) as [E|E]; rewrite E; eexists; reflexivity.
  - destruct l; eexists; reflexivity.
Qed.
(** An expression that starts with a brace is put after the brace of the f-string: read again, the two
    braces are text. *)
Theorem C61_brace_refuted : ~ (forall e p q parts x, use_fstring (sl 0) yes e = Ok (Some (Some (FString p q parts))) -> List.In (inr x) parts -> opens_brace x = false).
Proof.
  intro H. specialize (H (Modulo (ss "a %s") (Dict [])) (u "f") [39%N] [inl (u "a "); inr (Dict [])] (Dict []) eq_refl ltac:(right; left; reflexivity)). discriminate.
Qed.
Theorem C61_once : forall code_length reads_same e e', use_fstring code_length reads_same e = Ok (Some (Some e')) -> use_fstring code_length reads_same e' = Ok None.
Proof.
  intros cl rs e e' H. destruct e as [| | | | | | |f args| | |l r| | | | | | | | | | |]; try discriminate.
  - unfold use_fstring in H. destruct f as [| | | | |f a| | | | | | | | | | | | | | | |]; try discriminate. destruct f; try discriminate. destruct (str_eqb a (u "format")); discriminate.
  - unfold use_fstring in H. destruct (simple_string l && simple_expression cl r).
    + destruct l as [| |p q raw| | | | | | | | | | | | | | | | | | |]; try discriminate. destruct (split2 _ _ _); [discriminate|]. destruct (fill _ _ _ _); [|discriminate]. destruct (valid_fprefix _); [|discriminate]. injection H as <-. reflexivity.
    + destruct l as [| |p q raw| | | | | | | | | | | | | | | | | | |]; try discriminate. destruct (is_bytes p); discriminate.
Qed.
Example C61_example : use_fstring (sl 0) yes (Modulo (ss "a{ %s, %s") (Tuple [(false, Name (u "x")); (false, SimpleString [] [39%N] (u "y"))])) =
    Ok (Some (Some (FString (u "f") [39%N] [inl (u "a{{ "); inr (Name (u "x")); inl (u ", "); inr (SimpleString [] [34%N] (u "y"))]))) /\
  holes (u "a{ %s, %s") = 2 /\ (forall s, eval (toy some_globals) [] (Name (u "x")) s = (Ok (TInt 2), s)) /\ (forall s, eval (toy some_globals) [] (ss "y") s = (Ok (TText (u "y")), s)).
Proof. split; [vm_compute; reflexivity|]. split; [reflexivity|]. split; reflexivity. Qed.
