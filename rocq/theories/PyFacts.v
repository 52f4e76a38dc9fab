(** * Sanity of the semantics (Py.v): what Python programmers know about expressions

    [eval] is a specification: the theorems about fixes compare the meanings it gives. These lemmas say,
    in the words of the Python reference, that it is Python's. *)
From Coq Require Import String List NArith ZArith Bool Arith Lia.
From Verif Require Import Base PyStr Py RulesSpec PyToy.
Import ListNotations.

Section Facts.
  Context (P : py) (rho : scope P).
  Notation ev := (eval P rho).
  Definition means (e : expr) (s : state P) (v : value P) (s' : state P) : Prop := ev e s = (Ok v, s').
  Definition fails (e : expr) (s : state P) (x : exn) (s' : state P) : Prop := ev e s = (Err x, s').
  Definition true_in (v : value P) (s : state P) (b : bool) (s' : state P) : Prop := p_truth P v s = (Ok b, s').

  (** "x and y first evaluates x; if x is false, its value is returned; otherwise y is evaluated and the resulting value is returned." *)
  Lemma eval_and : forall x y s v s1 b s2, means x s v s1 -> true_in v s1 b s2 ->
    ev (BoolOp x And y) s = if b then ev y s2 else (Ok v, s2).
  Proof. intros x y s v s1 b s2 H T. cbn [eval]. unfold mbind. rewrite H, T. now destruct b. Qed.
  Lemma eval_or : forall x y s v s1 b s2, means x s v s1 -> true_in v s1 b s2 ->
    ev (BoolOp x Or y) s = if b then (Ok v, s2) else ev y s2.
  Proof. intros x y s v s1 b s2 H T. cbn [eval]. unfold mbind. rewrite H, T. now destruct b. Qed.
  (** "The operator not yields True if its argument is false, False otherwise." *)
  Lemma eval_not : forall x s v s1 b s2, means x s v s1 -> true_in v s1 b s2 -> means (Not x) s (p_bool P (negb b)) s2.
  Proof. intros x s v s1 b s2 H T. unfold means. cbn [eval]. unfold mbind, negate. unfold mbind. rewrite H, T. reflexivity. Qed.

  (** "x < y <= z is equivalent to x < y and y <= z, except that y is evaluated only once." *)
  Lemma eval_chain : forall x op1 y op2 z s v s1 w s2 c s3 b s4, means x s v s1 -> means y s1 w s2 -> compare P op1 v w s2 = (Ok c, s3) -> true_in c s3 b s4 ->
    ev (Compare x [(op1, y); (op2, z)]) s = if b then (let* t := ev z in compare P op2 w t) s4 else (Ok c, s4).
  Proof.
    intros x op1 y op2 z s v s1 w s2 c s3 b s4 Hx Hy Hc Ht. cbn [eval chain]. unfold mbind. rewrite Hx, Hy, Hc, Ht. destruct b; [|reflexivity]. destruct (ev z s4) as [[t|e] s5]; [|reflexivity]. destruct (compare P op2 w t s5) as [[r|e] s6]; reflexivity.
  Qed.
  (** is, is not, not in *)
  Lemma eval_is : forall x y s v s1 w s2, means x s v s1 -> means y s1 w s2 ->
    means (Compare x [(Is, y)]) s (p_bool P (p_same P v w)) s2 /\ means (Compare x [(IsNot, y)]) s (p_bool P (negb (p_same P v w))) s2.
  Proof. intros x y s v s1 w s2 Hx Hy. unfold means. cbn [eval chain]. unfold mbind. rewrite Hx, Hy. split; reflexivity. Qed.
  Lemma eval_not_in : forall x y s v s1 w s2 c s3 b s4, means x s v s1 -> means y s1 w s2 -> p_compare P InOp v w s2 = (Ok c, s3) -> true_in c s3 b s4 ->
    means (Compare x [(NotInOp, y)]) s (p_bool P (negb b)) s4.
  Proof. intros x y s v s1 w s2 c s3 b s4 Hx Hy Hc Ht. unfold means. cbn [eval chain compare]. unfold mbind, negate. unfold mbind. rewrite Hx, Hy, Hc, Ht. reflexivity. Qed.

  (** An exception in a part is one of the whole. *)
  Lemma eval_fails : forall x y s e s1, fails x s e s1 -> forall op args rest,
    fails (BoolOp x op y) s e s1 /\ fails (Not x) s e s1 /\ fails (Call x args) s e s1 /\ fails (Compare x rest) s e s1 /\ fails (Modulo x y) s e s1 /\ fails (Attribute x (u "a")) s e s1.
  Proof. intros x y s e s1 H op args rest. unfold fails in *. repeat split; cbn [eval]; unfold mbind; rewrite H; reflexivity. Qed.

  (** A call evaluates the function, then the arguments from left to right. *)
  Lemma eval_call : forall f a b s vf s1 va s2 vb s3, means f s vf s1 -> means a s1 va s2 -> means b s2 vb s3 ->
    ev (Call f [plain_arg a; plain_arg b]) s = p_call P vf [va; vb] [] s3 /\ forall k, ev (Call f [plain_arg a; (NoStar, Some k, b)]) s = p_call P vf [va] [(k, vb)] s3.
  Proof.
    intros f a b s vf s1 va s2 vb s3 Hf Ha Hb. split; [|intro k]; cbn [eval arguments]; unfold mbind, plain_arg; rewrite Hf; cbn [arguments]; unfold mbind; rewrite Ha; unfold mbind, ret; rewrite Hb; reflexivity.
  Qed.

  (** Names: parameters and comprehension variables hide others, the innermost first; None, True and False cannot be bound. *)
  Lemma eval_name : forall n v, keyword_value P n = None -> eval P ((n, v) :: rho) (Name n) = ret v.
  Proof. intros n v K. cbn [eval assoc]. now rewrite K, str_eqb_refl. Qed.
  Lemma eval_outer : forall n k v, str_eqb n k = false -> eval P ((k, v) :: rho) (Name n) = eval P rho (Name n).
  Proof. intros n k v E. cbn [eval assoc]. now rewrite E. Qed.
  Lemma eval_none : ev (Name (u "None")) = ret (p_none P) /\ ev (Name (u "True")) = ret (p_bool P true) /\ ev (Name (u "False")) = ret (p_bool P false).
  Proof. repeat split; reflexivity. Qed.
End Facts.

(** A comprehension: the elements for which the condition is true, in order. For a condition and an element without effects. *)
Section Comprehension.
  Context (P : py) (rho : scope P) (x : str) (elt cond it : expr) (f : value P -> value P) (keep : value P -> bool) (truth : value P -> value P).
  Context (Elt : forall v s, eval P ((x, v) :: rho) elt s = (Ok (f v), s)).
  Context (Cond : forall v s, eval P ((x, v) :: rho) cond s = (Ok (truth v), s)) (Truth : forall v s, p_truth P (truth v) s = (Ok (keep v), s)).

  Lemma gflat_list : forall vs (body : value P -> gen (value P) (state P)) s,
    (forall v s, next (body v) s = (Ok (if keep v then Some (f v, gnil) else None), s)) ->
    drain (gflat (of_list vs) body) s = (Ok (map f (filter keep vs)), s).
  Proof.
    induction vs as [|v vs IH]; intros body s B; [reflexivity|]. cbn [of_list gflat drain filter]. specialize (B v s) as Bv. destruct (body v) as [n] eqn:Eb. cbn [next gapp] in *. rewrite Bv. destruct (keep v).
    - cbn [gapp gnil]. unfold mbind. cbn [map]. destruct (gflat (of_list vs) body) as [n2] eqn:G. specialize (IH body s B). rewrite G in IH. cbn [drain next] in *. unfold mbind in IH.
      destruct (n2 s) as [[[[a g]|]|e] s']; [destruct (drain g s') as [[l|e] s''] eqn:D| |]; unfold mbind; rewrite ?D; try (injection IH as <- <-); try discriminate IH; reflexivity.
    - specialize (IH body s B). destruct (gflat (of_list vs) body) as [n2] eqn:G. cbn [drain next] in *. exact IH.
  Qed.

  Lemma eval_list_comp : forall vs v s, (forall s, eval P rho it s = (Ok v, s)) -> p_iter P v s = (Ok (of_list vs), s) ->
    eval P rho (ListComp elt [(Name x, it, [cond])]) s = p_list P (map f (filter keep vs)) s.
  Proof.
    intros vs v s Hit Hi. cbn [eval comp_start]. unfold mbind. rewrite Hit, Hi. cbn [ret]. rewrite (gflat_list vs).
    - reflexivity.
    - intros w s0. unfold body_of. cbn [glift next bind_target comp all_true app]. unfold mbind, ret. change ([(x, w)] ++ rho) with ((x, w) :: rho). rewrite Cond, Truth. destruct (keep w); [|reflexivity]. cbn [glift next]. unfold mbind. rewrite Elt. reflexivity.
  Qed.
End Comprehension.
