(** * A small concrete machine, for examples and counterexamples. It satisfies the laws. *)
From Coq Require Import String List NArith ZArith Bool Arith Lia.
From Verif Require Import Base PyStr Py RulesSpec.
Import ListNotations.

Inductive tv :=
  | TBool (b : bool) | TNone | TInt (n : N) | TText (s : str) | TTup (l : list tv) | TLst (l : list tv) | TSet (l : list tv) | TDic (l : list (tv * tv))
  | TGen (g : gen tv (list N)) | TFun (name : str) | TCls (n : N) | TSelf | TLam (ps : list str).

(** the state is a log *)
Definition TM := M (list N).

Definition tsame (a b : tv) : bool :=
  match a, b with
  | TBool x, TBool y => Bool.eqb x y
  | TNone, TNone | TSelf, TSelf => true
  | TInt x, TInt y | TCls x, TCls y => (x =? y)%N
  | TText x, TText y | TFun x, TFun y => str_eqb x y
  | _, _ => false
  end.
(** 1 == True *)
Definition tequal (a b : tv) : bool :=
  match a, b with
  | TBool x, TInt n | TInt n, TBool x => (n =? if x then 1 else 0)%N
  | _, _ => tsame a b
  end.
Fixpoint tinst (v c : tv) : bool :=
  match c with
  | TCls n => match v with TInt m => (m =? n)%N | _ => false end
  | TTup cs => existsb (tinst v) cs
  | _ => false
  end.
Definition ttruth (v : tv) : bool :=
  match v with TBool b => b | TNone => false | TInt n => negb (n =? 0)%N | TText [] | TTup [] | TLst [] => false | _ => true end.
Definition tformat (v : tv) : str :=
  match v with TText t => t | TInt _ => u "#" | TTup _ => u "()" | _ => u "?" end.
Fixpoint tpercent (format : str) (vs : list tv) : res str :=
  match format with
  | [] => match vs with [] => Ok [] | _ => Err TypeError end
  | c :: r =>
      match r with
      | d :: format' =>
          if ((c =? 37) && (d =? 115))%N then
            match vs with
            | v :: vs' => let! ts := tpercent format' vs' in Ok (tformat v ++ ts)
            | [] => Err TypeError
            end
          else let! ts := tpercent r vs in Ok (c :: ts)
      | [] => match vs with [] => Ok [c] | _ => Err TypeError end
      end
  end.
Definition titer (v : tv) : TM (gen tv (list N)) :=
  match v with
  | TTup l | TLst l | TSet l => ret (of_list l)
  | TGen g => ret g
  | _ => throw TypeError
  end.
Fixpoint tsearch (stop : bool) (g : gen tv (list N)) : TM tv :=
  match g with
  | Gen n => fun s => match n s with
                      | (Ok (Some (a, g')), s') => (if Bool.eqb (ttruth a) stop then ret (TBool stop) else tsearch stop g') s'
                      | (Ok None, s') => (Ok (TBool (negb stop)), s')
                      | (Err e, s') => (Err e, s')
                      end
  end.
Definition tpair (v : tv) : option (tv * tv) := match v with TTup [a; b] | TLst [a; b] => Some (a, b) | _ => None end.
Fixpoint tpairs (l : list tv) : res (list (tv * tv)) :=
  match l with [] => Ok [] | v :: l' => match tpair v with Some p => let! ps := tpairs l' in Ok (p :: ps) | None => Err TypeError end end.
Definition tm (r : res tv) : TM tv := fun s => (r, s).
Definition check (b : bool) : TM tv := if b then ret TNone else throw AssertionError.
Definition tmember (a b : tv) : bool := match b with TTup l | TLst l | TSet l => existsb (tequal a) l | _ => false end.

Definition tcall (f : tv) (ps : list tv) (ks : list (str * tv)) : TM tv :=
  match f with
  | TFun n =>
      let is := fun x : string => str_eqb n (u x) in
      match ks with
      | _ :: _ => if is "dict"%string then ret (TDic (map (fun kv => (TText (fst kv), snd kv)) ks)) else throw TypeError
      | [] =>
          match ps with
          | [] => if is "list"%string then ret (TLst []) else if is "tuple"%string then ret (TTup []) else if is "set"%string then ret (TSet [])
                  else if is "dict"%string then ret (TDic []) else fun s => (Ok (TTup []), 1%N :: s)
          | [v] =>
              if is "list"%string then let* g := titer v in let* l := drain g in ret (TLst l)
              else if is "tuple"%string then let* g := titer v in let* l := drain g in ret (TTup l)
              else if is "set"%string then let* g := titer v in let* l := drain g in ret (TSet l)
              else if is "dict"%string then let* g := titer v in let* l := drain g in let* kvs := (fun s => (tpairs l, s)) in ret (TDic kvs)
              else if is "any"%string then let* g := titer v in tsearch true g
              else if is "all"%string then let* g := titer v in tsearch false g
              else if is "assertTrue"%string then check (ttruth v)
              else if is "assertFalse"%string then check (negb (ttruth v))
              else if is "assertIsNone"%string then check (tsame v TNone)
              else if is "assertIsNotNone"%string then check (negb (tsame v TNone))
              else if is "boom"%string then throw (OtherError 9)
              else fun s => (Ok (TTup [v]), 1%N :: s)
          | [v; w] =>
              if is "isinstance"%string then ret (TBool (tinst v w))
              else if is "assertTrue"%string then check (ttruth v)
              else if is "assertIn"%string then check (tmember v w)
              else if is "assertNotIn"%string then check (negb (tmember v w))
              else if is "assertEqual"%string then check (tequal v w)
              else fun s => (Ok (TTup [v; w]), 1%N :: s)
          | _ => fun s => (Ok (TTup ps), 1%N :: s)
          end
      end
  | _ => throw TypeError
  end.

Definition builtins : list string := ["list"; "tuple"; "set"; "dict"; "any"; "all"; "isinstance"; "boom"; "f"]%string.
(** deprecated names of methods stand for the new ones *)
Definition aliases : list (string * string) :=
  [("assertEquals", "assertEqual"); ("assertNotEquals", "assertNotEqual"); ("assertAlmostEquals", "assertAlmostEqual"); ("assertNotAlmostEquals", "assertNotAlmostEqual");
   ("assertRegexpMatches", "assertRegex"); ("assertNotRegexpMatches", "assertNotRegex"); ("assertRaisesRegexp", "assertRaisesRegex")]%string.
Definition canonical (a : str) : str := match find (fun p => str_eqb a (u (fst p))) aliases with Some (_, new) => u new | None => a end.
(** [globals]: what other names are *)
Definition toy (globals : str -> option tv) : py :=
  Py TBool TNone TText
     (fun n => if existsb (fun b => str_eqb n (u b)) builtins then ret (TFun n) else if str_eqb n (u "self") then ret TSelf
               else match globals n with Some v => ret v | None => throw KeyError end)
     (fun n => ret (TInt (match n with [c] => c - 48 | _ => 0 end)%N))
     (fun _ t => ret t) (fun _ _ => ret TNone) (fun a b => ret a) (fun v => ret (tformat v))
     (fun v a => match v with TSelf => ret (TFun (canonical a)) | _ => throw AttributeError end)
     (fun v _ => ret v) tcall (fun v => ret (ttruth v))
     (fun a b => match a with TText t => fun s => ((let! x := tpercent t (match b with TTup vs => vs | _ => [b] end) in Ok (TText x)), s) | _ => throw TypeError end)
     tsame
     (fun op a b => ret (TBool (match op with Equal => tequal a b | NotEqual => negb (tequal a b) | InOp => tmember a b | _ => false end)))
     (fun l => ret (TTup l)) (fun l => ret (TLst l)) (fun l => ret (TSet l)) (fun l => ret (TDic l))
     titer (fun _ => throw TypeError) (fun _ _ => throw TypeError) TGen (fun _ ps _ _ => TLam ps) (fun _ _ => ret TNone).

Section Laws.
  Context (globals : str -> option tv).
  Let P := toy globals.

  Lemma drain_of_list : forall (l : list tv) (s : list N), drain (of_list l) s = (Ok l, s).
  Proof. induction l as [|a l IH]; intro s; [reflexivity|]. cbn [of_list drain]. unfold mbind. rewrite IH. reflexivity. Qed.

  Lemma toy_bools : honest_bools P.
  Proof. intros b s. reflexivity. Qed.

  Lemma toy_isinstance : isinstance_laws P (TFun (u "isinstance")) tinst TTup.
  Proof. constructor; reflexivity. Qed.

  Lemma toy_test_case : test_case_laws P [] TSelf (fun n => TFun (u n)).
  Proof.
    constructor; try reflexivity. intros n s H. repeat (destruct H as [<-|H]; [vm_compute; reflexivity|]). destruct H.
  Qed.

  Lemma tpairs_of : forall kvs ps, Forall2 (fun (kv : tv * tv) p => p = TTup [fst kv; snd kv] \/ p = TLst [fst kv; snd kv]) kvs ps -> tpairs ps = Ok kvs.
  Proof. intros kvs ps F. induction F as [|[k v] p kvs ps H F IH]; [reflexivity|]. cbn [tpairs]. destruct H as [-> | ->]; cbn; now rewrite IH. Qed.

  Lemma toy_display : display_laws P [] TTup TLst (TFun (u "list")) (TFun (u "tuple")) (TFun (u "set")) (TFun (u "dict")).
  Proof.
    constructor; try (unfold builtin; reflexivity).
    - intros vs s. cbn. unfold mbind, ret. rewrite !drain_of_list. auto.
    - intros vs s. cbn. unfold mbind, ret. rewrite !drain_of_list. auto.
    - intros vs s. cbn. unfold mbind, ret. rewrite !drain_of_list. auto.
    - intros kvs ps s F. cbn. unfold mbind, ret. rewrite !drain_of_list, (tpairs_of _ _ F). auto.
  Qed.

  Lemma toy_generator : generator_laws P TTup TLst (TFun (u "list")) (TFun (u "set")) (TFun (u "dict")).
  Proof.
    constructor; try (unfold builtin; reflexivity). intros g s. change (gen tv (list N)) in (type of g). change (list N) in (type of s). cbn. unfold mbind, ret. destruct (drain g s) as [[l|e] s']; auto. now rewrite drain_of_list.
  Qed.

  Lemma toy_search : search_laws P [] TLst (TFun (u "any")) (TFun (u "all")).
  Proof.
    assert (K : forall stop g s, tsearch stop g s = search (P := P) stop g s).
    { intro stop. fix IH 1. intros [n] s. cbn. destruct (n s) as [[[[a g']|]|e] s']; auto. unfold mbind, ret. destruct (Bool.eqb (ttruth a) stop); auto. }
    constructor; try (unfold builtin; reflexivity).
    - intros v s. cbn. unfold mbind. destruct (titer v s) as [[g|e] s']; auto.
    - intros v s. cbn. unfold mbind. destruct (titer v s) as [[g|e] s']; auto.
  Qed.

  Lemma toy_percent : forall t vs s, percent P t vs s = (tpercent t vs, s).
  Proof.
    assert (K : forall n t vs s, List.length t <= n -> percent P t vs s = (tpercent t vs, s)).
    { induction n as [|n IH]; intros t vs s L.
      - destruct t; [|cbn in L; lia]. destruct vs; reflexivity.
      - destruct t as [|c [|d t]].
        + destruct vs; reflexivity.
        + destruct vs; reflexivity.
        + cbn in L.
          assert (E1 : percent P (c :: d :: t) vs s = (if ((c =? 37) && (d =? 115))%N then match vs with v :: vs' => let* t' := p_format P v in let* ts := percent P t vs' in ret (t' ++ ts) | [] => throw TypeError end
                         else let* ts := percent P (d :: t) vs in ret (c :: ts)) s) by reflexivity.
          assert (E2 : tpercent (c :: d :: t) vs = (if ((c =? 37) && (d =? 115))%N then match vs with v :: vs' => let! ts := tpercent t vs' in Ok (tformat v ++ ts) | [] => Err TypeError end
                         else let! ts := tpercent (d :: t) vs in Ok (c :: ts))) by reflexivity.
          rewrite E1, E2. clear E1 E2. destruct ((c =? 37) && (d =? 115))%N.
          * destruct vs as [|v vs]; [reflexivity|]. unfold mbind, ret. change (p_format P v s) with (@Ok str (tformat v), s). cbv beta iota. rewrite IH by lia. unfold bind. now destruct (tpercent t vs).
          * unfold mbind, ret. rewrite (IH (d :: t) vs s) by (cbn; lia). unfold bind. now destruct (tpercent (d :: t) vs). }
    intros. eapply K. eauto.
  Qed.

  Lemma toy_format : format_laws P TTup (fun v => exists l, v = TTup l).
  Proof.
    constructor; try (unfold builtin; reflexivity).
    - intros t vs s _. unfold mbind. rewrite toy_percent. cbn. now destruct (tpercent t vs).
    - intros t v s _ N. unfold mbind. rewrite toy_percent. cbn. destruct v; try (now destruct (tpercent t _)). exfalso. eauto.
  Qed.

  Lemma toy_lambda : lambda_law P.
  Proof. intros rho1 rho2 ps simple body _. reflexivity. Qed.
  Lemma toy_quotes : quote_laws P.
  Proof. split; reflexivity. Qed.
End Laws.
