(** * C67: NoNamedTuple and ExplicitFrozenDataclass *)
From Coq Require Import String List NArith Bool Arith Lia.
From Verif Require Import Base PyStr Py Classes ClassesSpec ClassesProps SortedProps.
Import ListNotations.
Set Implicit Arguments.

(** ** Named tuples *)

(** [dataclass(frozen=True)] *)
Definition frozen_dataclass : expr := Call (Name (u "dataclass")) [(NoStar, Some (u "frozen"), Name (u "True"))].

(** A class is reported exactly when a base is typing.NamedTuple; all other bases stay in their order, the decorator
    is added next to the class, everything else is kept. *)
Theorem C67_named : forall nt c,
  match no_named_tuple nt c with
  | None => forall a, In a (d_bases c) -> nt (a_value a) = false
  | Some new =>
      (exists a, In a (d_bases c) /\ nt (a_value a) = true) /\
      keeps (fun a => nt (a_value a) = false) (d_bases c) (d_bases new) /\
      d_decorators new = d_decorators c ++ [frozen_dataclass] /\
      d_name new = d_name c /\ d_keywords new = d_keywords c /\ d_body new = d_body c
  end.
Proof.
  intros nt c. unfold no_named_tuple. destruct (existsb _ _) eqn:E.
  - apply existsb_exists in E. destruct E as (a & I & E). split; [exists a; auto|]. repeat split.
    cbn [d_bases]. apply keeps_filter. intro x. rewrite negb_true_iff. reflexivity.
  - intros a I. apply not_true_iff_false. intro K. apply not_true_iff_false in E. apply E. apply existsb_exists. exists a. auto.
Qed.

Theorem C67_named_once : forall nt c new, no_named_tuple nt c = Some new -> no_named_tuple nt new = None.
Proof.
  intros nt c new H. generalize (C67_named nt c), (C67_named nt new). rewrite H. intros (_ & K & _) G.
  destruct (no_named_tuple nt new) as [n|]; auto. destruct G as ((a & I & E) & _). apply (keeps_in K) in I. destruct I as [_ I]. congruence.
Qed.

(** ** Frozen data classes *)
Definition names_frozen (a : arg) : Prop := snd (fst a) = Some (u "frozen").

Lemma has_frozen_iff : forall args, has_frozen args = true <-> exists a, In a args /\ names_frozen a.
Proof.
  intro args. unfold has_frozen, names_frozen. rewrite existsb_exists. split; intros (a & I & E); exists a; (split; [exact I|]).
  - destruct (snd (fst a)); [|discriminate]. apply str_eqb_eq in E. now subst.
  - rewrite E. apply str_eqb_refl.
Qed.

(** Exactly the dataclass decorators without the keyword frozen are reported, with or without a call; the keyword is
    added after all other arguments. *)
Theorem C67_frozen : forall dc d,
  match frozen_decorator dc d with
  | None => dc d = true -> exists f args, d = Call f args /\ exists a, In a args /\ names_frozen a
  | Some new =>
      dc d = true /\
      ((exists f args, d = Call f args /\ (forall a, In a args -> ~ names_frozen a) /\ new = Call f (args ++ [(NoStar, Some (u "frozen"), Name (u "True"))])) \/
       ((forall f args, d <> Call f args) /\ new = Call d [(NoStar, Some (u "frozen"), Name (u "True"))]))
  end.
Proof.
  intros dc d. unfold frozen_decorator. destruct (dc d) eqn:D; [|discriminate].
  assert (C : (exists f args, d = Call f args) \/ ((forall f args, d <> Call f args) /\ match d with Call f args => (f, args) | _ => (d, []) end = (d, []))).
  { destruct d; try (right; split; [intros; discriminate|reflexivity]). left. eauto. }
  destruct C as [(f & args & ->)|(N & ->)].
  - pose proof (has_frozen_iff args) as F. destruct (has_frozen args).
    + intros _. exists f, args. split; auto. now apply F.
    + split; [reflexivity|]. left. exists f, args. repeat split. intros a I K. assert (X : false = true) by (apply F; eauto). discriminate.
  - cbn [has_frozen existsb]. split; [reflexivity|]. right. split; auto.
Qed.

Theorem C67_frozen_once : forall dc d new, frozen_decorator dc d = Some new -> frozen_decorator dc new = None.
Proof.
  intros dc d new H. generalize (C67_frozen dc d), (C67_frozen dc new). rewrite H. intros (_ & K) G.
  destruct (frozen_decorator dc new) as [n|]; auto. exfalso. destruct G as (_ & [(f & args & E & Hn & _)|(Hn & _)]).
  - destruct K as [(f' & args' & _ & _ & ->)|(_ & ->)]; injection E as <- <-.
    + apply (Hn frozen_arg); [apply in_or_app; simpl; auto|reflexivity].
    + apply (Hn frozen_arg); [simpl; auto|reflexivity].
  - destruct K as [(f' & args' & _ & _ & ->)|(_ & ->)]; eapply Hn; reflexivity.
Qed.

(** The decorator that replaces a named tuple is not reported. *)
Theorem C67_together : forall nt dc c new, no_named_tuple nt c = Some new ->
  forall d, In d (d_decorators new) -> frozen_decorator dc d <> None -> In d (d_decorators c).
Proof.
  intros nt dc c new H d I N. generalize (C67_named nt c). rewrite H. intros (_ & _ & E & _). rewrite E in I. apply in_app_or in I.
  destruct I as [I|[<-|[]]]; auto. exfalso. apply N. unfold frozen_decorator, frozen_dataclass. destruct (dc _); reflexivity.
Qed.

(** The keywords a call passes; [spread e]: the items of the mapping [e]. A call with the same keyword twice fails. *)
Fixpoint keywords {V} (value : expr -> V) (spread : expr -> list (str * V)) (args : list arg) : list (str * V) :=
  match args with
  | [] => []
  | (_, Some k, e) :: args' => (k, value e) :: keywords value spread args'
  | (TwoStars, None, e) :: args' => spread e ++ keywords value spread args'
  | _ :: args' => keywords value spread args'
  end.
Definition passes {V} (value : expr -> V) (spread : expr -> list (str * V)) (d : expr) (kws : list (str * V)) : Prop :=
  kws = keywords value spread (match d with Call _ args => args | _ => [] end) /\ NoDup (map fst kws).

Lemma keywords_app : forall V (value : expr -> V) spread a b, keywords value spread (a ++ b) = keywords value spread a ++ keywords value spread b.
Proof.
  intros V value spread a b. induction a as [|[[s [k|]] e] a IH]; [reflexivity| |]; cbn [app keywords].
  - destruct s; rewrite IH; reflexivity.
  - destruct s; rewrite IH; auto. now rewrite app_assoc.
Qed.

(** The new decorator passes what the old one passed, then frozen=True; unless a mapping already had frozen. *)
Theorem C67_frozen_keywords : forall V (value : expr -> V) spread dc d new kws,
  frozen_decorator dc d = Some new -> passes value spread d kws -> ~ In (u "frozen") (map fst kws) ->
  passes value spread new (kws ++ [(u "frozen", value (Name (u "True")))]).
Proof.
  intros V value spread dc d new kws H (E & N) F. split.
  - generalize (C67_frozen dc d). rewrite H. intros (_ & [(f & args & -> & _ & ->)|(Hn & ->)]).
    + rewrite keywords_app, <- E. reflexivity.
    + assert (Z : kws = []) by (rewrite E; destruct d; try reflexivity; exfalso; eapply Hn; reflexivity). rewrite Z. reflexivity.
  - rewrite map_app. cbn [map fst]. clear - N F. induction (map fst kws) as [|x l IH]; cbn [app].
    + constructor; [intros []|constructor].
    + inversion N as [|? ? N1 N2]; subst. constructor; [|apply IH; auto; intro I; apply F; simpl; auto].
      intro I. apply in_app_or in I. destruct I as [I|[<-|[]]]; auto. apply F. simpl. auto.
Qed.

Theorem C67_frozen_refuted : ~ (forall (value : expr -> bool) spread dc d new kws,
  frozen_decorator dc d = Some new -> passes value spread d kws -> exists kws', passes value spread new kws').
Proof.
  intro H. set (d := Call (Name (u "dataclass")) [(TwoStars, None, Name (u "options"))]).
  destruct (H (fun _ => true) (fun _ => [(u "frozen", false)]) (fun _ => true) d _ [(u "frozen", false)] eq_refl) as (kws & E & N).
  - split; [reflexivity|]. repeat constructor. intros [].
  - rewrite E in N. vm_compute in N. inversion N as [|? ? N1 _]. apply N1. simpl. auto.
Qed.

Example C67_example :
  let nt := is_name (u "NamedTuple") in
  let c := ClassDef (u "A") [plain_arg (Name (u "NamedTuple")); plain_arg (Name (u "B"))] [] [Name (u "deco")] (Block []) in
  no_named_tuple nt c = Some (ClassDef (u "A") [plain_arg (Name (u "B"))] [] [Name (u "deco"); frozen_dataclass] (Block [])) /\
  frozen_decorator (fun _ => true) (Call (Name (u "dataclass")) [(NoStar, Some (u "order"), Name (u "True"))])
  = Some (Call (Name (u "dataclass")) [(NoStar, Some (u "order"), Name (u "True")); (NoStar, Some (u "frozen"), Name (u "True"))]).
Proof. split; vm_compute; reflexivity. Qed.

(** The name dataclass need not be known where the class stands. *)
Theorem C67_undefined_refuted : ~ (forall nt c new (known : str -> Prop),
  (forall d x, In d (d_decorators c) -> (d = Name x \/ exists args, d = Call (Name x) args) -> known x) ->
  no_named_tuple nt c = Some new ->
  (forall d x, In d (d_decorators new) -> (d = Name x \/ exists args, d = Call (Name x) args) -> known x)).
Proof.
  intro H.
  apply (H (fun _ => true) (ClassDef (u "A") [plain_arg (Name (u "NamedTuple"))] [] [] (Block []))
           (ClassDef (u "A") [] [] [frozen_dataclass] (Block [])) (fun _ => False)) with (d := frozen_dataclass) (x := u "dataclass").
  - intros d y [].
  - reflexivity.
  - simpl. auto.
  - right. eexists. reflexivity.
Qed.
