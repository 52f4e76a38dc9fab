(** * C68: DeprecatedABCImport *)
From Coq Require Import String List NArith Bool Arith Lia.
From Verif Require Import Base PyStr Py Classes ClassesSpec ClassesProps TreesFacts Imports.
Import ListNotations.
Set Implicit Arguments.

(** the abstract base classes of collections.abc, in the order of Python's documentation *)
Definition abc (x : str) : Prop := In x (map u
  ["Container"; "Hashable"; "Iterable"; "Iterator"; "Reversible"; "Generator"; "Sized"; "Callable"; "Collection"; "Sequence"; "MutableSequence";
   "ByteString"; "Set"; "MutableSet"; "Mapping"; "MutableMapping"; "MappingView"; "ItemsView"; "KeysView"; "ValuesView"; "Awaitable"; "Coroutine";
   "AsyncIterable"; "AsyncIterator"; "AsyncGenerator"; "Buffer"])%string.
Lemma in_abcs : forall x, In x abcs <-> abc x.
Proof.
  assert (K : forall l l' : list str, forallb (fun x => existsb (str_eqb x) l') l = true -> forall x, In x l -> In x l').
  { intros l l' H x I. rewrite forallb_forall in H. specialize (H _ I). apply existsb_exists in H. destruct H as (y & Iy & E). apply str_eqb_eq in E. now subst. }
  intro x. split; apply K; vm_compute; reflexivity.
Qed.
Lemma is_abc_iff : forall x, is_abc x = true <-> abc x.
Proof.
  intro x. rewrite <- in_abcs. unfold is_abc. rewrite existsb_exists. split.
  - intros (y & I & E). apply str_eqb_eq in E. now subst.
  - intro I. exists x. split; auto. apply str_eqb_refl.
Qed.
Lemma not_abc_iff : forall x, is_abc x = false <-> ~ abc x.
Proof. intro x. rewrite <- is_abc_iff. apply iff_sym, not_true_iff_false. Qed.

(** [from collections import ...] of the given names (with any dots, any aliases) *)
Definition imports_names (i : import_from) (names : list str) : Prop :=
  f_module i = Some [u "collections"] /\ exists l, f_names i = Some l /\ names = map al_name l.
(** ... only abstract base classes, at least one *)
Definition pure_import (i : import_from) : Prop := exists names, imports_names i names /\ names <> [] /\ forall x, In x names -> abc x.
(** ... both *)
Definition mixed_import (i : import_from) (names : list str) : Prop :=
  imports_names i names /\ (exists x, In x names /\ abc x) /\ (exists x, In x names /\ ~ abc x).

Lemma from_module_iff : forall m i, from_module m i = true <-> f_module i = Some m.
Proof.
  intros m i. unfold from_module. destruct (f_module i) as [l|]; [|split; discriminate].
  rewrite (list_eqb_spec str_eqb str_eqb_eq). split; congruence.
Qed.
Lemma same_names_iff : forall names i, same_names names i = true <-> imports_names i names.
Proof.
  intros names i. unfold same_names, imports_names. rewrite andb_true_iff, from_module_iff. unfold collections. split.
  - intros (-> & E). split; auto. destruct (f_names i) as [l|]; [|discriminate]. apply (list_eqb_spec str_eqb str_eqb_eq) in E. exists l. auto.
  - intros (-> & l & -> & ->). split; auto. now apply (list_eqb_spec str_eqb str_eqb_eq).
Qed.

Lemma visit_import_spec : forall s b i,
  (b = false /\ pure_import i /\ visit_import s (b, i) = (s, Some (From (f_dots i) (Some [u "collections"; u "abc"]) (f_names i)))) \/
  (b = false /\ (exists names, mixed_import i names /\ visit_import s (b, i) = (Some names, None)) /\ ~ pure_import i) \/
  ((b = true \/ forall names, ~ mixed_import i names) /\ (b = true \/ ~ pure_import i) /\ visit_import s (b, i) = (s, None)).
Proof.
  intros s b i. unfold visit_import. destruct b; [right; right; auto|].
  destruct (from_module collections i) eqn:M; cbn [andb].
  - apply from_module_iff in M. destruct (f_names i) as [l|] eqn:Nl.
    + assert (In_ : imports_names i (map al_name l)) by (split; eauto).
      assert (U : forall names, imports_names i names -> names = map al_name l) by (intros names (_ & l' & E & ->); congruence).
      unfold import_names. rewrite Nl. destruct (existsb is_abc (map al_name l)) eqn:X.
      * apply existsb_exists in X. destruct X as (x & I & A). apply is_abc_iff in A. destruct (forallb is_abc (map al_name l)) eqn:F; cbn [negb].
        -- left. split; [reflexivity|]. split; [|reflexivity]. exists (map al_name l). split; auto. split; [intro Z; rewrite Z in I; destruct I|].
           intros y Iy. apply is_abc_iff. rewrite forallb_forall in F. auto.
        -- right. left. split; [reflexivity|].
           assert (N : exists y, In y (map al_name l) /\ ~ abc y).
           { clear - F. induction (map al_name l) as [|y m IH]; [discriminate|]. cbn [forallb] in F. destruct (is_abc y) eqn:Y.
             - destruct (IH F) as (z & I & Z). exists z. simpl. auto.
             - exists y. simpl. split; auto. now apply not_abc_iff. }
           split; [exists (map al_name l); split; [split; eauto|reflexivity]|].
           intros (names & H & _ & A'). rewrite (U _ H) in A'. destruct N as (y & Iy & Ny). apply Ny, A', Iy.
      * right. right. assert (Z : forall x, In x (map al_name l) -> ~ abc x).
        { intros x I A. apply is_abc_iff in A. assert (E : existsb is_abc (map al_name l) = true) by (apply existsb_exists; eauto). congruence. }
        split; [right; intros names (H & (x & I & A) & _); rewrite (U _ H) in I; exact (Z x I A)|]. split; [|reflexivity].
        right. intros (names & H & Ne & A). rewrite (U _ H) in Ne, A. destruct (map al_name l) as [|x m]; [congruence|]. apply (Z x); [|apply A]; simpl; auto.
    + assert (U : forall names, ~ imports_names i names) by (intros names (_ & l' & E & _); congruence).
      unfold import_names. rewrite Nl. cbn [existsb]. right. right.
      split; [right; intros names (H & _); exact (U _ H)|]. split; [right; intros (names & H & _); exact (U _ H)|reflexivity].
  - assert (U : forall names, ~ imports_names i names) by (intros names (E & _); apply (proj2 (from_module_iff collections i)) in E; congruence).
    right. right. split; [right; intros names (H & _); exact (U _ H)|]. split; [right; intros (names & H & _); exact (U _ H)|reflexivity].
Qed.

Lemma visit_imports_spec : forall l s,
  (exists sel, keeps (fun bi : bool * import_from => fst bi = false /\ pure_import (snd bi)) l sel /\
     snd (visit_imports s l) = map (fun bi => (snd bi, From (f_dots (snd bi)) (Some [u "collections"; u "abc"]) (f_names (snd bi)))) sel) /\
  ((fst (visit_imports s l) = s /\ forall i names, In (false, i) l -> ~ mixed_import i names) \/
   (exists l1 i l2 names, l = l1 ++ (false, i) :: l2 /\ mixed_import i names /\ fst (visit_imports s l) = Some names /\
      forall j ns, In (false, j) l2 -> ~ mixed_import j ns)).
Proof.
  induction l as [|[b i] l IH]; intro s.
  - split; [exists []; split; constructor|]. left. split; [reflexivity|]. intros ? ? [].
  - cbn [visit_imports].
    destruct (visit_import_spec s b i) as [(-> & Pu & ->)|[(-> & (names & Mi & ->) & Np)|(Nm & Np & ->)]].
    + destruct (IH s) as ((sel & K & E) & R). destruct (visit_imports s l) as [s2 rs]. cbn [fst snd] in *. split.
      * exists ((false, i) :: sel). split; [constructor; auto|]. cbn [map snd]. now rewrite E.
      * assert (Nm : forall names, ~ mixed_import i names).
        { intros names ((M & l' & El & ->) & _ & x & I & Nx). destruct Pu as (ns & (_ & l'' & El' & ->) & _ & A). rewrite El in El'. injection El' as <-. apply Nx, A, I. }
        destruct R as [[-> R]|(l1 & j & l2 & ns & -> & Mj & Ej & R)]; [left|right].
        -- split; auto. intros j ns [Q|I]; [injection Q as <-; auto|eauto].
        -- exists ((false, i) :: l1), j, l2, ns. auto.
    + destruct (IH (Some names)) as ((sel & K & E) & R). destruct (visit_imports (Some names) l) as [s2 rs]. cbn [fst snd] in *. split.
      * exists sel. split; [|exact E]. apply keeps_not; auto. cbn [fst snd]. tauto.
      * right. destruct R as [[-> R]|(l1 & j & l2 & ns & -> & Mj & Ej & R)].
        -- exists [], i, l, names. auto.
        -- exists ((false, i) :: l1), j, l2, ns. auto.
    + destruct (IH s) as ((sel & K & E) & R). destruct (visit_imports s l) as [s2 rs]. cbn [fst snd] in *. split.
      * exists sel. split; [|exact E]. apply keeps_not; auto. cbn [fst snd]. intros [-> Q]. destruct Np as [Np|Np]; [discriminate|auto].
      * destruct R as [[-> R]|(l1 & j & l2 & ns & -> & Mj & Ej & R)]; [left|right].
        -- split; auto. intros j ns [Q|I]; [injection Q as -> ->; destruct Nm as [Nm|Nm]; [discriminate|auto]|eauto].
        -- exists ((b, i) :: l1), j, l2, ns. auto.
Qed.

(** Outside except blocks exactly the imports of only abstract base classes from collections are replaced, each by the
    same import from collections.abc. *)
Theorem C68_pure : forall body,
  exists sel, keeps (fun bi : bool * import_from => fst bi = false /\ pure_import (snd bi)) (flat_map imports_in body) sel /\
    fst (abc_imports body) = map (fun bi => (snd bi, From (f_dots (snd bi)) (Some [u "collections"; u "abc"]) (f_names (snd bi)))) sel.
Proof.
  intro body. unfold abc_imports. destruct (visit_imports_spec (flat_map imports_in body) None) as ((sel & K & E) & _).
  destruct (visit_imports None (flat_map imports_in body)) as [s rs]. exists sel. auto.
Qed.

(** A statement and what becomes of it *)
Definition import_line (m : list str) (names : list str) : statement := ImportLine (From 0 (Some m) (Some (map (fun x => Alias x None) names))).
Inductive splits (names : list str) : statement -> list statement -> Prop :=
| split_here : forall s b i plain moved, In (b, i) (imports_in s) -> imports_names i names ->
    keeps (fun x => ~ abc x) names plain -> keeps abc names moved ->
    splits names s [import_line [u "collections"] plain; import_line [u "collections"; u "abc"] moved]
| split_not : forall s, (forall b i, In (b, i) (imports_in s) -> ~ imports_names i names) -> splits names s [s].

Lemma split_parts : forall names body, exists parts, Forall2 (splits names) body parts /\ split_imports names body = concat parts.
Proof.
  intros names body. induction body as [|s body (parts & F & E)]; [exists []; split; constructor|].
  unfold split_imports in *. cbn [flat_map]. destruct (has_import names s) eqn:H.
  - eexists ([_; _] :: parts). split; [|cbn [concat]; rewrite <- E; reflexivity]. constructor; auto.
    apply existsb_exists in H. destruct H as ([b j] & I & S). apply same_names_iff in S. cbn [snd] in S.
    eapply split_here; eauto; apply keeps_filter; intros x _; [rewrite negb_true_iff; apply not_abc_iff|apply is_abc_iff].
  - exists ([s] :: parts). split; [|cbn [concat]; rewrite <- E; reflexivity]. constructor; auto. apply split_not.
    intros b j I K. apply same_names_iff in K. assert (X : has_import names s = true) by (apply existsb_exists; exists (b, j); auto). congruence.
Qed.

(** The module is reported exactly when there is a mixed import outside except blocks. The names are those of the last
    such import: every statement with an import of exactly these names is replaced by two. *)
Theorem C68_module : forall body,
  match snd (abc_imports body) with
  | None => forall i names, In (false, i) (flat_map imports_in body) -> ~ mixed_import i names
  | Some body' =>
      exists l1 i l2 names, flat_map imports_in body = l1 ++ (false, i) :: l2 /\ mixed_import i names /\
        (forall j ns, In (false, j) l2 -> ~ mixed_import j ns) /\
        exists parts, Forall2 (splits names) body parts /\ body' = concat parts
  end.
Proof.
  intro body. unfold abc_imports. destruct (visit_imports_spec (flat_map imports_in body) None) as (_ & R).
  destruct (visit_imports None (flat_map imports_in body)) as [s rs]. cbn [fst snd] in *.
  destruct R as [[-> R]|(l1 & i & l2 & names & E & Mi & -> & R)]; [exact R|]. exists l1, i, l2, names. repeat split; auto; try apply Mi. apply split_parts.
Qed.

(** ** What the imports bind *)
Definition origin := (nat * list str * str)%type.
Definition bound (a : alias) : str := match al_as a with Some y => y | None => al_name a end.
(** [bind i env env']: what the names of [env'] stand for after the import [i]. *)
Fixpoint bind_all (dots : nat) (m : list str) (l : list alias) (env : str -> option origin) : str -> option origin :=
  match l with
  | [] => env
  | a :: l' => bind_all dots m l' (fun x => if str_eqb x (bound a) then Some (dots, m, al_name a) else env x)
  end.
Definition run_import (i : import_from) (env : str -> option origin) : str -> option origin :=
  match f_module i, f_names i with Some m, Some l => bind_all (f_dots i) m l env | _, _ => env end.
Definition run_line (s : statement) (env : str -> option origin) : str -> option origin :=
  match s with ImportLine i => run_import i env | OtherStatement _ _ => env end.

(** The abstract base classes of collections live in collections.abc. *)
Definition moved (o : option origin) : option origin :=
  match o with
  | Some (0, [m], x) => if str_eqb m (u "collections") && is_abc x then Some (0, [u "collections"; u "abc"], x) else o
  | _ => o
  end.

Lemma bind_all_plain : forall dots m names env x,
  bind_all dots m (map (fun x => Alias x None) names) env x = if existsb (str_eqb x) names then Some (dots, m, x) else env x.
Proof.
  intros dots m names. induction names as [|y names IH]; intros env x; [reflexivity|]. cbn [map bind_all existsb]. rewrite IH. unfold bound. cbn [al_as al_name].
  destruct (existsb (str_eqb x) names); [now rewrite orb_true_r|]. rewrite orb_false_r. destruct (str_eqb x y) eqn:E; auto. apply str_eqb_eq in E. now subst.
Qed.
Lemma keeps_mem : forall (P : str -> Prop) l l' x, keeps P l l' -> existsb (str_eqb x) l' = true <-> existsb (str_eqb x) l = true /\ P x.
Proof.
  intros P l l' x K. induction K as [|y l l' Hy K IH|y l l' Hy K IH]; cbn [existsb].
  - split; [discriminate|intros [? _]; discriminate].
  - rewrite !orb_true_iff, IH, str_eqb_eq. intuition subst; auto.
  - rewrite orb_true_iff, IH, str_eqb_eq. intuition (subst; auto; try contradiction).
Qed.

(** The two imports bind the same names as the one they replace to the same objects, if it has no dots and no aliases. *)
Theorem C68_split_same : forall i names plain moved_names env x,
  imports_names i names -> f_dots i = 0 -> (forall l a, f_names i = Some l -> In a l -> al_as a = None) ->
  keeps (fun x => ~ abc x) names plain -> keeps abc names moved_names ->
  run_line (import_line [u "collections"; u "abc"] moved_names) (run_line (import_line [u "collections"] plain) env) x =
  if existsb (str_eqb x) names then moved (run_import i env x) else env x.
Proof.
  intros i names plain mv env x (M & l & El & ->) D A K1 K2. cbn [run_line import_line]. unfold run_import. cbn [f_module f_names f_dots]. rewrite M, El, D.
  rewrite !bind_all_plain. assert (L : l = map (fun x => Alias x None) (map al_name l)).
  { specialize (A l). clear - A El. rewrite map_map. specialize (A) . assert (A' : forall a, In a l -> al_as a = None) by (intros a I; apply A; auto).
    clear A El. induction l as [|[n o] l IH]; [reflexivity|]. cbn [map]. rewrite <- IH by (intros; apply A'; simpl; auto). f_equal.
    specialize (A' (Alias n o) (or_introl eq_refl)). cbn in *. now subst. }
  rewrite L. rewrite bind_all_plain. rewrite <- L. pose proof (keeps_mem x K1) as E1. pose proof (keeps_mem x K2) as E2.
  destruct (existsb (str_eqb x) (map al_name l)).
  - cbn [moved]. rewrite str_eqb_refl. cbn [andb]. destruct (is_abc x) eqn:Ax.
    + apply is_abc_iff in Ax. rewrite (proj2 E2); auto.
    + apply not_abc_iff in Ax. destruct (existsb (str_eqb x) mv); [exfalso; apply Ax; now apply E2|]. now rewrite (proj2 E1).
  - destruct (existsb (str_eqb x) mv); [exfalso; destruct (proj1 E2 eq_refl); discriminate|].
    destruct (existsb (str_eqb x) plain); [exfalso; destruct (proj1 E1 eq_refl); discriminate|reflexivity].
Qed.

(** The same for imports of only abstract base classes, with any aliases. *)
Lemma bind_all_pure : forall m l env env' x, (forall a, In a l -> abc (al_name a)) -> m = [u "collections"] ->
  (env' x = moved (env x) \/ (env' x = env x /\ In x (map bound l))) -> 
  bind_all 0 [u "collections"; u "abc"] l env' x = moved (bind_all 0 m l env x).
Proof.
  intros m l. induction l as [|a l IH]; intros env env' x A -> H; [cbn; destruct H as [H|[_ []]]; exact H|]. cbn [bind_all]. apply IH; auto; [intros; apply A; simpl; auto|].
  destruct (str_eqb x (bound a)) eqn:E.
  - left. cbn [moved]. rewrite str_eqb_refl. rewrite (proj2 (is_abc_iff _) (A a (or_introl eq_refl))). reflexivity.
  - destruct H as [H|[H I]]; auto. right. split; auto. cbn [map] in I. destruct I as [I|I]; auto. rewrite I, str_eqb_refl in E. discriminate.
Qed.
Lemma bind_all_other : forall dots m l env x, ~ In x (map bound l) -> bind_all dots m l env x = env x.
Proof.
  intros dots m l. induction l as [|a l IH]; intros env x N; [reflexivity|]. cbn [bind_all]. cbn [map] in N. rewrite IH by (intro I; apply N; simpl; auto).
  destruct (str_eqb x (bound a)) eqn:E; auto. exfalso. apply N. apply str_eqb_eq in E. simpl. auto.
Qed.
Theorem C68_pure_same : forall i l, pure_import i -> f_dots i = 0 -> f_names i = Some l -> forall env x,
  (In x (map bound l) -> run_import (From 0 (Some [u "collections"; u "abc"]) (Some l)) env x = moved (run_import i env x)) /\
  (~ In x (map bound l) -> run_import (From 0 (Some [u "collections"; u "abc"]) (Some l)) env x = run_import i env x).
Proof.
  intros i l (names & (M & l' & El & ->) & _ & A) D El' env x. rewrite El in El'. injection El' as ->. unfold run_import. cbn [f_module f_names f_dots]. rewrite M, El, D. split.
  - intro I. apply bind_all_pure; auto. intros a Ia. apply A. now apply in_map.
  - intro N. now rewrite !bind_all_other.
Qed.

(** ** What goes wrong *)
Definition al (s : string) : alias := Alias (u s) None.
Definition mixed_line : import_from := From 0 (Some [u "collections"]) (Some [al "OrderedDict"; al "Mapping"]).

Example C68_example :
  snd (abc_imports [OtherStatement 0 []; ImportLine mixed_line; OtherStatement 1 []]) =
  Some [OtherStatement 0 []; import_line [u "collections"] [u "OrderedDict"]; import_line [u "collections"; u "abc"] [u "Mapping"]; OtherStatement 1 []] /\
  fst (abc_imports [ImportLine (From 0 (Some [u "collections"]) (Some [Alias (u "Set") (Some (u "S"))]))])
  = [(From 0 (Some [u "collections"]) (Some [Alias (u "Set") (Some (u "S"))]), From 0 (Some [u "collections"; u "abc"]) (Some [Alias (u "Set") (Some (u "S"))]))].
Proof. split; vm_compute; reflexivity. Qed.

(** A function, a class, an if or a try statement with the import in it is replaced by the two imports as a whole. *)
Theorem C68_deleted_refuted : ~ (forall body body' id inside,
  snd (abc_imports body) = Some body' -> In (OtherStatement id inside) body -> exists inside', In (OtherStatement id inside') body').
Proof.
  intro H. destruct (H [OtherStatement 7 [(false, mixed_line)]] _ 7%N [(false, mixed_line)] eq_refl (or_introl eq_refl)) as (x & I).
  vm_compute in I. destruct I as [E|[E|[]]]; discriminate.
Qed.

(** Aliases are lost. *)
Theorem C68_alias_refuted : ~ (forall i s1 s2 env x,
  f_dots i = 0 -> snd (abc_imports [ImportLine i]) = Some [s1; s2] ->
  run_import i env x <> None -> run_line s2 (run_line s1 env) x <> None).
Proof.
  intro H.
  apply (H (From 0 (Some [u "collections"]) (Some [Alias (u "OrderedDict") (Some (u "OD")); al "Mapping"])) (import_line [u "collections"] [u "OrderedDict"]) (import_line [u "collections"; u "abc"] [u "Mapping"]) (fun _ => None) (u "OD")); vm_compute; try reflexivity; discriminate.
Qed.

(** [from .collections import Mapping] is not about the standard library. *)
Theorem C68_relative_refuted : ~ (forall i i', In (i, i') (fst (abc_imports [ImportLine i])) -> f_dots i = 0).
Proof.
  intro H. set (i := From 1 (Some [u "collections"]) (Some [al "Mapping"])). specialize (H i (From 1 (Some [u "collections"; u "abc"]) (Some [al "Mapping"]))).
  assert (E : f_dots i = 0) by (apply H; vm_compute; auto). discriminate.
Qed.

(** Of several mixed imports only those with the names of the last one are fixed. *)
Theorem C68_once_refuted : ~ (forall body body', snd (abc_imports body) = Some body' -> snd (abc_imports body') = None).
Proof.
  intro H. specialize (H [ImportLine mixed_line; ImportLine (From 0 (Some [u "collections"]) (Some [al "deque"; al "Set"]))] _ eq_refl). vm_compute in H. discriminate.
Qed.

(** ** Base classes *)
Inductive base_moved : arg -> arg -> Prop :=
| base_abc : forall a x, a_value a = Attribute (Name (u "collections")) x -> abc x ->
    base_moved a (plain_arg (Attribute (Attribute (Name (u "collections")) (u "abc")) x))
| base_other : forall a, (forall x, a_value a = Attribute (Name (u "collections")) x -> ~ abc x) -> base_moved a a.

Lemma abc_base_spec : forall a,
  match abc_base a with
  | Some a' => exists x, a_value a = Attribute (Name (u "collections")) x /\ abc x /\ a' = plain_arg (Attribute (Attribute (Name (u "collections")) (u "abc")) x)
  | None => forall x, a_value a = Attribute (Name (u "collections")) x -> ~ abc x
  end.
Proof.
  intro a. unfold abc_base. destruct (a_value a) as [| | | | |e x| | | | | | | | | | | | | | | | ] eqn:E; try (intros; discriminate).
  destruct e; try (intros; discriminate). destruct (str_eqb s (u "collections") && is_abc x) eqn:Q.
  - apply andb_true_iff in Q. destruct Q as [Q1 Q2]. apply str_eqb_eq in Q1. subst s. apply is_abc_iff in Q2. eauto.
  - intros y K A. assert (s = u "collections") by congruence. assert (x = y) by congruence. subst. rewrite str_eqb_refl in Q. apply is_abc_iff in A. rewrite A in Q. discriminate.
Qed.

(** One report for every base collections.X; each replaces all of them and keeps everything else. *)
Theorem C68_bases : forall c,
  exists bs n, abc_bases c = repeat (ClassDef (d_name c) bs (d_keywords c) (d_decorators c) (d_body c)) n /\
    Forall2 base_moved (d_bases c) bs /\
    exists sel, keeps (fun a => exists x, a_value a = Attribute (Name (u "collections")) x /\ abc x) (d_bases c) sel /\ List.length sel = n.
Proof.
  intro c. unfold abc_bases. set (bs := map _ (d_bases c)).
  exists bs. assert (G : forall l, exists n, flat_map (fun a => match abc_base a with Some _ => [with_bases c bs] | None => [] end) l = repeat (with_bases c bs) n /\
    exists sel, keeps (fun a => exists x, a_value a = Attribute (Name (u "collections")) x /\ abc x) l sel /\ List.length sel = n).
  { induction l as [|a l (n & E & sel & K & L)]; [exists 0; split; [reflexivity|]; exists []; split; [constructor|reflexivity]|].
    pose proof (abc_base_spec a) as Sp. cbn [flat_map]. rewrite E. destruct (abc_base a).
    - destruct Sp as (x & Ex & A & _). exists (S n). split; [reflexivity|]. exists (a :: sel). split; [apply keeps_one; eauto|simpl; congruence].
    - exists n. split; [reflexivity|]. exists sel. split; auto. apply keeps_not; auto. intros (x & Ex & A). exact (Sp x Ex A). }
  destruct (G (d_bases c)) as (n & E & K). exists n. split; [exact E|]. split; [|exact K].
  subst bs. clear. induction (d_bases c) as [|a l IH]; cbn [map]; constructor; auto.
  pose proof (abc_base_spec a) as Sp. destruct (abc_base a); [|now apply base_other]. destruct Sp as (x & Ex & A & ->). eapply base_abc; eauto.
Qed.

Theorem C68_bases_once : forall c new, In new (abc_bases c) -> abc_bases new = [].
Proof.
  intros c new I. destruct (C68_bases c) as (bs & n & E & F & _). rewrite E in I. apply repeat_spec in I. subst new.
  assert (Z : forall a, In a bs -> abc_base a = None).
  { intros a Ia. clear E. induction F as [|x y l l' M F IH]; [destruct Ia|]. destruct Ia as [<-|Ia]; auto. pose proof (abc_base_spec y) as Sp. destruct M as [a x Ea Ax|a N]; [reflexivity|].
    destruct (abc_base a); auto. destruct Sp as (x & Ex & Ax & _). exfalso. exact (N x Ex Ax). }
  unfold abc_bases. cbn [d_bases].
  assert (G : forall (f : arg -> list class_def) l, (forall a, In a l -> f a = []) -> flat_map f l = []).
  { intros f l. induction l as [|a l IH]; intro H; [reflexivity|]. cbn [flat_map]. rewrite H by (simpl; auto). apply IH. intros; apply H; simpl; auto. }
  apply G. intros a Ia. now rewrite (Z a Ia).
Qed.

(** ** import collections.X *)

(** The name that [import a.b.c] or [import a.b.c as x] binds, and the module it is bound to. *)
Definition import_binds (a : import_alias) (name : str) (to : list str) : Prop :=
  match ia_as a with Some y => name = y /\ to = ia_module a | None => exists rest, ia_module a = name :: rest /\ to = [name] end.

(** Reported are the imports of collections.X, X one of the classes; the new statement imports
    collections.abc.X. *)
Theorem C68_import : forall a a', abc_alias a = Some a' <->
  exists x, abc x /\ ia_module a = [u "collections"; x] /\ ia_module a' = [u "collections"; u "abc"; x] /\ ia_as a' = ia_as a.
Proof.
  intros [m y] [m' y']. unfold abc_alias. cbn [ia_module ia_as]. split.
  - destruct m as [|c [|x [|]]]; try discriminate. destruct (str_eqb c (u "collections") && is_abc x) eqn:Q; [|discriminate].
    apply andb_true_iff in Q. destruct Q as [Q1 Q2]. apply str_eqb_eq in Q1. subst c. apply is_abc_iff in Q2. intro H. injection H as <- <-. exists x. auto.
  - intros (x & A & -> & -> & ->). rewrite str_eqb_refl. apply is_abc_iff in A. now rewrite A.
Qed.

(** It binds the same name: to collections as before if there is no alias, else to the class's new place. A
    fixed import is not reported again. *)
Theorem C68_import_same : forall a a' name to, abc_alias a = Some a' -> import_binds a name to ->
  exists to', import_binds a' name to' /\
    (ia_as a = None -> to' = to) /\
    (forall y, ia_as a = Some y -> exists x, abc x /\ to = [u "collections"; x] /\ to' = [u "collections"; u "abc"; x]) /\
    abc_alias a' = None.
Proof.
  intros a a' name to H B. apply C68_import in H. destruct H as (x & A & M & M' & Y). unfold import_binds in *. rewrite Y.
  assert (N : abc_alias a' = None) by (unfold abc_alias; now rewrite M').
  destruct (ia_as a) as [y|].
  - destruct B as [-> ->]. exists (ia_module a'). split; auto. split; [discriminate|]. split; auto. intros z _. exists x. auto.
  - destruct B as (rest & E & ->). rewrite M in E. injection E as <- <-. exists [u "collections"]. split; [rewrite M'; eauto|]. split; auto. split; auto. intros y Q. discriminate.
Qed.
Example C68_example_import : let a := ImportAlias [u "collections"; u "Container"] (Some (u "cont")) in
  abc_alias a = Some (ImportAlias [u "collections"; u "abc"; u "Container"] (Some (u "cont"))) /\
  import_binds a (u "cont") [u "collections"; u "Container"].
Proof. split; [vm_compute; reflexivity|]. split; reflexivity. Qed.
