(** * C70: UseClsInClassmethod; C71: AvoidOrInExcept, UseLintFixmeComment *)
From Coq Require Import String List NArith Bool Arith Lia.
From Verif Require Import Base PyStr Py Classes Scopes.
Import ListNotations.
Set Implicit Arguments.

(** ** Variables: which scope a name refers to *)

(** The scope of a name: the first from the inside that has it; scopes are numbered from the outside. None: unknown. *)
Fixpoint scope_of (scopes : list (list str)) (x : str) : option nat :=
  match scopes with
  | [] => None
  | s :: outer => if existsb (str_eqb x) s then Some (List.length outer) else scope_of outer x
  end.
Definition variable := (option nat * str)%type.
Definition variable_of (scopes : list (list str)) (x : str) : variable := (scope_of scopes x, x).

(** The variables of all names in the order of the text. *)
Fixpoint variables (scopes : list (list str)) (c : code) : list variable :=
  match c with
  | Ref x | Bind x | BindOther x => [variable_of scopes x]
  | Group cs => flat_map (variables scopes) cs
  | Nested ps nl b =>
      map (fun p => (Some (List.length scopes), p)) ps ++ map (variable_of scopes) nl ++ variables (locals ps nl b :: scopes) b
  end.
Definition fn_variables (outer : list (list str)) (f : function) : list variable :=
  map (fun p => (Some (List.length outer), p)) (all_params f) ++ variables (fn_locals f :: outer) (fn_body f).

(** A name that refers to something outside a piece of code *)
Inductive refers (x : str) : code -> Prop :=
| refers_ref : refers x (Ref x)
| refers_bind : refers x (Bind x)
| refers_group : forall c cs, In c cs -> refers x c -> refers x (Group cs)
| refers_nested : forall ps nl b, ~ In x (locals ps nl b) -> refers x b -> refers x (Nested ps nl b).

(** [x] is used where a nested function has its own [y]. *)
Inductive hidden (x y : str) : code -> Prop :=
| hidden_group : forall c cs, In c cs -> hidden x y c -> hidden x y (Group cs)
| hidden_here : forall ps nl b, ~ In x (locals ps nl b) -> In y (locals ps nl b) -> refers x b -> hidden x y (Nested ps nl b)
| hidden_below : forall ps nl b, ~ In x (locals ps nl b) -> hidden x y b -> hidden x y (Nested ps nl b).

(** [x] is bound by something else than a name, or declared nonlocal. *)
Inductive awkward (x : str) : code -> Prop :=
| awkward_other : awkward x (BindOther x)
| awkward_group : forall c cs, In c cs -> awkward x c -> awkward x (Group cs)
| awkward_nonlocal : forall ps nl b, In x nl -> awkward x (Nested ps nl b)
| awkward_nested : forall ps nl b, ~ In x (locals ps nl b) -> awkward x b -> awkward x (Nested ps nl b).

Section CodeInd.
  Variable P : code -> Prop.
  Hypothesis H1 : forall x, P (Ref x).
  Hypothesis H2 : forall x, P (Bind x).
  Hypothesis H3 : forall x, P (BindOther x).
  Hypothesis H4 : forall cs, Forall P cs -> P (Group cs).
  Hypothesis H5 : forall ps nl b, P b -> P (Nested ps nl b).
  Fixpoint code_induction (c : code) : P c :=
    match c with
    | Ref x => H1 x | Bind x => H2 x | BindOther x => H3 x
    | Group cs => H4 ((fix go l : Forall P l := match l with [] => Forall_nil P | c :: l' => Forall_cons c (code_induction c) (go l') end) cs)
    | Nested ps nl b => H5 ps nl (code_induction b)
    end.
End CodeInd.

Lemma mem_iff : forall x l, mem x l = true <-> In x l.
Proof.
  intros x l. unfold mem. rewrite existsb_exists. split.
  - intros (y & I & E). apply str_eqb_eq in E. now subst.
  - intro I. exists x. split; auto. apply str_eqb_refl.
Qed.
Lemma mem_false : forall x l, mem x l = false <-> ~ In x l.
Proof. intros x l. rewrite <- mem_iff. apply iff_sym, not_true_iff_false. Qed.
Lemma neq_eqb : forall a b, a <> b -> str_eqb a b = false.
Proof. intros a b N. apply not_true_iff_false. intro E. apply str_eqb_eq in E. contradiction. Qed.

Lemma scope_of_above : forall inner rest x, (exists s, In s inner /\ In x s) ->
  forall rest', List.length rest' = List.length rest -> scope_of (inner ++ rest) x = scope_of (inner ++ rest') x /\ exists n, scope_of (inner ++ rest) x = Some n /\ List.length rest <= n.
Proof.
  induction inner as [|s inner IH]; intros rest x (s0 & I & Ix) rest' L; [destruct I|]. cbn [app scope_of]. fold (mem x s). destruct (mem x s) eqn:M.
  - rewrite !app_length, L. split; auto. exists (List.length inner + List.length rest). split; auto. lia.
  - apply IH; auto. destruct I as [<-|I]; [exfalso; apply mem_false in M; contradiction|]. eauto.
Qed.
Lemma scope_of_skip : forall inner rest x, (forall s, In s inner -> ~ In x s) -> scope_of (inner ++ rest) x = scope_of rest x.
Proof.
  induction inner as [|s inner IH]; intros rest x N; [reflexivity|]. cbn [app scope_of]. fold (mem x s).
  rewrite (proj2 (mem_false x s)) by (apply N; simpl; auto). apply IH. intros; apply N; simpl; auto.
Qed.
Lemma above_dec : forall (inner : list (list str)) x, (exists s, In s inner /\ In x s) \/ (forall s, In s inner -> ~ In x s).
Proof.
  induction inner as [|s inner IH]; intro x; [right; intros ? []|]. destruct (mem x s) eqn:M.
  - apply mem_iff in M. left. exists s. simpl. auto.
  - apply mem_false in M. destruct (IH x) as [(t & I & J)|N]; [left; exists t; simpl; auto|]. right. intros t [<-|I]; auto.
Qed.

Section Rename.
  Variables (x y : str) (F F' : list str) (outer : list (list str)).
  Hypothesis Nxy : x <> y.
  Hypothesis HF : forall z, z <> x -> z <> y -> In z F <-> In z F'.
  Hypothesis Hx : In x F.
  Hypothesis Hy : In y F'.
  Hypothesis Ny : scope_of (F :: outer) y = None.
  Let L := List.length outer.
  Let move (v : variable) : variable := match v with (Some n, z) => if Nat.eqb n L && str_eqb z x then (Some n, y) else v | _ => v end.

  Lemma move_at : move (Some L, x) = (Some L, y).
  Proof. unfold move. now rewrite Nat.eqb_refl, str_eqb_refl. Qed.
  Lemma move_not : forall n z, n <> Some L \/ z <> x -> move (n, z) = (n, z).
  Proof.
    intros [n|] z H; [|reflexivity]. unfold move. destruct (Nat.eqb_spec n L); cbn [andb]; auto. destruct (str_eqb z x) eqn:E; auto.
    apply str_eqb_eq in E. subst. destruct H; congruence.
  Qed.

  Lemma other_name : forall inner z, z <> x -> z <> y -> scope_of (inner ++ F :: outer) z = scope_of (inner ++ F' :: outer) z.
  Proof.
    intros inner z N1 N2. destruct (above_dec inner z) as [A|A].
    - apply (@scope_of_above inner (F :: outer) z A). reflexivity.
    - rewrite !scope_of_skip by exact A. cbn [scope_of]. fold (mem z F) (mem z F'). pose proof (HF N1 N2) as E. rewrite <- !mem_iff in E.
      destruct (mem z F), (mem z F'); intuition congruence.
  Qed.

  (** A name that is not changed because it is not the variable *)
  Lemma unchanged_name : forall inner z, (exists s, In s inner /\ In x s) -> variable_of (inner ++ F :: outer) z <> (None, y) ->
    variable_of (inner ++ F' :: outer) z = move (variable_of (inner ++ F :: outer) z).
  Proof.
    intros inner z A N. unfold variable_of in *. destruct (str_eqb z x) eqn:E1.
    - apply str_eqb_eq in E1. subst z. destruct (@scope_of_above inner (F :: outer) _ A (F' :: outer) eq_refl) as (E & n & En & Ln). rewrite <- E, En.
      rewrite move_not; auto. left. cbn [List.length] in Ln. intro K. injection K as K. unfold L in K. lia.
    - assert (Nz : z <> x) by (intros ->; rewrite str_eqb_refl in E1; discriminate). rewrite move_not by auto.
      destruct (str_eqb z y) eqn:E2.
      + apply str_eqb_eq in E2. subst z. destruct (above_dec inner y) as [B|B].
        * destruct (@scope_of_above inner (F :: outer) _ B (F' :: outer) eq_refl) as (E & _). now rewrite E.
        * exfalso. apply N. rewrite scope_of_skip by exact B. now rewrite Ny.
      + assert (Ny' : z <> y) by (intros ->; rewrite str_eqb_refl in E2; discriminate). now rewrite other_name.
  Qed.

  Lemma unchanged_code : forall c inner, (exists s, In s inner /\ In x s) -> ~ In (None, y) (variables (inner ++ F :: outer) c) ->
    variables (inner ++ F' :: outer) c = map move (variables (inner ++ F :: outer) c).
  Proof.
    induction c as [z|z|z|cs IH|ps nl b IH] using code_induction; intros inner A N; cbn [variables map] in *.
    1-3: rewrite unchanged_name; auto; intro K; apply N; simpl; auto.
    - induction cs as [|c cs IHc]; [reflexivity|]. inversion IH as [|? ? I1 I2]; subst. cbn [flat_map] in *. rewrite map_app, I1, IHc; auto; intro K; apply N; apply in_or_app; auto.
    - rewrite !map_app. f_equal; [|f_equal].
      + rewrite map_map. assert (E : List.length (inner ++ F' :: outer) = List.length (inner ++ F :: outer)) by (rewrite !app_length; reflexivity). rewrite E.
        apply map_ext_in. intros p Ip. symmetry. apply move_not. left. intro K. injection K as K. destruct A as (s & I & _). rewrite app_length in K. unfold L in K. destruct inner; [destruct I|].
        cbn [List.length] in K. lia.
      + rewrite map_map. apply map_ext_in. intros z Iz. apply unchanged_name; auto. intro K. apply N. apply in_or_app. right. apply in_or_app. left. rewrite <- K. now apply in_map.
      + apply (IH (locals ps nl b :: inner)); [destruct A as (s & I & J); exists s; simpl; auto|]. intro K. apply N. apply in_or_app. right. apply in_or_app. right. exact K.
  Qed.

  (** Assignments after renaming *)
  Lemma assigned_same : forall c, ~ In x (assigned c) -> assigned (rename x y c) = assigned c.
  Proof.
    induction c as [z|z|z|cs IH|ps nl b IH] using code_induction; intro N; cbn [rename assigned] in *; auto.
    - destruct (str_eqb z x) eqn:E; auto. apply str_eqb_eq in E. exfalso. apply N. simpl. auto.
    - induction cs as [|c cs IHc]; [reflexivity|]. inversion IH as [|? ? I1 I2]; subst. cbn [map flat_map] in *. rewrite I1, IHc; auto; intro K; apply N; apply in_or_app; auto.
    - destruct (mem x (locals ps nl b)); reflexivity.
  Qed.

  Definition sub (z : str) : str := if str_eqb z x then y else z.
  Lemma assigned_moved : forall c, ~ awkward x c -> assigned (rename x y c) = map sub (assigned c).
  Proof.
    induction c as [z|z|z|cs IH|ps nl b IH] using code_induction; intro N; cbn [rename assigned map] in *; auto.
    - unfold sub. destruct (str_eqb z x) eqn:E; auto. apply str_eqb_eq in E. subst. exfalso. apply N. constructor.
    - induction cs as [|c cs IHc]; [reflexivity|]. inversion IH as [|? ? I1 I2]; subst. cbn [map flat_map] in *. rewrite map_app, I1, IHc; auto.
      + intro K. apply N. inversion K as [|c' cs' Ic Aw| |]; subst. apply awkward_group with (c := c'); simpl; auto.
      + intro K. apply N. apply awkward_group with (c := c); simpl; auto.
    - destruct (mem x (locals ps nl b)); reflexivity.
  Qed.

  Lemma name_moved : forall inner z, (forall s, In s inner -> ~ In x s) -> (z = x -> forall s, In s inner -> ~ In y s) ->
    variable_of (inner ++ F :: outer) z <> (None, y) ->
    variable_of (inner ++ F' :: outer) (sub z) = move (variable_of (inner ++ F :: outer) z).
  Proof.
    intros inner z A B N. unfold sub. destruct (str_eqb z x) eqn:E1.
    - apply str_eqb_eq in E1. subst z. specialize (B eq_refl). unfold variable_of. rewrite !scope_of_skip by auto. cbn [scope_of]. fold (mem x F) (mem y F').
      rewrite (proj2 (mem_iff x F) Hx), (proj2 (mem_iff y F') Hy). fold L. now rewrite move_at.
    - assert (Nz : z <> x) by (intros ->; rewrite str_eqb_refl in E1; discriminate). unfold variable_of in *. rewrite move_not by auto.
      destruct (str_eqb z y) eqn:E2.
      + apply str_eqb_eq in E2. subst z. destruct (above_dec inner y) as [C|C].
        * destruct (@scope_of_above inner (F :: outer) _ C (F' :: outer) eq_refl) as (E & _). now rewrite E.
        * exfalso. apply N. rewrite scope_of_skip by exact C. now rewrite Ny.
      + assert (Ny' : z <> y) by (intros ->; rewrite str_eqb_refl in E2; discriminate). now rewrite other_name.
  Qed.

  Lemma renamed_code : forall c inner, (forall s, In s inner -> ~ In x s) -> (refers x c -> forall s, In s inner -> ~ In y s) ->
    ~ hidden x y c -> ~ awkward x c -> ~ In (None, y) (variables (inner ++ F :: outer) c) ->
    variables (inner ++ F' :: outer) (rename x y c) = map move (variables (inner ++ F :: outer) c).
  Proof.
    induction c as [z|z|z|cs IH|ps nl b IH] using code_induction; intros inner A B Hh Ha N; cbn [variables map rename] in *.
    - fold (sub z). rewrite name_moved; auto; [|intro K; apply N; simpl; auto]. intros ->. apply B. constructor.
    - fold (sub z). rewrite name_moved; auto; [|intro K; apply N; simpl; auto]. intros ->. apply B. constructor.
    - assert (Nz : z <> x) by (intros ->; apply Ha; constructor). replace z with (sub z) at 1 by (unfold sub; now rewrite neq_eqb).
      rewrite name_moved; auto; intro K; first [contradiction|apply N; simpl; auto].
    - induction cs as [|c cs IHc]; [reflexivity|]. inversion IH as [|? ? I1 I2]; subst. cbn [map flat_map] in *. rewrite map_app, I1, IHc; auto.
      + intros R. apply B. inversion R as [| |c' cs' Ic R'|]; subst. apply refers_group with (c := c'); simpl; auto.
      + intro K. apply Hh. inversion K as [c' cs' Ic K'| |]; subst. apply hidden_group with (c := c'); simpl; auto.
      + intro K. apply Ha. inversion K as [|c' cs' Ic K'| |]; subst. apply awkward_group with (c := c'); simpl; auto.
      + intro K. apply N. apply in_or_app. auto.
      + intro R. apply B. apply refers_group with (c := c); simpl; auto.
      + intro K. apply Hh. apply hidden_group with (c := c); simpl; auto.
      + intro K. apply Ha. apply awkward_group with (c := c); simpl; auto.
      + intro K. apply N. apply in_or_app. auto.
    - assert (Nnl : ~ In x nl) by (intro K; apply Ha; now apply awkward_nonlocal).
      assert (El : List.length (inner ++ F' :: outer) = List.length (inner ++ F :: outer)) by (rewrite !app_length; reflexivity).
      assert (Ep : forall ps : list str, ~ In x ps \/ inner <> [] \/ True -> map (fun p => (Some (List.length (inner ++ F' :: outer)), p)) ps =
                   map move (map (fun p => (Some (List.length (inner ++ F :: outer)), p)) ps)).
      { intros qs _. rewrite map_map, El. apply map_ext_in. intros p Ip. symmetry. apply move_not. left. intro K. injection K as K.
        rewrite app_length in K. cbn [List.length] in K. unfold L in K. lia. }
      assert (En : map (variable_of (inner ++ F' :: outer)) nl = map move (map (variable_of (inner ++ F :: outer)) nl)).
      { rewrite map_map. apply map_ext_in. intros z Iz. assert (Nz : z <> x) by (intros ->; contradiction).
        replace z with (sub z) at 1 by (unfold sub; now rewrite neq_eqb). apply name_moved; auto; intro K; try contradiction. apply N. apply in_or_app. right. apply in_or_app. left. rewrite <- K. now apply in_map. }
      destruct (mem x (locals ps nl b)) eqn:M.
      + apply mem_iff in M. cbn [variables]. rewrite !map_app. f_equal; [apply Ep; auto|]. f_equal; [exact En|].
        apply (unchanged_code b (locals ps nl b :: inner)); [exists (locals ps nl b); simpl; auto|].
        intro K. apply N. apply in_or_app. right. apply in_or_app. right. exact K.
      + apply mem_false in M. cbn [variables]. rewrite !map_app. f_equal; [apply Ep; auto|]. f_equal; [exact En|].
        assert (Na : ~ In x (assigned b)).
        { intro K. apply M. unfold locals. apply filter_In. split; [apply in_or_app; auto|]. rewrite (proj2 (mem_false x nl)); auto. }
        assert (Es : locals ps nl (rename x y b) = locals ps nl b) by (unfold locals; now rewrite assigned_same). rewrite Es.
        apply (IH (locals ps nl b :: inner)).
        * intros s [<-|I]; auto.
        * intros R s [<-|I]; [intro K; apply Hh; now apply hidden_here|]. apply B; auto. now apply refers_nested.
        * intro K. apply Hh. now apply hidden_below.
        * intro K. apply Ha. now apply awkward_nested.
        * intro K. apply N. apply in_or_app. right. apply in_or_app. right. exact K.
  Qed.
End Rename.

(** ** The rule *)

(** A classmethod without ordinary parameters, or whose first one is not cls, is reported. *)
Theorem C70_reported : forall outer f,
  (use_cls outer f = None <-> fn_classmethod f = false \/ exists ps, fn_params f = u "cls" :: ps) /\
  (forall f', use_cls outer f = Some (Some f') -> fn_classmethod f' = true /\ (exists ps, fn_params f' = u "cls" :: ps) /\ forall outer', use_cls outer' f' = None).
Proof.
  intros outer f. unfold use_cls. destruct (fn_classmethod f); [|split; [tauto|discriminate]]. destruct (fn_params f) as [|p0 ps] eqn:P.
  - split; [split; [discriminate|intros [K|(ps & K)]; discriminate]|]. intros f' E. injection E as <-. cbn. split; auto. split; eauto.
  - destruct (str_eqb p0 cls) eqn:E.
    + apply str_eqb_eq in E. subst. split; [split; eauto|discriminate].
    + assert (N : ~ (false = true \/ exists ps0, p0 :: ps = u "cls" :: ps0)).
      { intros [K|(q & K)]; [discriminate|]. injection K as -> _. pose proof (str_eqb_refl cls) as Ec; unfold cls in *; congruence. }
      assert (N' : ~ (true = false \/ exists ps0, p0 :: ps = u "cls" :: ps0)) by (intros [K|K]; [discriminate|apply N; auto]).
      destruct (known _ _); (split; [split; [discriminate|contradiction]|]); [discriminate|]. intros f' Ef. injection Ef as <-. cbn [fn_classmethod fn_params]. split; auto. split; [eauto|].
      intro o'. now rewrite str_eqb_refl.
Qed.

(** A replacement is given unless cls is already known. *)
Theorem C70_no_fix : forall outer f, use_cls outer f = Some None <->
  fn_classmethod f = true /\ exists x ps, fn_params f = x :: ps /\ x <> u "cls" /\ exists s, In s (fn_locals f :: outer) /\ In (u "cls") s.
Proof.
  intros outer f. unfold use_cls. destruct (fn_classmethod f); [|split; [discriminate|intros [K _]; discriminate]]. destruct (fn_params f) as [|p0 ps] eqn:P.
  - split; [discriminate|]. intros (_ & x & ps & K & _). discriminate.
  - destruct (str_eqb p0 cls) eqn:E.
    + apply str_eqb_eq in E. subst. split; [discriminate|]. intros (_ & x & q & K & N & _). injection K as <- _. now contradiction N.
    + destruct (known (fn_locals f :: outer) cls) eqn:K.
      * split; auto. intros _. split; auto. exists p0, ps. split; auto. split; [intros ->; pose proof (str_eqb_refl cls) as Ec; unfold cls in *; congruence|].
        apply existsb_exists in K. destruct K as (s & I & M). apply mem_iff in M. eauto.
      * split; [discriminate|]. intros (_ & x & q & _ & _ & s & I & M). assert (X : known (fn_locals f :: outer) cls = true) by (apply existsb_exists; exists s; split; auto; now apply mem_iff). congruence.
Qed.

Lemma unknown_scope : forall scopes x, known scopes x = false -> scope_of scopes x = None.
Proof.
  induction scopes as [|s scopes IH]; intros x K; [reflexivity|]. unfold known in *. cbn [existsb scope_of] in *. apply orb_false_iff in K. destruct K as [K1 K2].
  unfold mem in K1. rewrite K1. auto.
Qed.

(** The variable of the name [x] in scope [n] is called cls. *)
Definition new_variable (n : nat) (x : str) (v : variable) : variable :=
  match v with
  | (Some k, z) => if Nat.eqb k n && str_eqb z x then (Some k, u "cls") else v
  | _ => v
  end.

(** Renaming the first parameter keeps what every name refers to: the variable of the first parameter has the new name,
    all others are the same, and no other variable had that name. Conditions: no name cls that refers to nothing, no
    nested function with its own cls that uses the parameter, no import, def, class or nonlocal of the parameter. *)
Theorem C70_rename : forall outer f f' x ps,
  use_cls outer f = Some (Some f') -> fn_params f = x :: ps -> NoDup (all_params f) ->
  ~ In (None, u "cls") (fn_variables outer f) -> ~ hidden x (u "cls") (fn_body f) -> ~ awkward x (fn_body f) ->
  fn_variables outer f' =
    map (new_variable (List.length outer) x) (fn_variables outer f) /\
  ~ In (Some (List.length outer), u "cls") (fn_variables outer f).
Proof.
  intros outer f f' x ps E P Nd N Hh Ha. unfold use_cls in E. destruct (fn_classmethod f); [|discriminate]. rewrite P in E.
  destruct (str_eqb x cls) eqn:Ex; [discriminate|]. destruct (known (fn_locals f :: outer) cls) eqn:K; [discriminate|]. injection E as <-.
  assert (Nxy : x <> cls) by (intros ->; rewrite str_eqb_refl in Ex; discriminate).
  pose proof (unknown_scope _ _ K) as Ny. set (f' := Function true (fn_posonly f) (cls :: ps) (fn_rest f) (rename x cls (fn_body f))).
  assert (Ncls : ~ In cls (fn_locals f)).
  { intro I. unfold known in K. cbn [existsb] in K. apply orb_false_iff in K. destruct K as [K _]. apply mem_false in K. contradiction. }
  assert (Hx : In x (fn_locals f)) by (unfold fn_locals, all_params; rewrite P; apply in_or_app; left; apply in_or_app; right; simpl; auto).
  assert (Hy : In cls (fn_locals f')) by (unfold fn_locals, all_params; cbn [fn_posonly fn_params fn_rest f']; apply in_or_app; left; apply in_or_app; right; simpl; auto).
  assert (HF : forall z, z <> x -> z <> cls -> In z (fn_locals f) <-> In z (fn_locals f')).
  { intros z N1 N2. unfold fn_locals, all_params. rewrite P. cbn [fn_posonly fn_params fn_rest fn_body f']. rewrite assigned_moved by exact Ha.
    rewrite !in_app_iff. cbn [List.In]. rewrite in_map_iff.
    assert (Q : (exists w, sub x cls w = z /\ In w (assigned (fn_body f))) <-> In z (assigned (fn_body f))).
    { split.
      - intros (w & Ew & I). unfold sub in Ew. destruct (str_eqb w x); [congruence|]. now subst.
      - intro I. exists z. split; auto. unfold sub. now rewrite neq_eqb. }
    rewrite Q. intuition congruence. }
  split.
  - unfold fn_variables. rewrite map_app. f_equal.
    + unfold all_params in *. rewrite P in *. cbn [fn_posonly fn_params fn_rest f']. rewrite !map_app. cbn [map app].
      assert (Z : forall l, ~ In x l -> map (new_variable (List.length outer) x) (map (fun p => (Some (List.length outer), p)) l) = map (fun p => (Some (List.length outer), p)) l).
      { intros l Nl. rewrite map_map. apply map_ext_in. intros p Ip. assert (p <> x) by (intros ->; contradiction). unfold new_variable. rewrite neq_eqb by auto. now rewrite andb_false_r. }
      assert (N1 : ~ In x (fn_posonly f) /\ ~ In x ps /\ ~ In x (fn_rest f)).
      { apply NoDup_remove_2 in Nd. rewrite !in_app_iff in Nd. tauto. }
      destruct N1 as (N1 & N2 & N3). unfold variable in *. rewrite (Z _ N1), (Z _ N2), (Z _ N3). unfold new_variable. rewrite Nat.eqb_refl, str_eqb_refl. reflexivity.
    + assert (R := @renamed_code x cls (fn_locals f) (fn_locals f') outer HF Hx Hy Ny (fn_body f) []). cbn [app fn_body f'] in *.
      apply R; auto; [intro I; apply N; unfold fn_variables; apply in_or_app; auto].
  - intro I. unfold fn_variables in I. apply in_app_or in I. destruct I as [I|I].
    + apply in_map_iff in I. destruct I as (p & E & I). injection E as ->. apply Ncls. unfold fn_locals. apply in_or_app. auto.
    + assert (G : forall c inner, ~ In (Some (List.length outer), cls) (variables (inner ++ fn_locals f :: outer) c)).
      { assert (V : forall inner z, variable_of (inner ++ fn_locals f :: outer) z <> (Some (List.length outer), cls)).
        { intros inner z Q. unfold variable_of in Q. injection Q as Q ->. destruct (above_dec inner cls) as [A|A].
          - destruct (@scope_of_above inner (fn_locals f :: outer) _ A (fn_locals f :: outer) eq_refl) as (_ & n & En & Ln). rewrite En in Q. injection Q as ->. cbn [List.length] in Ln. lia.
          - rewrite scope_of_skip in Q by exact A. rewrite Ny in Q. discriminate. }
        induction c as [z|z|z|cs IH|qs nl b IH] using code_induction; intros inner J; cbn [variables] in J.
        1-3: destruct J as [J|[]]; exact (V _ _ J).
        - apply in_flat_map in J. destruct J as (c & Ic & J). rewrite Forall_forall in IH. exact (IH c Ic inner J).
        - apply in_app_or in J. destruct J as [J|J].
          + apply in_map_iff in J. destruct J as (p & E & _). injection E as E _. rewrite app_length in E. cbn [List.length] in E. lia.
          + apply in_app_or in J. destruct J as [J|J]; [apply in_map_iff in J; destruct J as (p & E & _); exact (V _ _ E)|].
            exact (IH (locals qs nl b :: inner) J). }
      exact (G (fn_body f) [] I).
Qed.

(** ** What goes wrong *)
Definition method (params : list str) (body : code) : function := Function true [] params [] body.
Definition renames (outer : list (list str)) (f f' : function) (x : str) : Prop :=
  fn_variables outer f' =
    map (new_variable (List.length outer) x) (fn_variables outer f).

(** A nested function with a parameter cls captures the name. *)
Theorem C70_capture_refuted : ~ (forall outer f f' x ps, use_cls outer f = Some (Some f') -> fn_params f = x :: ps -> NoDup (all_params f) ->
  ~ In (None, u "cls") (fn_variables outer f) -> ~ awkward x (fn_body f) -> renames outer f f' x).
Proof.
  intro H. set (b := Nested [u "cls"] [] (Group [Ref (u "a"); Ref (u "cls")])).
  specialize (H [] (method [u "a"] b) _ (u "a") [] eq_refl eq_refl). unfold renames in H. cbv zeta in H. 
  assert (X := H ltac:(repeat constructor; intros []) ltac:(vm_compute; intuition discriminate) ltac:(intro A; inversion A as [| |? ? ? I|? ? ? I A']; subst; [destruct I|inversion A' as [|? ? I2 A2| |]; subst; destruct I2 as [<-|[<-|[]]]; inversion A2])).
  vm_compute in X. discriminate.
Qed.
(** An import of the same name is not renamed. *)
Theorem C70_import_refuted : ~ (forall outer f f' x ps, use_cls outer f = Some (Some f') -> fn_params f = x :: ps -> NoDup (all_params f) ->
  ~ In (None, u "cls") (fn_variables outer f) -> ~ hidden x (u "cls") (fn_body f) -> renames outer f f' x).
Proof.
  intro H. set (b := Group [BindOther (u "a"); Ref (u "a")]).
  specialize (H [] (method [u "a"] b) _ (u "a") [] eq_refl eq_refl).
  assert (X := H ltac:(repeat constructor; intros []) ltac:(vm_compute; intuition discriminate) ltac:(intro A; inversion A as [? ? I A'| |]; subst; destruct I as [<-|[<-|[]]]; inversion A')).
  vm_compute in X. discriminate.
Qed.
(** Positional-only parameters are overlooked: a second parameter cls is added, ... *)
Theorem C70_posonly_refuted : ~ (forall outer f f', use_cls outer f = Some (Some f') -> NoDup (all_params f) -> NoDup (all_params f')).
Proof.
  intro H. set (f := Function true [u "cls"] [] [] (Group [])). specialize (H [] f (Function true [u "cls"] [u "cls"] [] (Group [])) eq_refl).
  assert (Nd : NoDup (all_params f)) by (repeat constructor; intros []). apply H in Nd. vm_compute in Nd. inversion Nd as [|? ? N1 _]. apply N1. simpl. auto.
Qed.
(** ... or one that is not the first is renamed. *)
Theorem C70_first_refuted : ~ (forall outer f f', use_cls outer f = Some (Some f') -> exists ps, all_params f' = u "cls" :: ps).
Proof.
  intro H. destruct (H [] (Function true [u "a"] [u "b"] [] (Group [])) _ eq_refl) as (ps & E). vm_compute in E. discriminate.
Qed.
(** Without positional-only parameters it is. *)
Theorem C70_first : forall outer f f', use_cls outer f = Some (Some f') -> fn_posonly f = [] -> exists ps, all_params f' = u "cls" :: ps.
Proof.
  intros outer f f' E P. unfold use_cls in E. destruct (fn_classmethod f); [|discriminate]. destruct (fn_params f) as [|p0 ps].
  - injection E as <-. unfold all_params. cbn. rewrite P. eexists. reflexivity.
  - destruct (str_eqb p0 cls); [discriminate|]. destruct (known _ _); [discriminate|]. injection E as <-. unfold all_params. cbn. rewrite P. eexists. reflexivity.
Qed.

(** A nonlocal declaration keeps the old name. *)
Theorem C70_nonlocal_refuted : ~ (forall outer f f' x ps, use_cls outer f = Some (Some f') -> fn_params f = x :: ps -> NoDup (all_params f) ->
  ~ In (None, u "cls") (fn_variables outer f) -> ~ hidden x (u "cls") (fn_body f) -> ~ In (None, x) (fn_variables outer f) -> ~ In (None, x) (fn_variables outer f')).
Proof.
  intro H. set (b := Nested [] [u "a"] (Bind (u "a"))).
  specialize (H [] (method [u "a"] b) (method [u "cls"] (Nested [] [u "a"] (Bind (u "cls")))) (u "a") [] eq_refl eq_refl).
  assert (X := H ltac:(repeat constructor; intros []) ltac:(vm_compute; intuition discriminate) ltac:(intro A; inversion A as [|? ? ? N1 N2|? ? ? N1 N2]; subst; [destruct N2|inversion N2]) ltac:(vm_compute; intuition discriminate)).
  apply X. vm_compute. auto.
Qed.

Lemma not_hidden_group : forall x y cs, Forall (fun c => ~ hidden x y c) cs -> ~ hidden x y (Group cs).
Proof. intros x y cs F H. inversion H as [c cs' I Hc| |]. rewrite Forall_forall in F. exact (F c I Hc). Qed.
Lemma not_hidden_nested : forall x y ps nl b,
  In x (locals ps nl b) \/ (~ In y (locals ps nl b) /\ ~ hidden x y b) -> ~ hidden x y (Nested ps nl b).
Proof. intros x y ps nl b C H. inversion H; tauto. Qed.
Lemma not_awkward_group : forall x cs, Forall (fun c => ~ awkward x c) cs -> ~ awkward x (Group cs).
Proof. intros x cs F H. inversion H as [|c cs' I Hc| |]. rewrite Forall_forall in F. exact (F c I Hc). Qed.
Lemma not_awkward_nested : forall x ps nl b,
  ~ In x nl -> In x (locals ps nl b) \/ ~ awkward x b -> ~ awkward x (Nested ps nl b).
Proof. intros x ps nl b N C H. inversion H; tauto. Qed.

Definition ex_method : function :=
  method [u "a"; u "b"] (Group [Ref (u "a"); Bind (u "a"); Nested [u "a"] [] (Ref (u "a")); Nested [u "c"] [] (Group [Ref (u "a"); Ref (u "c")])]).
Example C70_example :
  use_cls [[u "K"]] ex_method =
    Some (Some (method [u "cls"; u "b"] (Group [Ref (u "cls"); Bind (u "cls"); Nested [u "a"] [] (Ref (u "a")); Nested [u "c"] [] (Group [Ref (u "cls"); Ref (u "c")])]))) /\
  NoDup (all_params ex_method) /\ ~ In (None, u "cls") (fn_variables [[u "K"]] ex_method) /\
  ~ hidden (u "a") (u "cls") (fn_body ex_method) /\ ~ awkward (u "a") (fn_body ex_method).
Proof.
  split; [vm_compute; reflexivity|]. split; [repeat constructor; vm_compute; intuition discriminate|]. split; [vm_compute; intuition discriminate|].
  split.
  - unfold ex_method, method, fn_body. apply not_hidden_group.
    constructor; [intro A; inversion A|]. constructor; [intro A; inversion A|].
    constructor; [apply not_hidden_nested; left; vm_compute; auto|].
    constructor; [|constructor]. apply not_hidden_nested. right. split; [vm_compute; intuition discriminate|].
    apply not_hidden_group. constructor; [intro A; inversion A|]. constructor; [intro A; inversion A|]. constructor.
  - unfold ex_method, method, fn_body. apply not_awkward_group.
    constructor; [intro A; inversion A|]. constructor; [intro A; inversion A|].
    constructor; [apply not_awkward_nested; [intros []|left; vm_compute; auto]|].
    constructor; [|constructor]. apply not_awkward_nested; [intros []|right].
    apply not_awkward_group. constructor; [intro A; inversion A|]. constructor; [intro A; inversion A|]. constructor.
Qed.

(** ** C71 *)
Theorem C71_or : forall handlers, or_in_except handlers = true <-> exists l r, handlers = [Some (BoolOp l Or r)].
Proof.
  intro hs. split.
  - destruct hs as [|[e|] [|]]; try discriminate; cbn; destruct e; try discriminate; destruct op; try discriminate. eauto.
  - intros (l & r & ->). reflexivity.
Qed.
(** Handlers of a try statement with several are overlooked. *)
Theorem C71_or_refuted : ~ (forall handlers, (exists l r, In (Some (BoolOp l Or r)) handlers) -> or_in_except handlers = true).
Proof.
  intro H. specialize (H [Some (BoolOp (Name (u "A")) Or (Name (u "B"))); None]). assert (X : false = true) by (apply H; exists (Name (u "A")), (Name (u "B")); simpl; auto). discriminate.
Qed.

(** Exactly the comments that begin with "# noqa" in any case are reported. *)
Definition in_any_case (s : str) (t : str) : Prop := Forall2 (fun a b => a = b \/ (65 <= a <= 90 /\ b = a + 32)%N) t s.
Theorem C71_noqa : forall text, noqa_comment text = true <-> exists begin rest, text = begin ++ rest /\ in_any_case (u "# noqa") begin.
Proof.
  intro text. unfold noqa_comment, in_any_case. rewrite str_eqb_eq. split.
  - intro E. exists (firstn 6 text), (skipn 6 text). split; [symmetry; apply firstn_skipn|]. rewrite <- E.
    clear. assert (L1 : forall a, (a = lower a \/ (65 <= a <= 90 /\ lower a = a + 32))%N).
    { intro a. unfold lower. destruct (N.leb 65 a) eqn:A, (N.leb a 90) eqn:B; cbn [andb]; auto. apply N.leb_le in A, B. right. auto. }
    induction (firstn 6 text) as [|a l IH]; cbn [map]; constructor; auto.
  - intros (begin & rest & -> & F). assert (Ln : List.length begin = 6) by (change 6 with (List.length (u "# noqa")); clear - F; induction F; simpl; congruence).
    rewrite <- Ln, firstn_app, firstn_all, Nat.sub_diag. cbn [firstn]. rewrite app_nil_r.
    assert (Hl : forall b, In b (u "# noqa") -> ~ (65 <= b <= 90)%N) by (intros b I; vm_compute in I; repeat (destruct I as [<-|I]; [lia|]); destruct I).
    clear - F Hl. induction F as [|a b l l' H F IH]; [reflexivity|]. cbn [map]. rewrite IH by (intros; apply Hl; simpl; auto). f_equal.
    specialize (Hl b (or_introl eq_refl)). unfold lower. destruct H as [->|[R ->]].
    + destruct (N.leb 65 b) eqn:A, (N.leb b 90) eqn:B; cbn [andb]; auto. apply N.leb_le in A, B. lia.
    + rewrite (proj2 (N.leb_le 65 a)), (proj2 (N.leb_le a 90)) by lia. reflexivity.
Qed.
Theorem C71_noqa_refuted : ~ (forall text, noqa_comment (u "#" ++ text) = noqa_comment (u "# " ++ text)).
Proof. intro H. specialize (H (u "noqa")). vm_compute in H. discriminate. Qed.
