(** * C95: output templates *)
From Coq Require Import String List NArith ZArith Bool Arith Lia DecimalString.
From Verif Require Import Base PyStr Ftypes Paths Config Suppress Cst Engine Api ApiSpec ApiFacts ApiProps Cli CliSpec CliFacts CliProps Template.
Import ListNotations.
Local Open Scope N_scope.

(** ** Specification *)

(** [fills vars t out]: the template [t] stands for the text [out]: other characters stand for themselves, "{{" and "}}" for a brace, and
    "{x}" for the text of the variable [x]; "{x:}", "{x!s}" and "{x!s:}" mean the same. *)
Inductive fills (vars : list (str * str)) : str -> str -> Prop :=
| f_end : fills vars [] []
| f_char : forall c t out, c <> 123 -> c <> 125 -> fills vars t out -> fills vars (c :: t) (c :: out)
| f_open : forall t out, fills vars t out -> fills vars (u "{{" ++ t) (u "{" ++ out)
| f_close : forall t out, fills vars t out -> fills vars (u "}}" ++ t) (u "}" ++ out)
| f_var : forall x v tail t out, In (x, v) vars -> In tail [[]; u ":"; u "!s"; u "!s:"] -> fills vars t out ->
    fills vars (u "{" ++ x ++ tail ++ u "}" ++ t) (v ++ out).

(** The variables that print_result documents, with their texts; the sixth, [result], is an object of fixit's. *)
Definition texts (message path rule : str) (col ln : Z) : list (str * str) :=
  [(u "message", message); (u "path", path); (u "rule_name", rule); (u "start_col", dec col); (u "start_line", dec ln)].

(** ** The parser *)

Lemma scan_field : forall x tail t, In x [u "message"; u "path"; u "rule_name"; u "start_col"; u "start_line"] ->
  In tail [[]; u ":"; u "!s"; u "!s:"] ->
  exists k, In k [None; Some 115] /\ scan InText (u "{" ++ x ++ tail ++ u "}" ++ t) = Field x k [] :: scan InText t.
Proof.
  intros x tail t Hx Ht. exists (match tail with 33 :: _ => Some 115 | _ => None end).
  repeat (destruct Hx as [<-|Hx]); [..|destruct Hx]; (repeat (destruct Ht as [<-|Ht]); [..|destruct Ht]); (split; [simpl; auto|reflexivity]).
Qed.

Section Exact.
  Context (message path rule : str) (x : result) (col ln : Z).
  Notation vars P := (variables P message path x rule col ln).
  Notation tx := (texts message path rule col ln).

  Lemma vars_in : forall z v, In (z, v) tx -> In z [u "message"; u "path"; u "rule_name"; u "start_col"; u "start_line"].
  Proof. intros z v H. unfold texts in H. repeat (destruct H as [H|H]; [injection H as <- _; simpl; tauto|]). destruct H. Qed.

  Lemma field_filled : forall P z v k nested, In (z, v) tx -> In k [None; Some 115] ->
    fill_item P (vars P) nested (Field z k []) = Ok v.
  Proof.
    intros P z v k nested H Hk. unfold texts in H.
    repeat (destruct H as [H|H]; [injection H as <- <-; destruct Hk as [<-|[<-|[]]]; reflexivity|]). destruct H.
  Qed.

  Lemma fills_render : forall P nested t out, fills tx t out ->
    exists l, map_res (fill_item P (vars P) nested) (scan InText t) = Ok l /\ concat l = out.
  Proof.
    intros P nested t out H. induction H as [|c t out N1 N2 _ (l & E & C)|t out _ (l & E & C)|t out _ (l & E & C)|z v tail t out Hi Ht _ (l & E & C)].
    - exists []. auto.
    - exists ([c] :: l). cbn [scan step]. rewrite (proj2 (N.eqb_neq c lbrace) N1), (proj2 (N.eqb_neq c rbrace) N2). cbn [app map_res fill_item bind].
      rewrite E. cbn [bind concat app]. now rewrite C.
    - exists ([123] :: l). change (scan InText (u "{{" ++ t)) with (Text [123] :: scan InText t). cbn [map_res fill_item bind]. rewrite E. cbn [bind concat app]. rewrite C. auto.
    - exists ([125] :: l). change (scan InText (u "}}" ++ t)) with (Text [125] :: scan InText t). cbn [map_res fill_item bind]. rewrite E. cbn [bind concat app]. rewrite C. auto.
    - destruct (scan_field z tail t (vars_in _ _ Hi) Ht) as (k & Hk & ->). exists (v :: l). cbn [map_res].
      rewrite (field_filled P z v k nested Hi Hk). cbn [bind]. rewrite E. cbn [bind concat]. now rewrite C.
  Qed.

  (** Python of which nothing else works *)
  Definition nothing : python :=
    Python result (fun y => y) (fun _ _ => Err ImportError) (fun _ => Err ImportError) (fun _ => Err ImportError) (fun _ => Err ImportError) (fun _ _ => Err ImportError).

  Context (Hm : message <> []) (Hp : path <> []) (Hr : rule <> []).

  Lemma dec_nonempty : forall z, dec z <> [].
  Proof.
    intros z H. unfold dec in H. assert (K : forall s, u s = [] -> s = ""%string) by (intros [|? ?] X; [reflexivity|discriminate]). apply K in H. clear K.
    unfold NilZero.string_of_int in H. destruct (Z.to_int z) as [d|d]; [|discriminate]. destruct d; discriminate.
  Qed.

  Lemma texts_nonempty : forall z v, In (z, v) tx -> v <> [].
  Proof. intros z v H. unfold texts in H. repeat (destruct H as [H|H]; [injection H as _ <-; auto using dec_nonempty|]). destruct H. Qed.

  Lemma field_inv : forall n v, field_object nothing (vars nothing) n = Ok v ->
    exists z, (In (n, z) tx /\ forall k v', convert nothing k v = Ok v' -> In k [None; Some 115] /\ format_value nothing v' [] = Ok z) \/ v = VObject x.
  Proof.
    intros n v H. unfold field_object in H. destruct (split_name n) as [name rest] eqn:Es. destruct (is_number name); [discriminate|].
    destruct (find _ _) as [[z w]|] eqn:Ef; [|discriminate]. destruct rest as [|? ?]; [|discriminate]. injection H as ->.
    apply find_some in Ef. destruct Ef as [I E]. cbn [fst] in E. apply str_eqb_eq in E. subst z.
    assert (En : n = name).
    { clear - Es. revert name Es. induction n as [|c n IH]; intros name Es; cbn [split_name] in Es; [congruence|].
      destruct ((c =? dot) || (c =? lbracket)); [congruence|]. destruct (split_name n) as [a b]. injection Es as <- ->. now rewrite (IH a eq_refl) at 1. }
    subst name. clear Es.
    assert (Kc : forall k w v', convert nothing k w = Ok v' -> In k [None; Some 115] /\ (k = None -> v' = w)).
    { intros [k|] w v' E; [|injection E as ->; simpl; auto]. cbn [convert] in E. destruct (N.eqb_spec k 115) as [->|]; [simpl; split; [auto|discriminate]|].
      destruct (k =? 114); [discriminate|]. destruct (k =? 97); discriminate. }
    unfold variables in I.
    repeat (destruct I as [I|I]; [injection I as <- <-|]); try destruct I;
      try (exists []; right; reflexivity).
    all: eexists; left; split; [unfold texts; simpl; auto 10|].
    all: intros k v' E; destruct (Kc _ _ _ E) as [I K]; split; [exact I|]; destruct I as [<-|[<-|[]]]; [rewrite (K eq_refl); reflexivity|injection E as <-; reflexivity].
  Qed.

  (** With nothing else working, what is filled is one of the fields of [fills]; no text is empty. *)
  Lemma item_inv : forall nested n k spec out, (forall s o, nested s = Ok o -> o = [] -> existsb (N.eqb lbrace) s = false) ->
    fill_item nothing (vars nothing) nested (Field n k spec) = Ok out -> In (n, out) tx /\ In k [None; Some 115] /\ spec = [].
  Proof.
    intros nested n k spec out Hn H. cbn [fill_item] in H. apply bind_ok in H. destruct H as (v & Ev & H). apply bind_ok in H. destruct H as (v' & Ec & H).
    apply bind_ok in H. destruct H as (sp & Es & H).
    assert (Hs : sp = [] /\ spec = []).
    { assert (A : sp = []). { destruct sp; [reflexivity|]. cbn in H. discriminate. } split; [exact A|]. subst sp.
      destruct (existsb (N.eqb lbrace) spec) eqn:Eb; [|congruence]. rewrite (Hn _ _ Es eq_refl) in Eb. discriminate. }
    destruct Hs as [-> ->]. apply field_inv in Ev. destruct Ev as (z & [(I & K)| ->]).
    - destruct (K _ _ Ec) as [K1 K2]. rewrite K2 in H. injection H as <-. auto.
    - destruct k as [k|].
      + cbn [convert] in Ec. destruct (k =? 115); [discriminate|]. destruct (k =? 114); [discriminate|]. destruct (k =? 97); discriminate.
      + injection Ec as <-. discriminate.
  Qed.

  (** The text that the parser has read in each mode since the last complete piece. *)
  Definition read (m : mode) : str :=
    let conv k := match k with Some c => u "!" ++ [c] | None => [] end in
    match m with
    | InText => [] | Opened => u "{" | Closed => u "}"
    | InName n | InIndex n => u "{" ++ n
    | Bang n => u "{" ++ n ++ u "!"
    | Converted n k => u "{" ++ n ++ conv (Some k)
    | InSpec n k _ spec => u "{" ++ n ++ conv k ++ u ":" ++ spec
    end.

  Definition tail_of (k : option N) (spec : bool) : str := (match k with Some c => u "!" ++ [c] | None => [] end) ++ (if spec then u ":" else []).

  Lemma scan_fills : forall nested, (forall s o, nested s = Ok o -> o = [] -> existsb (N.eqb lbrace) s = false) ->
    forall t m l, (forall n, m = InName n -> n <> []) ->
    map_res (fill_item nothing (vars nothing) nested) (scan m t) = Ok l -> fills tx (read m ++ t) (concat l).
  Proof.
    intros nested Hn.
    assert (Kf : forall n k spec (b : bool) t l,
      (forall m l, (forall n, m = InName n -> n <> []) -> map_res (fill_item nothing (vars nothing) nested) (scan m t) = Ok l -> fills tx (read m ++ t) (concat l)) ->
      map_res (fill_item nothing (vars nothing) nested) (Field n k spec :: scan InText t) = Ok l ->
      spec = [] /\ fills tx (u "{" ++ n ++ tail_of k b ++ u "}" ++ t) (concat l)).
    { intros n k spec b t l IH H. cbn [map_res] in H. apply bind_ok in H. destruct H as (o & Eo & H). apply bind_ok in H. destruct H as (l' & El & H). injection H as <-.
      apply item_inv in Eo; [|exact Hn]. destruct Eo as (I & Ik & ->). split; [reflexivity|]. cbn [concat]. apply f_var; [exact I| |].
      - destruct Ik as [<-|[<-|[]]]; destruct b; simpl; auto.
      - apply (IH InText l'); [discriminate|exact El]. }
    induction t as [|c t IH]; intros m l Hm0 H.
    { rewrite app_nil_r. destruct m; cbn in H; try discriminate. injection H as <-. constructor. }
    assert (Kn : forall n l, (n = [] -> c <> lbrace) ->
      map_res (fill_item nothing (vars nothing) nested) (let (is_, m') := in_name n c in is_ ++ match m' with Some m' => scan m' t | None => [] end) = Ok l ->
      fills tx (u "{" ++ n ++ c :: t) (concat l)).
    { intros n l0 Hc E. unfold in_name in E. destruct (N.eqb_spec c lbrace) as [->|N1]; [discriminate|].
      destruct (N.eqb_spec c lbracket) as [->|N2].
      { cbn [app] in E. apply IH in E; [|discriminate]. cbn [read] in E. rewrite <- !app_assoc in E. exact E. }
      destruct (N.eqb_spec c rbrace) as [->|N3].
      { cbn [app] in E. destruct (Kf n None [] false t l0 IH E) as [_ G]. exact G. }
      destruct (N.eqb_spec c colon) as [->|N4].
      { cbn [app] in E. apply IH in E; [|discriminate]. cbn [read] in E. rewrite app_nil_r in E. cbn [app] in E. rewrite <- !app_assoc in E. exact E. }
      destruct (N.eqb_spec c bang) as [->|N5].
      { cbn [app] in E. apply IH in E; [|discriminate]. cbn [read] in E. rewrite <- !app_assoc in E. exact E. }
      cbn [app] in E. apply IH in E; [|intros n' X; injection X as <-; destruct n; discriminate]. cbn [read] in E. rewrite <- !app_assoc in E. exact E. }
    cbn [scan] in H. destruct m as [| | |n|n|n|n k|n k d spec]; cbn [step] in H.
    - cbn [read app]. destruct (N.eqb_spec c lbrace) as [->|N1].
      { cbn [app] in H. apply IH in H; [|discriminate]. exact H. }
      destruct (N.eqb_spec c rbrace) as [->|N2].
      { cbn [app] in H. apply IH in H; [|discriminate]. exact H. }
      cbn [app map_res fill_item bind] in H. apply bind_ok in H. destruct H as (l' & El & H). injection H as <-. cbn [concat app].
      apply f_char; auto. apply (IH InText l'); [discriminate|exact El].
    - destruct (N.eqb_spec c lbrace) as [->|N1].
      { cbn [app map_res fill_item bind] in H. apply bind_ok in H. destruct H as (l' & El & H). injection H as <-.
        apply (f_open tx t (concat l')). apply (IH InText l'); [discriminate|exact El]. }
      apply (Kn [] l (fun _ => N1) H).
    - destruct (N.eqb_spec c rbrace) as [->|N1]; [|discriminate].
      cbn [app map_res fill_item bind] in H. apply bind_ok in H. destruct H as (l' & El & H). injection H as <-.
      apply (f_close tx t (concat l')). apply (IH InText l'); [discriminate|exact El].
    - cbn [read]. rewrite <- app_assoc. apply Kn; [intros ->; exfalso; exact (Hm0 [] eq_refl eq_refl)|exact H].
    - cbn [read]. rewrite <- app_assoc. destruct (N.eqb_spec c rbracket) as [->|N1]; cbn [app] in H; (apply IH in H; [|intros n' X; try discriminate X; injection X as <-; destruct n; discriminate]);
        cbn [read] in H; rewrite <- !app_assoc in H; exact H.
    - cbn [app] in H. apply IH in H; [|discriminate]. cbn [read] in *. rewrite <- !app_assoc in *. exact H.
    - cbn [read]. destruct (N.eqb_spec c rbrace) as [->|N1].
      { cbn [app] in H. destruct (Kf n (Some k) [] false t l IH H) as [_ G]. unfold tail_of in G. rewrite app_nil_r in G. rewrite <- !app_assoc. exact G. }
      destruct (N.eqb_spec c colon) as [->|N2]; [|discriminate].
      cbn [app] in H. apply IH in H; [|discriminate]. cbn [read] in H. rewrite <- !app_assoc in *. exact H.
    - cbn [read]. destruct (N.eqb_spec c lbrace) as [->|N1].
      { cbn [app] in H. apply IH in H; [|discriminate]. cbn [read] in H. rewrite <- !app_assoc in *. exact H. }
      destruct (N.eqb_spec c rbrace) as [->|N2].
      { destruct d as [|[|d]].
        - cbn [app] in H. destruct (Kf n k spec true t l IH H) as [-> G]. unfold tail_of in G. rewrite <- !app_assoc in *. exact G.
        - cbn [app] in H. destruct (Kf n k spec true t l IH H) as [-> G]. unfold tail_of in G. rewrite <- !app_assoc in *. exact G.
        - cbn [app] in H. apply IH in H; [|discriminate]. cbn [read] in H. rewrite <- !app_assoc in *. exact H. }
      cbn [app] in H. apply IH in H; [|discriminate]. cbn [read] in H. rewrite <- !app_assoc in *. exact H.
  Qed.

  (** What a template stands for is empty only if it is. *)
  Lemma fills_empty : forall t, fills tx t [] -> t = [].
  Proof.
    intros t H. inversion H as [|c t0 o0 N1 N2 H0|t0 o0 H0 E|t0 o0 H0 E|z v tail t0 o0 I It H0 E Ev]; try discriminate; auto.
    destruct v; [exfalso; exact (texts_nonempty _ _ I eq_refl)|discriminate].
  Qed.

  Lemma nested_empty : forall d s o, build nothing d (vars nothing) s = Ok o -> o = [] -> existsb (N.eqb lbrace) s = false.
  Proof.
    induction d as [|d IH]; intros s o H Ho; [discriminate|]. cbn [build] in H. apply bind_ok in H. destruct H as (l & El & H). injection H as <-.
    assert (F : fills tx s (concat l)) by (apply (scan_fills _ IH s InText l); [discriminate|exact El]).
    rewrite Ho in F. rewrite (fills_empty _ F). reflexivity.
  Qed.
End Exact.

(** ** Which templates can be used, and what they give *)

(** A template of text and variables gives what it stands for, whatever the texts of the variables are: braces in a message mean nothing. *)
Theorem C95_filled : forall message path rule col ln t out, fills (texts message path rule col ln) t out ->
  forall P x, template_format P (TStr t) message path x rule col ln = Ok out.
Proof.
  intros message path rule col ln t out H P x. cbn [template_format build].
  destruct (fills_render message path rule x col ln P (build P 1 (variables P message path x rule col ln)) t out H) as (l & E & C).
  cbn [build] in E. rewrite E. cbn [bind]. now rewrite C.
Qed.

(** No other template can be relied on: if a template gives a text whatever else Python does with attributes, [repr], format specs and the
    object [result], it is one of those, and the text is what it stands for. *)
Theorem C95_exact : forall message path rule col ln x t out, message <> [] -> path <> [] -> rule <> [] ->
  ((forall P, template_format P (TStr t) message path x rule col ln = Ok out) <-> fills (texts message path rule col ln) t out).
Proof.
  intros message path rule col ln x t out Nm Np Nr. split; [|intros H P; now apply C95_filled].
  intro H. specialize (H nothing). cbn [template_format] in H.
  change (build nothing 2 (variables nothing message path x rule col ln) t) with
    (let! l := map_res (fill_item nothing (variables nothing message path x rule col ln) (build nothing 1 (variables nothing message path x rule col ln))) (scan InText t) in Ok (concat l)) in H.
  apply bind_ok in H. destruct H as (l & El & H). injection H as <-.
  apply (scan_fills message path rule x col ln (build nothing 1 (variables nothing message path x rule col ln))
           (nested_empty message path rule x col ln Nm Np Nr 1) t InText l); [discriminate|exact El].
Qed.

(** Every text can be printed: with its braces doubled. *)
Definition doubled (s : str) : str := flat_map (fun c => if (c =? 123) || (c =? 125) then [c; c] else [c]) s.
Theorem C95_any_text : forall P message path x rule col ln s, template_format P (TStr (doubled s)) message path x rule col ln = Ok s.
Proof.
  intros P message path x rule col ln s. apply C95_filled. induction s as [|c s IH]; cbn [doubled flat_map]; [constructor|].
  destruct (N.eqb_spec c 123) as [->|N1]; [exact (f_open _ _ _ IH)|]. destruct (N.eqb_spec c 125) as [->|N2]; [exact (f_close _ _ _ IH)|].
  exact (f_char _ c _ _ N1 N2 IH).
Qed.

(** ** Which are refused *)

(** What [str.format] refuses, and how: a brace that belongs to nothing, a field without a name or with a number, a name that is no variable. *)
Inductive wrong : str -> exn -> Prop :=
| w_close_end : wrong (u "}") ValueError
| w_close : forall c t, c <> 125 -> wrong (u "}" ++ c :: t) ValueError
| w_open_end : wrong (u "{") ValueError
| w_number : forall n t, (forall c, In c n -> 48 <= c <= 57) -> wrong (u "{" ++ n ++ u "}" ++ t) IndexError
| w_name : forall n t, (forall c, In c n -> ~ In c (u "{}[].!:")) -> (exists c, In c n /\ ~ 48 <= c <= 57) ->
    ~ In n [u "message"; u "path"; u "result"; u "rule_name"; u "start_col"; u "start_line"] -> wrong (u "{" ++ n ++ u "}" ++ t) KeyError.

Lemma scan_app : forall vars t out, (forall z v, In (z, v) vars -> In z [u "message"; u "path"; u "rule_name"; u "start_col"; u "start_line"]) ->
  fills vars t out -> forall rest, scan InText (t ++ rest) = scan InText t ++ scan InText rest.
Proof.
  intros vars t out Hv H rest. induction H as [|c t out N1 N2 _ IH|t out _ IH|t out _ IH|z v tail t out Hi Ht _ IH].
  - reflexivity.
  - cbn [app scan step]. rewrite (proj2 (N.eqb_neq c lbrace) N1), (proj2 (N.eqb_neq c rbrace) N2). cbn [app]. now rewrite IH.
  - change (scan InText ((u "{{" ++ t) ++ rest)) with (Text [123] :: scan InText (t ++ rest)). rewrite IH. reflexivity.
  - change (scan InText ((u "}}" ++ t) ++ rest)) with (Text [125] :: scan InText (t ++ rest)). rewrite IH. reflexivity.
  - specialize (Hv _ _ Hi).
    assert (E : forall t, scan InText (u "{" ++ z ++ tail ++ u "}" ++ t) = Field z (match tail with 33 :: _ => Some 115 | _ => None end) [] :: scan InText t).
    { clear - Hv Ht. intro t. repeat (destruct Hv as [<-|Hv]); [..|destruct Hv]; (repeat (destruct Ht as [<-|Ht]); [..|destruct Ht]); reflexivity. }
    rewrite E. rewrite <- !app_assoc. rewrite E, IH. reflexivity.
Qed.

Lemma scan_name : forall n m t, (forall c, In c n -> ~ In c (u "{}[].!:")) -> scan (InName m) (n ++ t) = scan (InName (m ++ n)) t.
Proof.
  induction n as [|c n IH]; intros m t H; cbn [app]; [now rewrite app_nil_r|]. cbn [scan step in_name].
  assert (Hc : ~ In c (u "{}[].!:")) by (apply H; now left). unfold in_name.
  assert (K : forall d, In d (u "{}[].!:") -> (c =? d) = false) by (intros d Hd; apply N.eqb_neq; intros ->; auto).
  rewrite !K by (simpl; auto 10). cbn [app]. rewrite IH by (intros d Hd; apply H; now right). now rewrite <- app_assoc.
Qed.

Lemma split_plain : forall n, (forall c, In c n -> ~ In c (u "{}[].!:")) -> split_name n = (n, []).
Proof.
  induction n as [|c n IH]; intro H; [reflexivity|]. cbn [split_name]. assert (Hc : ~ In c (u "{}[].!:")) by (apply H; now left).
  assert (K : forall d, In d (u "{}[].!:") -> (c =? d) = false) by (intros d Hd; apply N.eqb_neq; intros ->; auto).
  rewrite !K by (simpl; auto 10). cbn [orb]. rewrite IH; [reflexivity|]. intros d Hd. apply H. now right.
Qed.

Lemma scan_plain_field : forall n t, (forall c, In c n -> ~ In c (u "{}[].!:")) -> scan InText (u "{" ++ n ++ u "}" ++ t) = Field n None [] :: scan InText t.
Proof.
  intros n t H. change (scan InText (u "{" ++ n ++ u "}" ++ t)) with (scan Opened (n ++ u "}" ++ t)).
  destruct n as [|c n]; [reflexivity|]. cbn [app scan step].
  assert (Hc : ~ In c (u "{}[].!:")) by (apply H; now left).
  assert (K : forall d, In d (u "{}[].!:") -> (c =? d) = false) by (intros d Hd; apply N.eqb_neq; intros ->; auto).
  unfold in_name. rewrite !K by (simpl; auto 10). cbn [app].
  rewrite (scan_name n [c] (u "}" ++ t)) by (intros d Hd; apply H; now right). reflexivity.
Qed.

Lemma digits_iff : forall n, is_number n = true <-> forall c, In c n -> 48 <= c <= 57.
Proof.
  intro n. unfold is_number. rewrite forallb_forall. split; intros H c I; specialize (H c I); rewrite andb_true_iff, !N.leb_le in *; tauto.
Qed.

(** After a beginning that is all right, the first thing that is refused decides, whatever comes later. *)
Theorem C95_refused : forall P message path x rule col ln before out rest e, fills (texts message path rule col ln) before out -> wrong rest e ->
  template_format P (TStr (before ++ rest)) message path x rule col ln = Err e.
Proof.
  intros P message path x rule col ln before out rest e Hf Hw. cbn [template_format].
  change (build P 2 (variables P message path x rule col ln) (before ++ rest)) with
    (let! l := map_res (fill_item P (variables P message path x rule col ln) (build P 1 (variables P message path x rule col ln))) (scan InText (before ++ rest)) in Ok (concat l)).
  rewrite (scan_app _ _ _ (fun z v => vars_in message path rule col ln z v) Hf rest).
  destruct (fills_render message path rule x col ln P (build P 1 (variables P message path x rule col ln)) before out Hf) as (l & E & _).
  assert (A : forall a b, map_res (fill_item P (variables P message path x rule col ln) (build P 1 (variables P message path x rule col ln))) a = Ok l ->
              map_res (fill_item P (variables P message path x rule col ln) (build P 1 (variables P message path x rule col ln))) b = Err e ->
              map_res (fill_item P (variables P message path x rule col ln) (build P 1 (variables P message path x rule col ln))) (a ++ b) = Err e).
  { clear. intros a b Ha Hb. revert l Ha. induction a as [|i a IH]; intros l Ha; [exact Hb|]. cbn [app map_res] in *. apply bind_ok in Ha. destruct Ha as (y & Ey & Ha).
    rewrite Ey. cbn [bind]. apply bind_ok in Ha. destruct Ha as (l' & El & Ha). rewrite (IH _ El). reflexivity. }
  rewrite (A _ _ E); [reflexivity|]. clear A E l Hf.
  inversion Hw as [|c t Nc| |n t Hd|n t Hp (c & Hc & Nd) Hn]; subst.
  - reflexivity.
  - change (scan InText (u "}" ++ c :: t)) with (scan Closed (c :: t)). cbn [scan step]. rewrite (proj2 (N.eqb_neq c rbrace) Nc). reflexivity.
  - reflexivity.
  - assert (Hp : forall c, In c n -> ~ In c (u "{}[].!:")).
    { intros c Hc X. specialize (Hd c Hc). repeat (destruct X as [<-|X]; [revert Hd; compute; intros [Y Z]; try exact (Y eq_refl); exact (Z eq_refl)|]). destruct X. }
    rewrite scan_plain_field by exact Hp. cbn [map_res fill_item]. unfold field_object. rewrite split_plain by exact Hp. rewrite (proj2 (digits_iff n) Hd). reflexivity.
  - rewrite scan_plain_field by exact Hp. cbn [map_res fill_item]. unfold field_object. rewrite split_plain by exact Hp.
    destruct (is_number n) eqn:En; [exfalso; apply Nd; exact (proj1 (digits_iff n) En c Hc)|].
    assert (F : find (fun y => str_eqb (fst y) n) (variables P message path x rule col ln) = None).
    { unfold variables. cbn [find fst]. 
      assert (K : forall z, In z [u "message"; u "path"; u "result"; u "rule_name"; u "start_col"; u "start_line"] -> str_eqb z n = false).
      { intros z Hz. destruct (str_eqb z n) eqn:Ez; [|reflexivity]. apply str_eqb_eq in Ez. subst z. contradiction. }
      rewrite (K (u "message")), (K (u "path")), (K (u "result")), (K (u "rule_name")), (K (u "start_col")), (K (u "start_line")) by (cbn [In]; auto 10). reflexivity. }
    rewrite F. reflexivity.
Qed.

(** A template that is no text. *)
Theorem C95_no_text : forall P v message path x rule col ln, (forall t, v <> TStr t) ->
  template_format P v message path x rule col ln = Err AttributeError.
Proof. intros P v message path x rule col ln H. destruct v; try reflexivity. exfalso. exact (H s eq_refl). Qed.

(** ** Concrete cases *)
Example C95_example : forall P x,
  template_format P (TStr (u "{{{rule_name!s}}} {path}:{start_line:} {message}")) (u "use {x}") (u "a/b.py") x (u "Some") 4%Z 12%Z = Ok (u "{Some} a/b.py:12 use {x}") /\
  template_format P (TStr (u "{path} {line}")) (u "m") (u "a.py") x (u "R") 0%Z 1%Z = Err KeyError /\
  template_format P (TStr (u "{path} {")) (u "m") (u "a.py") x (u "R") 0%Z 1%Z = Err ValueError /\
  template_format P (TStr (u "{path} {}")) (u "m") (u "a.py") x (u "R") 0%Z 1%Z = Err IndexError /\
  template_format P (TStr []) (u "m") (u "a.py") x (u "R") 0%Z 1%Z = Ok [] /\
  template_format P (TInt 5) (u "m") (u "a.py") x (u "R") 0%Z 1%Z = Err AttributeError.
Proof. intros P x. repeat split; vm_compute; reflexivity. Qed.

Example C95_wrong_example : wrong (u "{line} and so on") KeyError /\ wrong (u "{} and so on") IndexError /\ wrong (u "}.") ValueError.
Proof.
  split; [|split].
  - apply (w_name (u "line") (u " and so on")).
    + intros c Hc X. cbn in Hc, X. repeat (destruct Hc as [<-|Hc]; [repeat (destruct X as [X|X]; [discriminate X|]); exact X|]). exact Hc.
    + exists 108. split; [now left|]. intros [_ H]. exact (H eq_refl).
    + intro X. cbn in X. repeat (destruct X as [X|X]; [discriminate X|]). exact X.
  - apply (w_number [] (u " and so on")). intros c [].
  - apply (w_close 46 []). discriminate.
Qed.
