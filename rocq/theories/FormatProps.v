(** * C62: formatting styles *)
From Coq Require Import String List NArith Bool Arith Lia.
From Verif Require Import Base PyStr Ftypes Paths Config Suppress Cst Engine EngineProps Api ApiSpec ApiFacts ApiProps Format.
Import ListNotations.
Set Implicit Arguments.

(** The last class defined for a style name. *)
Definition last_defined (cs : list (str * formatter)) (s : str) (f : formatter) : Prop :=
  exists before after, cs = before ++ (s, f) :: after /\ forall f', ~ In (s, f') after.

Lemma define_all : forall cs r s,
  style_of (fold_left define_class cs r) s =
  match find (fun c => str_eqb s (fst c)) (rev cs) with Some c => Some (snd c) | None => style_of r s end.
Proof.
  induction cs as [|[s1 f1] cs IH]; intros r s; [reflexivity|]. cbn [fold_left rev]. rewrite IH.
  assert (A : forall l1 l2 : list (str * formatter), find (fun c => str_eqb s (fst c)) (l1 ++ l2) =
            match find (fun c => str_eqb s (fst c)) l1 with Some x => Some x | None => find (fun c => str_eqb s (fst c)) l2 end).
  { induction l1 as [|x l1 IHl]; intro l2; [reflexivity|]. simpl. destruct (str_eqb s (fst x)); auto. }
  rewrite A. destruct (find _ (rev cs)) as [c|]; [reflexivity|]. cbn [find fst]. unfold style_of, define_class. cbn [r_styles fst snd].
  destruct (str_eqb s s1) eqn:E.
  - apply str_eqb_eq in E. subst. now rewrite dget_dset_eq.
  - rewrite dget_dset_neq; [reflexivity|]. intros ->. now rewrite str_eqb_refl in E.
Qed.

Lemma find_last : forall (cs : list (str * formatter)) s c,
  find (fun c => str_eqb s (fst c)) (rev cs) = Some c <-> (fst c = s /\ last_defined cs s (snd c)).
Proof.
  intros cs s c. induction cs as [|[s1 f1] cs IH] using rev_ind.
  - simpl. split; [discriminate|]. intros (_ & b & a & H & _). destruct b; discriminate.
  - rewrite rev_app_distr. cbn [rev app find fst]. destruct (str_eqb s s1) eqn:E.
    + apply str_eqb_eq in E. subst s1. split.
      * intro H. injection H as <-. split; [reflexivity|]. exists cs, []. split; [reflexivity|]. intros ? [].
      * destruct c as [s' f]. cbn [fst snd]. intros (-> & b & a & H & K). destruct a as [|x a _] using rev_ind.
        -- apply app_inj_tail in H. destruct H as [_ H]. congruence.
        -- rewrite app_comm_cons, app_assoc in H. apply app_inj_tail in H. destruct H as [_ <-].
           exfalso. apply (K f1). apply in_or_app. simpl. auto.
    + rewrite IH. split; intros (<- & b & a & H & K); (split; [reflexivity|]).
      * exists b, (a ++ [(s1, f1)]). subst cs. split; [now rewrite <- app_assoc|].
        intros f' I. apply in_app_or in I. destruct I as [I|[I|[]]]; [now apply (K f')|]. injection I as -> ->. now rewrite str_eqb_refl in E.
      * destruct a as [|x a _] using rev_ind.
        -- apply app_inj_tail in H. destruct H as [_ H]. injection H as E1 E2. rewrite E1 in E. now rewrite str_eqb_refl in E.
        -- rewrite app_comm_cons, app_assoc in H. apply app_inj_tail in H. destruct H as [-> <-].
           exists b, a. split; [reflexivity|]. intros f' I. apply (K f'). apply in_or_app. auto.
Qed.

(** After importing fixit and defining more formatter classes, a style name stands for the class defined
    last for it; black and ufmt for the built-in ones unless replaced; other names for nothing. *)
Theorem C62_registry : forall B cs s f,
  style_of (styles B cs) s = Some f <->
  last_defined ((u "black", black_format B) :: (u "ufmt", ufmt_format B) :: cs) s f.
Proof.
  intros B cs s f. unfold styles.
  assert (E : style_of (fold_left define_class cs
    (Registry plain_format (r_styles (fold_left define_class [(u "black", black_format B); (u "ufmt", ufmt_format B)] (Registry plain_format []))))) s
    = style_of (fold_left define_class ((u "black", black_format B) :: (u "ufmt", ufmt_format B) :: cs) (Registry plain_format [])) s) by reflexivity.
  rewrite E, define_all. clear E.
  destruct (find _ _) as [c|] eqn:Ef.
  - apply find_last in Ef. destruct Ef as [<- L]. split.
    + intro H. injection H as <-. exact L.
    + intros L'. f_equal. assert (K : find (fun c0 => str_eqb (fst c) (fst c0)) (rev ((u "black", black_format B) :: (u "ufmt", ufmt_format B) :: cs)) = Some (fst c, f)).
      { apply find_last. auto. }
      assert (K2 : find (fun c0 => str_eqb (fst c) (fst c0)) (rev ((u "black", black_format B) :: (u "ufmt", ufmt_format B) :: cs)) = Some c).
      { apply find_last. auto. }
      rewrite K2 in K. injection K as ->. reflexivity.
  - split; [discriminate|]. intro L.
    assert (K : find (fun c0 => str_eqb s (fst c0)) (rev ((u "black", black_format B) :: (u "ufmt", ufmt_format B) :: cs)) = Some (s, f)).
    { apply find_last. auto. }
    congruence.
Qed.

(** The content fixit makes of a file with some fixes: without a formatter the code of the fixed module as
    it is; with black what black makes of that text. *)
Theorem C62_plain : forall T F p content cfg vs md m,
  c_formatter cfg = None -> t_parse T content = Ok md -> apply_replacements md vs = Ok (Some m) ->
  fixed_content T F p content cfg vs = t_bytes T m.
Proof. intros T F p content cfg vs md m Hc Hp Ha. unfold fixed_content. rewrite Hp. cbn [bind]. rewrite Ha. cbn [bind]. now rewrite Hc. Qed.

Theorem C62_black : forall B T cs F p content cfg vs md m bytes mode text text' out,
  let T' := with_styles T (styles B cs) in
  (forall f, ~ In (u "black", f) cs) ->
  c_formatter cfg = Some (u "black") -> t_parse T content = Ok md -> apply_replacements md vs = Ok (Some m) ->
  t_bytes T m = Ok bytes -> b_decode B bytes = Ok text -> b_config B F p = Ok mode ->
  b_format B mode text = Ok text' -> text' <> text -> b_check B mode text text' = Ok tt -> b_encode B text' = Ok out ->
  fixed_content T' F p content cfg vs = Ok out.
Proof.
  intros B T cs F p content cfg vs md m bytes mode text text' out T' Hn Hc Hp Ha Hb Hd Hm Hf Hne Hk He.
  assert (S : style_of (styles B cs) (u "black") = Some (black_format B)).
  { apply C62_registry. exists [], ((u "ufmt", ufmt_format B) :: cs). split; [reflexivity|]. intros f [I|I]; [discriminate|now apply (Hn f)]. }
  unfold fixed_content, T'. cbn [with_styles t_parse t_bytes t_style]. rewrite Hp. cbn [bind]. rewrite Ha. cbn [bind].
  rewrite Hc, S, Hb. cbn [bind]. unfold black_format. rewrite Hm. cbn [bind]. rewrite Hd. cbn [bind].
  unfold format_file_contents. rewrite Hf. cbn [bind].
  destruct (str_eqb text text') eqn:E; [apply str_eqb_eq in E; congruence|]. rewrite Hk. cbn [bind]. exact He.
Qed.

(** Without a formatter in the configuration the formatter is the one that keeps the code, whatever classes are
    defined; and the same for a class that has no [format] of its own. *)
Theorem C62_none : forall B cs F b p,
  exists f, formatter_of (styles B cs) None = Some f /\ f F b p = Ok b.
Proof.
  intros B cs F b p. eexists. split; [reflexivity|]. unfold styles.
  assert (K : forall cs r, r_none (fold_left define_class cs r) = r_none r).
  { induction cs0 as [|c cs0 IH]; intro r; [reflexivity|]. cbn [fold_left]. now rewrite IH. }
  rewrite K. reflexivity.
Qed.

(** What fixit makes of a file is what the formatter of the configuration makes of the fixed code: the one for
    None, or the class defined last for the style. *)
Theorem C62_through : forall B T cs F p content cfg vs md m bytes,
  let T' := with_styles T (styles B cs) in
  t_parse T content = Ok md -> apply_replacements md vs = Ok (Some m) -> t_bytes T m = Ok bytes ->
  fixed_content T' F p content cfg vs =
  match formatter_of (styles B cs) (c_formatter cfg) with Some f => f F bytes p | None => Err KeyError end.
Proof.
  intros B T cs F p content cfg vs md m bytes T' Hp Ha Hb. unfold fixed_content, T'. cbn [with_styles t_parse t_bytes t_style].
  rewrite Hp. cbn [bind]. rewrite Ha. cbn [bind]. destruct (c_formatter cfg) as [s|].
  - cbn [formatter_of]. destruct (style_of (styles B cs) s); [|reflexivity]. now rewrite Hb.
  - destruct (C62_none B cs F bytes p) as (f & Ef & Eb). now rewrite Ef, Eb.
Qed.

(** With ufmt the new content is exactly what ufmt makes of the bytes of the fixed code, with the settings of black
    and of usort for that path; if a setting cannot be had, or ufmt fails, that is the error. *)
Theorem C62_ufmt : forall B T cs F p content cfg vs md m bytes,
  let T' := with_styles T (styles B cs) in
  (forall f, ~ In (u "ufmt", f) cs) ->
  c_formatter cfg = Some (u "ufmt") -> t_parse T content = Ok md -> apply_replacements md vs = Ok (Some m) ->
  t_bytes T m = Ok bytes ->
  (forall mode sort, b_config B F p = Ok mode -> u_config B F p = Ok sort ->
     fixed_content T' F p content cfg vs = u_bytes B p bytes mode sort) /\
  (forall e, b_config B F p = Err e -> fixed_content T' F p content cfg vs = Err e) /\
  (forall mode e, b_config B F p = Ok mode -> u_config B F p = Err e -> fixed_content T' F p content cfg vs = Err e).
Proof.
  intros B T cs F p content cfg vs md m bytes T' Hn Hc Hp Ha Hb.
  assert (Sy : style_of (styles B cs) (u "ufmt") = Some (ufmt_format B)).
  { apply C62_registry. exists [(u "black", black_format B)], cs. split; [reflexivity|]. intros f I. now apply (Hn f). }
  assert (E : fixed_content T' F p content cfg vs = ufmt_format B F bytes p).
  { unfold T'. rewrite (C62_through _ _ _ _ _ _ _ _ Hp Ha Hb), Hc. cbn [formatter_of]. now rewrite Sy. }
  rewrite E. unfold ufmt_format. split; [|split].
  - intros mode sort -> ->. reflexivity.
  - intros e ->. reflexivity.
  - intros mode e -> ->. reflexivity.
Qed.

(** With black: exactly when the content is a given one. *)
Theorem C62_black_exact : forall B T cs F p content cfg vs md m bytes out,
  let T' := with_styles T (styles B cs) in
  (forall f, ~ In (u "black", f) cs) ->
  c_formatter cfg = Some (u "black") -> t_parse T content = Ok md -> apply_replacements md vs = Ok (Some m) ->
  t_bytes T m = Ok bytes ->
  (fixed_content T' F p content cfg vs = Ok out <->
   exists mode text text', b_config B F p = Ok mode /\ b_decode B bytes = Ok text /\ b_format B mode text = Ok text' /\
     text' <> text /\ b_check B mode text text' = Ok tt /\ b_encode B text' = Ok out).
Proof.
  intros B T cs F p content cfg vs md m bytes out T' Hn Hc Hp Ha Hb.
  split.
  - intro H. assert (Sy : style_of (styles B cs) (u "black") = Some (black_format B)).
    { apply C62_registry. exists [], ((u "ufmt", ufmt_format B) :: cs). split; [reflexivity|]. intros f [I|I]; [discriminate|now apply (Hn f)]. }
    unfold T' in H. rewrite (C62_through _ _ _ _ _ _ _ _ Hp Ha Hb), Hc in H. cbn [formatter_of] in H. rewrite Sy in H.
    unfold black_format in H. apply bind_ok in H. destruct H as (mode & Em & H). apply bind_ok in H. destruct H as (text & Et & H).
    apply bind_ok in H. destruct H as (c & Ec & H). unfold format_file_contents in Ec. apply bind_ok in Ec. destruct Ec as (d & Ed & Ec).
    destruct (str_eqb text d) eqn:Eq; [discriminate|]. apply bind_ok in Ec. destruct Ec as ([] & Ek & Ec). injection Ec as <-.
    exists mode, text, d. repeat split; auto. intros ->. now rewrite str_eqb_refl in Eq.
  - intros (mode & text & text' & E1 & E2 & E3 & E4 & E5 & E6). eapply C62_black; eauto.
Qed.

(** If black has nothing to do the formatter raises black's exception for that ... *)
Theorem C62_black_raises : forall B T cs F p content cfg vs md m bytes mode text,
  let T' := with_styles T (styles B cs) in
  (forall f, ~ In (u "black", f) cs) ->
  c_formatter cfg = Some (u "black") -> t_parse T content = Ok md -> apply_replacements md vs = Ok (Some m) ->
  t_bytes T m = Ok bytes -> b_decode B bytes = Ok text -> b_config B F p = Ok mode ->
  b_format B mode text = Ok text ->
  fixed_content T' F p content cfg vs = Err NothingChanged.
Proof.
  intros B T cs F p content cfg vs md m bytes mode text T' Hn Hc Hp Ha Hb Hd Hm Hf.
  assert (S : style_of (styles B cs) (u "black") = Some (black_format B)).
  { apply C62_registry. exists [], ((u "ufmt", ufmt_format B) :: cs). split; [reflexivity|]. intros f [I|I]; [discriminate|now apply (Hn f)]. }
  unfold fixed_content, T'. cbn [with_styles t_parse t_bytes t_style]. rewrite Hp. cbn [bind]. rewrite Ha. cbn [bind].
  rewrite Hc, S, Hb. cbn [bind]. unfold black_format. rewrite Hm. cbn [bind]. rewrite Hd. cbn [bind].
  unfold format_file_contents. rewrite Hf. cbn [bind]. now rewrite str_eqb_refl.
Qed.

(** ... so that a fix after which black has nothing to do is lost: the formatter raises, so that the fixed file is
    not written. *)
Theorem C62_black_lost : forall B T p autofix opts hook es o,
  t_style T (u "black") = Some (black_format B) ->
  (forall F cfg, generate_config (t_env T) F p None opts = Ok cfg -> c_formatter cfg = Some (u "black")) ->
  run (fixit_file T p autofix opts hook) es o ->
  (forall content md m bytes F mode text,
     t_parse T content = Ok md -> apply_replacements md (accepted autofix (given es)) = Ok (Some m) ->
     t_bytes T m = Ok bytes -> b_decode B bytes = Ok text -> b_config B F p = Ok mode ->
     b_format B mode text = Ok text) ->
  written es = [].
Proof.
  intros B T p autofix opts hook es o Hs Hc R Hb. destruct (C31_writes _ _ _ _ _ _ _ R) as (_ & _ & [W|W]); auto. exfalso.
  destruct W as (F & content & F1 & cfg & es1 & c & w & es2 & acc & -> & _ & _ & _ & G & _ & _ & Ea & Na & (F2 & Fc) & W1 & O).
  assert (A : accepted autofix (given (ELook F :: ELook F1 :: es1 ++ EWrite p c w :: es2)) = acc).
  { cbn [given]. rewrite given_app, accepted_app. cbn [given]. rewrite Ea.
    assert (E2 : accepted autofix (given es2) = []).
    { destruct O as (_ & _ & O). destruct w as [[]|e]; [now rewrite O|]. destruct O as [->|(a & ->)]; [reflexivity|]. destruct a as [[|]|]; reflexivity. }
    rewrite E2. apply app_nil_r. }
  rewrite A in Hb. unfold fixed_content in Fc. destruct (t_parse T content) as [md|] eqn:P; [|discriminate]. cbn [bind] in Fc.
  destruct (apply_replacements md acc) as [[m|]|] eqn:Ar; try discriminate. cbn [bind] in Fc.
  rewrite (Hc _ _ G), Hs in Fc. destruct (t_bytes T m) as [bs|] eqn:Tb; [|discriminate]. cbn [bind] in Fc.
  unfold black_format in Fc. destruct (b_config B F2 p) as [mode|] eqn:Bc; [|discriminate]. cbn [bind] in Fc.
  destruct (b_decode B bs) as [text|] eqn:D; [|discriminate]. cbn [bind] in Fc.
  unfold format_file_contents in Fc. rewrite (Hb _ _ _ _ _ _ _ P Ar Tb D Bc) in Fc. cbn [bind] in Fc. rewrite str_eqb_refl in Fc. discriminate.
Qed.

(** ** Concrete cases *)

(** black that puts a newline at the end of a text that has none *)
Definition ex_printers : printers :=
  @Printers unit (fun _ _ => Ok tt) (fun _ s => Ok (match rev s with 10%N :: _ => s | _ => s ++ nl end)) (fun _ _ _ => Ok tt)
            (fun b => Ok b) (fun s => Ok s) unit (fun _ _ => Ok tt) (fun _ b _ _ => Ok b).
Definition shout : formatter := fun _ b _ => Ok (b ++ u "!").
Definition black_env : env :=
  Env (fun _ => Ok [(u "tool", TTab [(u "fixit", TTab [(u "formatter", TStr (u "black"))])])])
      (fun _ => true) (u "3.10") [u "black"] (fun l => l).
Definition black_tool (md : module) : tool :=
  with_styles (Tool black_env (fun _ _ => Ok [tt]) (fun s => Ok md) (fun _ _ _ _ => Ok ([RuleInst (u "A") None [v_arg]], []))
                    (fun _ a b => b) (fun m => Ok (code m)) (fun _ => None) (fun _ p => Ok [p]))
              (styles ex_printers []).

Example C62_registry_example :
  style_of (styles ex_printers [(u "mine", plain_format); (u "black", shout); (u "mine", shout)]) (u "mine") = Some shout /\
  style_of (styles ex_printers [(u "black", shout)]) (u "black") = Some shout /\
  style_of (styles ex_printers [(u "black", shout)]) (u "ufmt") = Some (ufmt_format ex_printers) /\
  style_of (styles ex_printers []) (u "none") = None.
Proof. repeat split; reflexivity. Qed.

Example C62_none_example :
  formatter_of (styles ex_printers [(u "black", shout)]) None = Some plain_format /\
  formatter_of (styles ex_printers [(u "black", shout)]) (Some (u "black")) = Some shout.
Proof. split; reflexivity. Qed.

(** ufmt, and black, on the bytes of a fixed file: the hypotheses of [C62_ufmt] and [C62_black_exact] are met. *)
Example C62_ufmt_example :
  let B := @Printers unit (fun _ _ => Ok tt) (fun _ s => Ok (s ++ nl)) (fun _ _ _ => Ok tt) (fun b => Ok b) (fun s => Ok s)
             unit (fun _ _ => Ok tt) (fun p b _ _ => Ok (b ++ u "# sorted")) in
  let T := with_styles (black_tool ex_module) (styles B []) in
  let set style := Config [] [] RIFalse [] [] [] None no_tags (Some style) OFfixit (TStr []) in
  exists m, apply_replacements ex_module [v_arg] = Ok (Some m) /\
    fixed_content T (ex_fs []) ex_file [] (set (u "ufmt")) [v_arg] = Ok (code m ++ u "# sorted") /\
    fixed_content T (ex_fs []) ex_file [] (set (u "black")) [v_arg] = Ok (code m ++ nl) /\
    fixed_content T (ex_fs []) ex_file [] (set (u "other")) [v_arg] = Err KeyError.
Proof. eexists. split; [vm_compute; reflexivity|]. split; [|split]; vm_compute; reflexivity. Qed.

(** The fixed text ends without a newline: black changes it, and it is written. *)
Example C62_black_example :
  let T := black_tool (Mod (Node 0 false [Body None [Node 3 true [Ind; Seq true [Node 4 false [Txt (u "f("); Seq false [arg1]; Txt (u ")")]]]]]) true nl) in
  exists F v, written [ELook F; ELook F; ELook F; EGive (Result ex_file (Some v) None) None; ELook F;
                       EWrite ex_file (u "f(99)" ++ nl) (Ok tt)] <> [] /\
  run (fixit_file T ex_file true None false)
      [ELook F; ELook F; ELook F; EGive (Result ex_file (Some v) None) None; ELook F; EWrite ex_file (u "f(99)" ++ nl) (Ok tt)]
      (Returned tt).
Proof.
  intro T. exists (ex_fs (u "f(1)")).
  exists (with_diff v_arg (u "f(99)")). split; [discriminate|].
  unfold T. vm_compute. repeat (constructor; vm_compute).
Qed.

(** "If the fixed code can be had, and black formats it, then that is the new content": refuted when black
    leaves it as it is (here: the fix of the first example, in a file with a final newline). *)
Theorem C62_black_refuted : ~ (forall B T F p content cfg vs md m bytes mode text text' out,
  t_style T (u "black") = Some (black_format B) -> c_formatter cfg = Some (u "black") ->
  t_parse T content = Ok md -> apply_replacements md vs = Ok (Some m) -> t_bytes T m = Ok bytes ->
  b_decode B bytes = Ok text -> b_config B F p = Ok mode ->
  b_format B mode text = Ok text' -> b_check B mode text text' = Ok tt -> b_encode B text' = Ok out ->
  fixed_content T F p content cfg vs = Ok out).
Proof.
  intro H. pose (F := ex_fs (code ex_module)).
  destruct (generate_config black_env F ex_file None None) as [cfg|e] eqn:G; [|vm_compute in G; discriminate].
  assert (Hc : c_formatter cfg = Some (u "black")) by (vm_compute in G; injection G as <-; reflexivity).
  destruct (apply_replacements ex_module [v_arg]) as [[m|]|] eqn:A; [|vm_compute in A; discriminate|vm_compute in A; discriminate].
  specialize (H ex_printers (black_tool ex_module) F ex_file (code ex_module)). 
  specialize (H cfg [v_arg] ex_module m (code m) tt (code m) (code m) (code m) eq_refl Hc eq_refl A eq_refl eq_refl eq_refl).
  vm_compute in A. injection A as <-. specialize (H eq_refl eq_refl eq_refl).
  vm_compute in G. injection G as <-. vm_compute in H. discriminate.
Qed.

(** The run of that case: the violation is reported and accepted, then an error; nothing is written. *)
Example C62_lost_example :
  exists F v, run (fixit_file (black_tool ex_module) ex_file true None false)
    [ELook F; ELook F; ELook F; EGive (Result ex_file (Some v) None) None; ELook F;
     EGive (Result ex_file None (Some NothingChanged)) None] (Returned tt) /\ v_replacement v <> None.
Proof.
  exists (ex_fs (code ex_module)), (with_diff v_arg (u "import a" ++ nl ++ u "x = f(99, 2)" ++ nl)). split; [|discriminate].
  vm_compute. repeat (constructor; vm_compute).
Qed.
