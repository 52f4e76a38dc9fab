(** * The language server: concrete runs, and what does not hold *)
From Coq Require Import String List NArith ZArith Bool Arith Lia Sorted.
From Verif Require Import Base PyStr Ftypes Paths Config Suppress Cst Engine EngineProps Api ApiSpec ApiFacts ApiProps Lsp LspSpec LspFacts LspProps LspPublish LspCache LspFormat LspServe.
Import ListNotations.

(** The configuration file says "shout" or nothing; another text is not TOML. *)
Definition zx_env : env :=
  Env (fun s => if str_eqb s (u "shout") then Ok [(u "tool", TTab [(u "fixit", TTab [(u "formatter", TStr (u "shout"))])])]
                else if str_eqb s [] then Ok [] else Err TOMLDecodeError)
      (fun _ => true) (u "3.10") [u "shout"] (fun l => l).
Definition zx_fs (config : str) : fs :=
  FS (fun p => if path_eqb p [u "d"; u "fixit.toml"] then Some config else None) (fun p => path_eqb p [u "d"]).
(** Text that starts with "import" is the module of Engine's example, other text has no violations. *)
Definition zx_tool : tool :=
  Tool zx_env (fun _ _ => Ok [tt]) (fun s => Ok ex_module) 
       (fun _ _ _ _ => Ok (ex_rules, [])) (fun _ a b => b) (fun m => Ok (code m))
       (fun s => if str_eqb s (u "shout") then Some (fun _ b _ => Ok (b ++ u "!")) else None)
       (fun _ p => Ok [p]).
Definition ua : uri := u "file:///d/a.py".
Definition ub : uri := u "file:///d/b.py".
Definition zx (interval : N) : server :=
  Server zx_tool
    (fun x => if str_eqb x ua then Some [u "d"; u "a.py"] else if str_eqb x ub then Some [u "d"; u "b.py"] else None)
    Ok Ok (Options None None [] None []) interval.

Definition acts (x : uri) (i n : nat) : list label := repeat (Act x i) n.
Definition sees {A} (f : state -> A) (S : server) (F : fs) (h : list label) : option A := option_map f (steps S (init F) h).

Definition text1 : str := code ex_module.

(** One change, nothing for the interval, then the validation. *)
Definition run1 : list label := [SetText ua (Some text1); Change ua 1; Tick 5; Start ua 0] ++ acts ua 0 7.
Example C42_example :
  sees (fun q => map (fun x => (fst x, List.length (snd x))) (d_published (q_docs q ua))) (zx 5) (zx_fs []) run1 = Some [(1%Z, 3)].
Proof. vm_compute. reflexivity. Qed.

Lemma sees_some : forall A (f : state -> A) S F h x, sees f S F h = Some x -> exists q, reaches S F h q /\ f q = x.
Proof. intros A f S F h x H. unfold sees in H. destruct (steps S (init F) h) as [q|] eqn:E; [|discriminate]. injection H as <-. exists q. auto. Qed.

(** ** C39 *)
Definition run2 : list label := [SetText ua (Some text1); Change ua 1; Tick 3; Change ua 2; Tick 4].
Example C39_example_early : sees (fun q => (step (zx 5) q (Start ua 0), step (zx 5) q (Start ua 1))) (zx 5) (zx_fs []) run2 = Some (None, None).
Proof. vm_compute. reflexivity. Qed.
Example C39_example_due : exists q, reaches (zx 5) (zx_fs []) (run2 ++ [Tick 1]) q /\
  possible (zx 5) q (Start ua 1) /\ ~ possible (zx 5) q (Start ua 0).
Proof.
  assert (H : sees (fun q => (match step (zx 5) q (Start ua 1) with Some _ => true | None => false end, match step (zx 5) q (Start ua 0) with Some _ => true | None => false end))
                (zx 5) (zx_fs []) (run2 ++ [Tick 1]) = Some (true, false)) by (vm_compute; reflexivity).
  apply sees_some in H. destruct H as (q & R & H). exists q. split; auto. unfold possible. destruct (step _ _ (Start ua 1)), (step _ _ (Start ua 0)); try discriminate.
  split; [discriminate|congruence].
Qed.
Example C39_example_immediate :
  sees (fun q => map fst (d_published (q_docs q ua))) (zx 0) (zx_fs []) ([SetText ua (Some text1); Change ua 1] ++ acts ua 0 7 ++ [Change ua 2] ++ acts ua 1 5)
  = Some [1; 2]%Z.
Proof. vm_compute. reflexivity. Qed.

(** ** C40 *)
Lemma zx_own : forall n, own_file (zx n) ua.
Proof.
  intros n u' p H1 H2. cbn in H1. injection H1 as <-. cbn [z_path zx] in H2. destruct (str_eqb u' ua) eqn:E; [now apply str_eqb_eq in E|].
  destruct (str_eqb u' ub); [|discriminate]. exfalso. revert H2. vm_compute. discriminate.
Qed.
Example C40_example :
  sees (fun q => (map fst (d_published (q_docs q ua)), map fst (d_published (q_docs q ub)))) (zx 5) (zx_fs [])
    ([SetText ua (Some text1); Change ua 1; SetText ub (Some text1); Change ub 7; Tick 5; Start ua 0; Start ub 0] ++
     acts ua 0 3 ++ acts ub 0 7 ++ [Change ub 8] ++ acts ua 0 4) = Some ([1]%Z, [7]%Z).
Proof. vm_compute. reflexivity. Qed.

(** Notifications, though, wait while the main thread works on another document. *)
Theorem C40_main_refuted : ~ (forall S F u h q q' v, own_file S u -> reaches S F h q -> reaches S F (filter (about u) h) q' ->
  possible S q' (Change u v) -> possible S q (Change u v)).
Proof.
  intro H. assert (E : exists q, reaches (zx 5) (zx_fs []) [Format ub] q /\ step (zx 5) q (Change ua 1) = None).
  { apply (sees_some _ (fun q => step (zx 5) q (Change ua 1))). vm_compute. reflexivity. }
  destruct E as (q & R & E). refine (H (zx 5) (zx_fs []) ua [Format ub] q (init (zx_fs [])) 1%Z (zx_own 5) R _ _ E).
  - reflexivity.
  - unfold possible. cbn. discriminate.
Qed.

(** ** C41 *)

(** After the first validation the configuration is that of the first time. *)
Example C41_example :
  sees (fun q => option_map c_formatter (q_cache q [u "d"; u "a.py"])) (zx 5) (zx_fs [])
    (run1 ++ [Files (zx_fs (u "shout")); Change ua 2; Tick 5; Start ua 1] ++ acts ua 1 5) = Some (Some None).
Proof. vm_compute. reflexivity. Qed.

(** A configuration that cannot be read is tried again. *)
Example C41_example_retry :
  sees (fun q => (map fst (d_published (q_docs q ua)), option_map c_formatter (q_cache q [u "d"; u "a.py"]))) (zx 5) (zx_fs (u "?"))
    ([SetText ua (Some text1); Change ua 1; Tick 5; Start ua 0] ++ acts ua 0 3 ++
     [Files (zx_fs (u "shout")); Change ua 2; Tick 5; Start ua 1] ++ acts ua 1 7) = Some ([2]%Z, Some (Some (u "shout"))).
Proof. vm_compute. reflexivity. Qed.

(** The request before that: it asked, looked and ended with the error; the hypotheses of C41_failing
    and of C41_computed hold, and so do those of C41_once for the history with both requests. *)
Definition run_bad : list label := [SetText ua (Some text1); Change ua 1; Tick 5; Start ua 0] ++ acts ua 0 3.
Lemma same_files : forall S F h q, reaches S F h q -> (forall G, ~ In (Files G) h) -> q_fs q = F.
Proof.
  intros S F. apply (reaches_ind S F (fun h q => (forall G, ~ In (Files G) h) -> q_fs q = F)); [reflexivity|].
  intros h l q q' R IH E H. rewrite (fs_step _ _ _ _ E). destruct l; try (apply IH; intros G I; apply (H G), in_app_iff; auto).
  exfalso. apply (H F0), in_app_iff. simpl. auto.
Qed.
Example C41_failing_example :
  (forall G, was_fs (zx 5) (zx_fs (u "?")) run_bad G ->
     exists e, generate_config (t_env (z_tool (zx 5))) G [u "d"; u "a.py"] None (Some (z_options (zx 5))) = Err e) /\
  sees (fun q => map (fun t => (map (fun e => match e with VDoc _ => 0 | VHas _ false => 1 | VLooked _ => 2 | _ => 3 end) (h_done t),
                                match h_now t with JEnd (Err TOMLDecodeError) => true | _ => false end))
                     (d_threads (q_docs q ua))) (zx 5) (zx_fs (u "?")) run_bad = Some [([0; 1; 2], true)].
Proof.
  split; [|vm_compute; reflexivity]. intros G (h1 & h2 & q & E & R & <-).
  rewrite (same_files _ _ _ _ R); [exists TOMLDecodeError; vm_compute; reflexivity|].
  intros F I. assert (J : In (Files F) run_bad) by (rewrite E, in_app_iff; auto). clear - J. cbn in J. repeat (destruct J as [J|J]; [discriminate J|]). exact J.
Qed.
Example C41_once_example :
  no_overlap_on (zx 0) (zx_fs []) ([SetText ua (Some text1); Change ua 1] ++ acts ua 0 7 ++ [Change ua 2] ++ acts ua 1 5) [u "d"; u "a.py"] /\
  sees (fun q => map (fun t => List.length (filter (fun e => match e with VStored _ _ => true | _ => false end) (h_done t))) (d_threads (q_docs q ua)))
    (zx 0) (zx_fs []) ([SetText ua (Some text1); Change ua 1] ++ acts ua 0 7 ++ [Change ua 2] ++ acts ua 1 5) = Some [1; 0].
Proof. split; [now apply C41_immediate|vm_compute; reflexivity]. Qed.

(** Two requests that overlap can compute and use two different configurations. *)
Definition run3 : list label :=
  [SetText ua (Some text1); Change ua 1; Tick 5; Start ua 0] ++ acts ua 0 3 ++
  [Change ua 2; Tick 5; Start ua 1] ++ acts ua 1 2.
Lemma map_some : forall A B (f : A -> B) o y, option_map f o = Some y -> exists x, o = Some x /\ f x = y.
Proof. intros A B f [x|] y H; [|discriminate]. injection H as <-. eauto. Qed.
Theorem C41_overlap_refuted : ~ (forall S F h p c c', was_cached S F h p c -> was_cached S F h p c' -> c = c').
Proof.
  intro H. set (p := [u "d"; u "a.py"]).
  assert (E1 : exists q1, reaches (zx 5) (zx_fs []) (run3 ++ acts ua 0 1) q1 /\ option_map c_formatter (q_cache q1 p) = Some None)
    by (apply (sees_some _ (fun q => option_map c_formatter (q_cache q p))); vm_compute; reflexivity).
  assert (E2 : exists q2, reaches (zx 5) (zx_fs []) ((run3 ++ acts ua 0 1) ++ [Files (zx_fs (u "shout"))] ++ acts ua 1 2) q2 /\ option_map c_formatter (q_cache q2 p) = Some (Some (u "shout")))
    by (apply (sees_some _ (fun q => option_map c_formatter (q_cache q p))); vm_compute; reflexivity).
  destruct E1 as (q1 & R1 & E1). destruct E2 as (q2 & R2 & E2).
  apply map_some in E1, E2. destruct E1 as (c1 & C1 & E1), E2 as (c2 & C2 & E2).
  assert (c1 = c2).
  { eapply H with (h := (run3 ++ acts ua 0 1) ++ [Files (zx_fs (u "shout"))] ++ acts ua 1 2).
    - exists (run3 ++ acts ua 0 1), ([Files (zx_fs (u "shout"))] ++ acts ua 1 2), q1. eauto.
    - exists ((run3 ++ acts ua 0 1) ++ [Files (zx_fs (u "shout"))] ++ acts ua 1 2), [], q2. rewrite app_nil_r. eauto. }
  subst c2. rewrite E1 in E2. discriminate E2.
Qed.

(** ** C44 *)

(** A slow validation publishes its old diagnostics after the new ones. *)
Definition run4 : list label :=
  [SetText ua (Some text1); Change ua 1; Tick 5; Start ua 0] ++ acts ua 0 6 ++
  [SetText ua (Some (u "x")); Change ua 2; Tick 5; Start ua 1] ++ acts ua 1 5 ++ acts ua 0 1.
Theorem C44_refuted : ~ (forall S F h q u, reaches S F h q -> StronglySorted Z.lt (changes u h) ->
  StronglySorted Z.lt (map fst (d_published (q_docs q u)))).
Proof.
  intro H. assert (E : exists q, reaches (zx 5) (zx_fs []) run4 q /\ map fst (d_published (q_docs q ua)) = [2; 1]%Z)
    by (apply (sees_some _ (fun q => map fst (d_published (q_docs q ua)))); vm_compute; reflexivity).
  destruct E as (q & R & E). specialize (H _ _ _ _ ua R). rewrite E in H.
  assert (K : StronglySorted Z.lt [2; 1]%Z).
  { apply H. change (StronglySorted Z.lt [1; 2]%Z). repeat constructor. }
  inversion K as [|? ? _ K2]; subst. inversion K2; subst. lia.
Qed.

(** Validations one after the other. *)
Example C44_example : exists q, reaches (zx 0) (zx_fs []) ([SetText ua (Some text1); Change ua 1] ++ acts ua 0 7 ++ [Change ua 2] ++ acts ua 1 5) q /\
  map fst (d_published (q_docs q ua)) = [1; 2]%Z /\
  StronglySorted Z.lt (changes ua ([SetText ua (Some text1); Change ua 1] ++ acts ua 0 7 ++ [Change ua 2] ++ acts ua 1 5)).
Proof.
  assert (E : exists q, reaches (zx 0) (zx_fs []) ([SetText ua (Some text1); Change ua 1] ++ acts ua 0 7 ++ [Change ua 2] ++ acts ua 1 5) q /\ map fst (d_published (q_docs q ua)) = [1; 2]%Z)
    by (apply (sees_some _ (fun q => map fst (d_published (q_docs q ua)))); vm_compute; reflexivity).
  destruct E as (q & R & E). exists q. split; auto. split; auto. change (StronglySorted Z.lt [1; 2]%Z). repeat constructor.
Qed.

(** ** C43 *)
Definition replies (q : state) : list (option edit) :=
  flat_map (fun t => flat_map (fun e => match e with VReplied x => [x] | _ => [] end) (h_done t)) (d_threads (q_docs q ua)).
Definition run5 : list label := [SetText ua (Some text1); Format ua] ++ acts ua 0 9.

Example C43_example :
  sees (fun q => (replies q, d_text (q_docs q ua))) (zx 5) (zx_fs []) run5 =
  Some ([Some (Edit (Range (Pos 0 0) (Pos 1 12)) (u "x = f(99, 2)" ++ nl))], Some text1).
Proof. vm_compute. reflexivity. Qed.

(** Applying this edit leaves the line end of the old text: the document ends with an empty line. *)
Theorem C43_refuted : ~ (forall S F h q u t ed text, reaches S F h q -> In t (d_threads (q_docs q u)) -> In (VReplied (Some ed)) (h_done t) ->
  d_text (q_docs q u) = Some text -> apply_edit ed text = e_text ed).
Proof.
  intro H. set (ed := Edit (Range (Pos 0 0) (Pos 1 12)) (u "x = f(99, 2)" ++ nl)).
  assert (E : exists q, reaches (zx 5) (zx_fs []) run5 q /\ (replies q, d_text (q_docs q ua)) = ([Some ed], Some text1))
    by (apply (sees_some _ (fun q => (replies q, d_text (q_docs q ua)))); vm_compute; reflexivity).
  destruct E as (q & R & E). injection E as E1 E2.
  assert (X : In (Some ed) (replies q)) by (rewrite E1; simpl; auto). unfold replies in X. apply in_flat_map in X. destruct X as (t & I & X).
  apply in_flat_map in X. destruct X as (e & J & X). destruct e as [| | | | | |e]; try contradiction. destruct X as [->|[]].
  specialize (H _ _ _ _ _ _ _ _ R I J E2). revert H. vm_compute. discriminate.
Qed.

(** Without a line end at the end it is right. *)
Example C43_example_exact : exists rg, plain (u "a" ++ nl ++ u "b") /\ bmp (last (splitlines (u "a" ++ nl ++ u "b")) []) /\
  entire_range (splitlines (u "a" ++ nl ++ u "b")) = Ok rg /\ apply_edit (Edit rg (u "new")) (u "a" ++ nl ++ u "b") = u "new".
Proof.
  eexists. split; [|split; [|split; [vm_compute; reflexivity|vm_compute; reflexivity]]].
  - intros c I B. vm_compute in I. repeat (destruct I as [<-|I]; [auto; discriminate|]). contradiction.
  - intros c I. vm_compute in I. repeat (destruct I as [<-|I]; [vm_compute; reflexivity|]). contradiction.
Qed.

(** Characters beyond the basic plane count as two for the client, as one for the server: part of
    the old text stays. *)
Theorem C43_astral_refuted : ~ (forall text new rg, plain text -> ending text = [] -> entire_range (splitlines text) = Ok rg ->
  apply_edit (Edit rg new) text = new).
Proof.
  intro H. assert (K := H [128512; 97]%N [] _ ltac:(intros c [<-|[<-|[]]]; discriminate) eq_refl eq_refl). vm_compute in K. discriminate.
Qed.

(** With a form feed in the document the range goes beyond the end for the client, and the result is right. *)
Example C43_example_feed : let text := u "a" ++ [12]%N ++ u "b" ++ nl in exists rg, python_breaks text /\ ending text <> [] /\
  entire_range (splitlines text) = Ok rg /\ apply_edit (Edit rg (u "new")) text = u "new".
Proof.
  eexists. split; [exists (u "a"), 12%N, (u "b" ++ nl); repeat split; try reflexivity; discriminate|]. split; [discriminate|]. split; vm_compute; reflexivity.
Qed.

(** An empty document has no last line. *)
Example C43_empty : entire_range (splitlines []) = Err IndexError.
Proof. reflexivity. Qed.

(** ** C77 *)
Definition is_ready (S : server) (q : state) : bool := match step S q (SetText ua None) with Some _ => true | None => false end.

(** A formatting request keeps the server busy for nine actions: the bound is exact. *)
Example C77_example_busy :
  map (fun n => sees (is_ready (zx 5)) (zx 5) (zx_fs []) ([SetText ua (Some text1); Format ua] ++ acts ua 0 n)) [0; 8; 9] = [Some false; Some false; Some true].
Proof. vm_compute. reflexivity. Qed.
Example C77_example_answer :
  sees (fun q => map (fun t => (answers t, match h_now t with JEnd r => Some r | _ => None end)) (d_threads (q_docs q ua))) (zx 5) (zx_fs []) run5 =
  Some [([Some (Edit (Range (Pos 0 0) (Pos 1 12)) (u "x = f(99, 2)" ++ nl))], Some (Ok tt))].
Proof. vm_compute. reflexivity. Qed.
(** The document is not open and the file does not exist; the document is empty. *)
Example C77_example_missing :
  sees (fun q => map (fun t => (answers t, match h_now t with JEnd r => Some r | _ => None end)) (d_threads (q_docs q ua))) (zx 5) (zx_fs []) [Format ua; Act ua 0] =
  Some [([], Some (Err OSError))].
Proof. vm_compute. reflexivity. Qed.
Example C77_example_empty :
  sees (fun q => map (fun t => (answers t, match h_now t with JEnd r => Some r | _ => None end)) (d_threads (q_docs q ua))) (zx 5) (zx_fs []) ([SetText ua (Some []); Format ua] ++ acts ua 0 8) =
  Some [([], Some (Err IndexError))].
Proof. vm_compute. reflexivity. Qed.
(** The hypotheses of C77_eventually. *)
Example C77_example_eventually : exists q, reaches (zx 5) (zx_fs []) run2 q /\ z_path (zx 5) ua = Some [u "d"; u "a.py"] /\ changes ua run2 = [1]%Z ++ [2]%Z.
Proof. eexists. split; [vm_compute; reflexivity|]. split; reflexivity. Qed.
