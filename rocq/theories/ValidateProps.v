(** * C48: validate-config for any config *)
From Coq Require Import String List NArith ZArith Bool Arith.
From Verif Require Import Base PyStr Regex Ftypes Paths Config ConfigSpec ConfigFacts
  Collect CollectSpec CollectFacts CollectSelect CollectProps.
Import ListNotations.

(** The entries of any config: its parts in order, each a list of entries or of the wrong type. Python iterates over a text
    (its characters) and a table (its keys) as over an array. *)
Definition part := (list (str * toml) + exn)%type.
Definition members (v : toml) : list toml + exn :=
  match v with
  | TArr l => inl l
  | TStr s => inl (map (fun c => TStr [c]) s)
  | TTab t => inl (map (fun k => TStr k) (dkeys t))
  | _ => inr TypeError
  end.
Definition part_of (context key : string) (d : table) : part :=
  match dget (u key) d with
  | None => inl []
  | Some v => match members v with inl l => inl (map (pair (u context)) l) | inr e => inr e end
  end.
Definition path_part (d : table) : part :=
  match dget (u "path") d with None | Some (TStr _) => inl [] | Some _ => inr TypeError end.
Definition override_parts (o : toml) : list part :=
  match o with
  | TTab t => [path_part t; part_of "override enable" "enable" t; part_of "override disable" "disable" t]
  | _ => [inr AttributeError]
  end.
Definition parts (d : table) : list part :=
  part_of "global enable" "enable" d :: part_of "global disable" "disable" d ::
  match dget (u "overrides") d with
  | None => []
  | Some v => match members v with inl l => flat_map override_parts l | inr e => [inr e] end
  end.
(** the entries before the first part of the wrong type, and that part's exception *)
Fixpoint looked_at (l : list part) : list (str * toml) * option exn :=
  match l with
  | [] => ([], None)
  | inr e :: _ => ([], Some e)
  | inl es :: l' => let (rest, e) := looked_at l' in (es ++ rest, e)
  end.

(** Any config that can be read: the verdicts on the entries before the first part of the wrong type, then that part. *)
Lemma looked_at_app : forall a b, looked_at (a ++ b) =
  match looked_at a with (es, None) => let (rest, e) := looked_at b in (es ++ rest, e) | (es, Some e) => (es, Some e) end.
Proof.
  induction a as [|[es|e] a IH]; intro b; cbn [app looked_at].
  - destruct (looked_at b). reflexivity.
  - rewrite IH. destruct (looked_at a) as [x [e|]]; [reflexivity|]. destruct (looked_at b) as [y f]. now rewrite app_assoc.
  - reflexivity.
Qed.
Section Any.
  Context (W : world) (root : path).
  Definition judged (sp : list str) (es : list (str * toml)) : list message := flat_map (fun e => verdict W root sp (fst e) (snd e)) es.
  Definition matches (l : list part) (msgs : list message) (sp : list str) (r : list message * pystate * option exn) : Prop :=
    exists py', r = (msgs ++ judged sp (fst (looked_at l)), py', snd (looked_at l)) /\ ps_path py' = sp.
  Lemma judged_app : forall sp a b, judged sp (a ++ b) = judged sp a ++ judged sp b.
  Proof. intros. apply flat_map_app. Qed.
  Lemma matches_nil : forall msgs py, matches [] msgs (ps_path py) (msgs, py, None).
  Proof. intros msgs py. exists py. cbn. now rewrite app_nil_r. Qed.
  Lemma matches_then : forall l l' msgs sp r (k : list message * pystate -> list message * pystate * option exn), matches l msgs sp r ->
    (forall m p, ps_path p = sp -> matches l' m sp (k (m, p))) ->
    matches (l ++ l') msgs sp (let '(st, e) := r in match e with Some e => (st, Some e) | None => k st end).
  Proof.
    intros l l' msgs sp r k (py & -> & P) K. unfold matches. rewrite looked_at_app. destruct (looked_at l) as [es [e|]]; cbn [fst snd].
    - exists py. auto.
    - destruct (K (msgs ++ judged sp es) py P) as (p' & -> & P'). exists p'. split; auto. destruct (looked_at l') as [rest e']. cbn [fst snd]. now rewrite judged_app, app_assoc.
  Qed.
  Lemma members_iter : forall v, iter_toml v = match members v with inl l => Ok l | inr e => Err e end.
  Proof. intros []; try reflexivity. cbn. unfold dkeys. now rewrite map_map. Qed.
  Lemma rules_match : forall context key d msgs py, matches [part_of context key d] msgs (ps_path py) (validate_rules W root (dget (u key) d) (u context) (msgs, py)).
  Proof.
    intros context key d msgs py. unfold part_of, validate_rules. destruct (dget (u key) d) as [v|]; [|exists py; cbn; now rewrite app_nil_r].
    rewrite members_iter. destruct (members v) as [l|e]; [|exists py; cbn; now rewrite app_nil_r].
    destruct (validate_rules_fold W root (u context) l msgs py) as [A B]. destruct (fold_left _ l (msgs, py)) as [m p]. cbn [fst snd] in A, B. exists p. split; auto. subst m. cbn [looked_at fst snd]. rewrite app_nil_r.
    unfold judged. f_equal. f_equal. f_equal. clear. induction l as [|x l IH]; cbn; [reflexivity|]. now rewrite IH.
  Qed.
  Lemma matches_eq : forall l msgs sp r r', matches l msgs sp r -> r' = r -> matches l msgs sp r'.
  Proof. intros l msgs sp r r' H ->. exact H. Qed.
  Lemma override_match : forall o msgs py, matches (override_parts o) msgs (ps_path py) (validate_override W root (msgs, py) o).
  Proof.
    intros o msgs py. destruct o as [| | | | | |d]; try (exists py; cbn; now rewrite app_nil_r). cbn [override_parts validate_override].
    assert (K : matches ([part_of "override enable" "enable" d] ++ [part_of "override disable" "disable" d]) msgs (ps_path py)
      (let '(st, e) := validate_rules W root (dget (u "enable") d) (u "override enable") (msgs, py) in
       match e with Some e => (st, Some e) | None => validate_rules W root (dget (u "disable") d) (u "override disable") st end)).
    { apply matches_then; [apply rules_match|]. intros m p P. rewrite <- P. apply rules_match. }
    unfold path_part. destruct (dget (u "path") d) as [v|]; [destruct v|]; try (exists py; cbn; now rewrite app_nil_r);
      (destruct K as (p' & K & P); exists p'; rewrite K; split; [|exact P]; cbn [app looked_at];
       destruct (part_of "override enable" "enable" d) as [a|a], (part_of "override disable" "disable" d) as [b|b]; reflexivity).
  Qed.
  Lemma overrides_match : forall l msgs py, matches (flat_map override_parts l) msgs (ps_path py) (validate_overrides W root l (msgs, py)).
  Proof.
    induction l as [|o l IH]; intros msgs py; cbn [flat_map validate_overrides]; [apply matches_nil|]. apply matches_then; [apply override_match|]. intros m p P. rewrite <- P. apply IH.
  Qed.
End Any.
Theorem C48_any : forall W E F p py rc, read_configs E F [p] = Ok [rc] ->
  fst (validate_config W E F p py) =
  flat_map (fun e => verdict W (parent p) (ps_path py) (fst e) (snd e)) (fst (looked_at (parts (rc_data rc)))) ++
  match snd (looked_at (parts (rc_data rc))) with Some e => [MInvalid e] | None => [] end.
Proof.
  intros W E F p py rc H. unfold validate_config, validate_body. rewrite H. set (d := rc_data rc).
  assert (K : matches W (parent p) (parts d) [] (ps_path py)
    (let '(st, e) := validate_rules W (parent p) (dget (u "enable") d) (u "global enable") ([], py) in
     match e with Some e => (st, Some e) | None =>
       let '(st, e) := validate_rules W (parent p) (dget (u "disable") d) (u "global disable") st in
       match e with Some e => (st, Some e) | None =>
         match dget (u "overrides") d with None => (st, None) | Some v => match iter_toml v with Err e => (st, Some e) | Ok l => validate_overrides W (parent p) l st end end
       end end)).
  { unfold parts. apply (matches_then W (parent p) [_]); [apply rules_match|]. intros m1 p1 P1. rewrite <- P1. apply (matches_then W (parent p) [_]); [apply rules_match|]. intros m2 p2 P2.
    rewrite <- P2. destruct (dget (u "overrides") d) as [v|]; [|apply matches_nil]. rewrite members_iter. destruct (members v) as [l|e]; [apply overrides_match|]. exists p2. cbn. now rewrite app_nil_r. }
  destruct K as (py' & -> & _). cbn [app]. unfold judged. destruct (looked_at (parts d)) as [es [e|]]; cbn [fst snd]; [reflexivity|]. now rewrite app_nil_r.
Qed.

Example C48_any_example :
  let bad := [(u "enable", TArr [TStr (u "bad")]); (u "overrides", TArr [TTab [(u "enable", TArr [TStr (u ".q")]); (u "disable", TInt 1)]; TTab [(u "enable", TArr [TStr (u ".q")])]])] in
  fst (validate_config W0 (E0 (doc bad)) F0 P0 S0) =
  [MImport (TStr (u "bad")) (u "global enable") CollectionError; MImport (TStr (u ".q")) (u "override enable") CollectionError; MInvalid TypeError].
Proof. vm_compute. reflexivity. Qed.
