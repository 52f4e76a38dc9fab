(** * An example for C87: a small language of lists, and "list([list([1])])" fixed again and again *)
From Coq Require Import String List NArith ZArith Bool Arith Lia Permutation.
From Verif Require Import Base PyStr Py Rules RulesSpec Whole WholeSpec WholeFacts WholeProps Ftypes Paths Config Collect CollectSpec
  Suppress SuppressSpec Cst EditFacts Engine EngineProps Batch Api ApiSpec System SystemSpec SystemProps SystemSame
  Session SessionSpec SessionProps Cli CliSpec CliProps Commands CommandsSpec DiskSpec DiskProps ProgramSpec ProgramFacts ProgramProps.
Import ListNotations.

(** Odd numbers are expressions. *)
Definition node8 : N -> bool := N.odd.
Definition hole : tree := Node 1 false [].
Definition item_hole : tree := Node 0 false [Req hole; Sep None (u ", ")].
Definition plain8 (a : Py.arg) : bool := match fst a with (NoStar, None) => true | _ => false end.

Definition digit8 (s : str) : bool := match s with c :: _ => N.leb 48 c && N.leb c 57 | [] => false end.

(** How an expression is written, with its parts left out *)
Definition shape (e : expr) : option tree :=
  match e with
  | Other 0 [_] => Some (Node 0 false [Body None [Node 0 true [Ind; Seq true [Node 0 false [Req hole; Sep None (u "; ")]]; Txt nl]]])
  | Number s => if digit8 s then Some (Node 0 false [Txt s]) else None
  | Name s => if digit8 s then None else Some (Node 0 false [Txt s])
  | List es => if forallb (fun x => negb (fst x)) es then Some (Node 0 false [Txt (u "["); Seq false (map (fun _ => item_hole) es); Txt (u "]")]) else None
  | Py.Call _ args => if forallb plain8 args then Some (Node 0 false [Req hole; Txt (u "("); Seq false (map (fun _ => item_hole) args); Txt (u ")")]) else None
  | _ => None
  end.
Definition form8 (e : expr) (s : tree) : Prop := shape e = Some s.

Lemma form8_law : form_law form8.
Proof.
  intros f e s H. unfold form8 in *. destruct e; try discriminate H; try exact H; cbn [rebuild shape] in *.
  - assert (E : forall l, forallb plain8 (map (fun a : Py.arg => (fst a, f (snd a))) l) = forallb plain8 l) by (induction l as [|x l IH]; [reflexivity|]; cbn [map forallb]; rewrite IH; reflexivity).
    rewrite E, map_map. exact H.
  - assert (E : forall l, forallb (fun x : bool * expr => negb (fst x)) (map (fun x : bool * expr => (fst x, f (snd x))) l) = forallb (fun x : bool * expr => negb (fst x)) l)
      by (induction l as [|x l IH]; [reflexivity|]; cbn [map forallb]; rewrite IH; reflexivity).
    rewrite E, map_map. exact H.
  - destruct n; [|discriminate H]. destruct es as [|x [|y es]]; try discriminate H. exact H.
Qed.

(** ** The text of a program *)
Fixpoint commas (l : list str) : str := match l with [] => [] | [x] => x | x :: l' => x ++ u ", " ++ commas l' end.
Fixpoint show8 (e : expr) : str :=
  match e with
  | Other _ [x] => show8 x ++ nl
  | Name s | Number s => s
  | List es => u "[" ++ commas (map (fun x => show8 (snd x)) es) ++ u "]"
  | Py.Call g args => show8 g ++ u "(" ++ commas (map (fun a => show8 (snd a)) args) ++ u ")"
  | _ => []
  end.

Lemma blank_hole : forall t, blank node8 t = hole -> node8 (node_id t) = true.
Proof. intros [id line ps] H. cbn [blank] in H. cbn [node_id]. destruct (node8 id); auto. discriminate H. Qed.

Lemma blank_item : forall d t, blank node8 t = Node 0 false [Req hole; Sep None d] -> exists id t', t = Node id false [Req t'; Sep None d] /\ node8 (node_id t') = true /\ held node8 t = [t'].
Proof.
  intros d [id line ps] H. cbn [blank] in H. destruct (node8 id) eqn:E; [discriminate H|]. injection H as -> H.
  destruct ps as [|p [|q [|? ?]]]; try discriminate H. cbn [map] in H. injection H as Hp Hq.
  destruct p as [s0| |t|o|o d0|b0 l0|b0 l0]; try destruct o; try discriminate Hp. cbn [blank_part] in Hp. injection Hp as Hp. apply blank_hole in Hp.
  destruct q as [s0| |t0|o|o d0|b0 l0|b0 l0]; try destruct o; try discriminate Hq. injection Hq as ->.
  exists id, t. split; auto. split; auto. cbn [held]. rewrite E. cbn [flat_map held_part app]. destruct t as [i l0 ps0]. cbn [held node_id] in *. rewrite Hp. reflexivity.
Qed.

Lemma items_render : forall l, map (blank node8) l = map (fun _ : tree => item_hole) l -> forall ind b ts, flat_map (held node8) l = ts ->
  render_part ind b (Seq false l) = commas (map (render ind false) ts).
Proof.
  intros l H ind b ts <-. destruct l as [|x l]; [reflexivity|]. cbn [render_part]. revert x H. induction l as [|y l IH]; intros x H; cbn [map] in H.
  - injection H as Hx. apply blank_item in Hx. destruct Hx as (id & t & -> & Nt & He). cbn [flat_map]. rewrite He. cbn. rewrite !app_nil_r. reflexivity.
  - injection H as Hx Hy Hl. assert (H : map (blank node8) (y :: l) = map (fun _ : tree => item_hole) (y :: l)) by (cbn [map]; congruence). destruct (blank_item _ _ Hx) as (id & t & -> & Nt & He). cbn [flat_map]. rewrite He. change ([t] ++ ?z) with (t :: z). cbn [map].
    specialize (IH y H). cbn [flat_map] in IH. cbn [render flat_map] in *. cbn [render_part]. rewrite app_nil_r, <- !app_assoc.
    destruct (map (render ind false) (held node8 y ++ flat_map (held node8) l)) as [|z zs] eqn:E.
    + exfalso. apply blank_item in Hy. destruct Hy as (? & ? & _ & _ & Hy). rewrite Hy in E. discriminate E.
    + change (commas (?a :: z :: zs)) with (a ++ u ", " ++ commas (z :: zs)). rewrite <- IH. reflexivity.
Qed.

Lemma text_part : forall p s, blank_part node8 p = Txt s -> p = Txt s.
Proof. intros [s0| |t0|[o|]|[o|] d0|b0 l0|b0 l0] s H; try discriminate H. injection H as ->. reflexivity. Qed.
Lemma seq_part : forall p b l, blank_part node8 p = Seq b l -> exists l', p = Seq b l' /\ map (blank node8) l' = l.
Proof. intros [s0| |t0|[o|]|[o|] d0|b0 l0|b0 l0] b l H; try discriminate H. injection H as -> H. eauto. Qed.
Lemma req_part : forall p, blank_part node8 p = Req hole -> exists t, p = Req t /\ held node8 t = [t].
Proof.
  intros [s0| |t0|[o|]|[o|] d0|b0 l0|b0 l0] H; try discriminate H. injection H as H. apply blank_hole in H. exists t0. split; auto.
  destruct t0 as [i l ps]. cbn [held node_id] in *. now rewrite H.
Qed.

Lemma same_holes : forall (A : Type) l (m : list A), map (blank node8) l = map (fun _ => item_hole) m -> map (blank node8) l = map (fun _ => item_hole) l.
Proof.
  intros A l. induction l as [|x l IH]; intros [|y m] H; try discriminate H; [reflexivity|]. cbn [map] in *. injection H as -> H. f_equal. eauto.
Qed.

(** However a program is laid out, its text is the same. *)
Lemma laid_text : forall e t, laid node8 form8 t e -> forall b, render [] b t = show8 e.
Proof.
  apply (expr_children (fun e => forall t, laid node8 form8 t e -> forall b, render [] b t = show8 e)). intros e IH t H b.
  inversion H as [t0 e0 Nt Rt Fm Ch E1 E2]; subst t0 e0. destruct t as [id line ps]. unfold form8 in Fm. cbn [outline] in Fm.
  assert (Tx : forall ts es, Forall2 (laid node8 form8) ts es -> incl es (children e) -> map (render [] false) ts = map show8 es).
  { intros ts es F I. induction F as [|x y ts es L F IF]; [reflexivity|]. cbn [map]. rewrite IF by (intros z Iz; apply I; now right). f_equal.
    rewrite Forall_forall in IH. apply IH; auto. apply I. now left. }
  cbn [render]. destruct e; try discriminate Fm; cbn [shape] in Fm.
  - destruct (digit8 _); [discriminate Fm|]. injection Fm as <- Fm. destruct ps as [|p [|? ?]]; try discriminate Fm. injection Fm as Fm. symmetry in Fm. apply text_part in Fm. subst p. cbn. apply app_nil_r.
  - destruct (digit8 _); [|discriminate Fm]. injection Fm as <- Fm. destruct ps as [|p [|? ?]]; try discriminate Fm. injection Fm as Fm. symmetry in Fm. apply text_part in Fm. subst p. cbn. apply app_nil_r.
  - destruct (forallb plain8 args); [|discriminate Fm]. injection Fm as <- Fm. destruct ps as [|p1 [|p2 [|p3 [|p4 [|? ?]]]]]; try discriminate Fm. cbn [map] in Fm. injection Fm as F1 F2 F3 F4.
    symmetry in F1, F2, F3, F4. apply req_part in F1. destruct F1 as (t & -> & Ht). apply text_part in F2, F4. subst p2 p4. apply seq_part in F3. destruct F3 as (l & -> & Hl).
    change (below node8 _) with (held node8 t ++ flat_map (held node8) l ++ []) in Ch. rewrite Ht in Ch. cbn [children app] in Ch. inversion Ch as [|? ? ? ? L1 L2]; subst.
    rewrite Forall_forall in IH. pose proof (same_holes _ _ _ Hl) as Ln. rewrite app_nil_r in L2.
    transitivity (render [] false t ++ u "(" ++ render_part [] b (Seq false l) ++ u ")" ++ []); [reflexivity|]. rewrite (items_render l Ln [] b _ eq_refl).
    rewrite (IH _ ltac:(left; reflexivity) t L1 false), (Tx _ _ L2) by (intros z Iz; cbn; auto). rewrite map_map. reflexivity.
  - destruct (forallb _ _); [|discriminate Fm]. injection Fm as <- Fm. destruct ps as [|p1 [|p2 [|p3 [|? ?]]]]; try discriminate Fm. cbn [map] in Fm. injection Fm as F1 F2 F3.
    symmetry in F1, F2, F3. apply text_part in F1, F3. subst p1 p3. apply seq_part in F2. destruct F2 as (l & -> & Hl).
    change (below node8 _) with (flat_map (held node8) l ++ []) in Ch. rewrite app_nil_r in Ch. cbn [children] in Ch. pose proof (same_holes _ _ _ Hl) as Ln.
    transitivity (u "[" ++ render_part [] b (Seq false l) ++ u "]" ++ []); [reflexivity|]. rewrite (items_render l Ln [] b _ eq_refl).
    rewrite (Tx _ _ Ch) by (intros z Iz; exact Iz). rewrite map_map. reflexivity.
  - destruct n; [|discriminate Fm]. destruct es as [|x [|? ?]]; try discriminate Fm. injection Fm as <- Fm. destruct ps as [|p [|? ?]]; try discriminate Fm. cbn [map] in Fm. injection Fm as Fm.
    symmetry in Fm. destruct p as [s0| |t0|[o|]|[o|] d0|b0 l0|b0 l0]; try discriminate Fm. cbn [blank_part] in Fm. injection Fm as -> Fm. destruct l0 as [|[li ll lp] [|? ?]]; try discriminate Fm.
    cbn [map] in Fm. injection Fm as Fm. cbn [blank] in Fm. destruct (node8 li) eqn:Eli; [discriminate Fm|]. injection Fm as -> Fm.
    destruct lp as [|p1 [|p2 [|p3 [|? ?]]]]; try discriminate Fm. cbn [map] in Fm. injection Fm as F1 F2 F3. apply text_part in F3. subst p3. apply seq_part in F2. destruct F2 as (l & -> & Hl).
    destruct p1 as [s0| |t0|[o|]|[o|] d0|b0 l0|b0 l0]; try discriminate F1. destruct l as [|y [|? ?]]; try discriminate Hl. cbn [map] in Hl. injection Hl as Hl. apply blank_item in Hl.
    destruct Hl as (si & t & -> & Nt' & He).
    assert (Bl : below node8 (Node id false [Body None [Node li true [Ind; Seq true [Node si false [Req t; Sep None (u "; ")]]; Txt nl]]]) = [t]).
    { transitivity ((if node8 li then [Node li true [Ind; Seq true [Node si false [Req t; Sep None (u "; ")]]; Txt nl]]
                     else (held node8 (Node si false [Req t; Sep None (u "; ")]) ++ []) ++ []) ++ []); [rewrite !app_nil_r; cbn; destruct (node8 li), (node8 si); rewrite ?app_nil_r; reflexivity|].
      rewrite Eli, He. reflexivity. }
    rewrite Bl in Ch. specialize (Tx _ _ Ch ltac:(intros z Iz; exact Iz)). cbn [map] in Tx. injection Tx as Tx.
    transitivity ((render [] false t ++ []) ++ nl); [cbn; rewrite ?app_nil_r; reflexivity|]. rewrite app_nil_r, Tx. reflexivity.
Qed.

(** ** The system *)
Definition word (i : N) (s : str) : tree := Node i false [Txt s].
Definition item8 (i : N) (t : tree) : tree := Node i false [Req t; Sep None (u ", ")].
Definition list8 (i : N) (l : list tree) : tree := Node i false [Txt (u "["); Seq false l; Txt (u "]")].
Definition call8 (i : N) (f : tree) (l : list tree) : tree := Node i false [Req f; Txt (u "("); Seq false l; Txt (u ")")].
Definition top8 (t : tree) : module := Mod (Node 101 false [Body None [Node 102 true [Ind; Seq true [Node 104 false [Req t; Sep None (u "; ")]]; Txt nl]]]) true nl.

Definition one : expr := List [(false, Number (u "1"))].
Definition list_of (e : expr) : expr := Py.Call (Name (u "list")) [plain_arg e].
Definition prog0 : expr := Other 0 [list_of (List [(false, list_of one)])].
Definition prog1 : expr := Other 0 [List [(false, list_of one)]].
Definition prog2 : expr := Other 0 [List [(false, one)]].

Definition tree_one : tree := list8 11 [item8 8 (word 13 (u "1"))].
Definition inner8 : tree := call8 7 (word 9 (u "list")) [item8 6 tree_one].
Definition mod0 : module := top8 (call8 1 (word 3 (u "list")) [item8 2 (list8 5 [item8 4 inner8])]).
Definition mod1 : module := top8 (list8 5 [item8 4 inner8]).
Definition mod2 : module := top8 (list8 5 [item8 4 tree_one]).

Example shown8 : map show8 [prog0; prog1; prog2] = map (fun s => u s ++ nl) ["list([list([1])])"; "[list([1])]"; "[[1]]"]%string.
Proof. vm_compute. reflexivity. Qed.

Definition parse8 (s : str) : res module :=
  if str_eqb s (show8 prog0) then Ok mod0 else if str_eqb s (show8 prog1) then Ok mod1 else if str_eqb s (show8 prog2) then Ok mod2 else Err ParserSyntaxError.

(** What the batched visitor goes through *)
Fixpoint cst8 (t : tree) : cst :=
  match t with
  | Node id _ ps => Cst id (match ps with [Req _; Txt _; _; _] => u "Call" | _ => u "Node" end) [(u "parts", flat_map cst8_part ps)]
  end
with cst8_part (p : part) : list cst :=
  match p with
  | Req t => [cst8 t]
  | Seq _ l | Body _ l => map cst8 l
  | _ => []
  end.
Fixpoint find8 (i : N) (t : tree) : list tree :=
  match t with Node id _ ps => if N.eqb id i then [t] else flat_map (find8_part i) ps end
with find8_part (i : N) (p : part) : list tree :=
  match p with
  | Req t => find8 i t
  | Seq _ l | Body _ l => flat_map (find8 i) l
  | _ => []
  end.

(** rewrite_to_literal.py for lists only: "list([...])" becomes "[...]". *)
Definition literal8 : rule_code :=
  RuleCode (u "RewriteToLiteral") (Some (u "It is slower to call list() than to use []")) unit tt
    (fun md method => if str_eqb method (u "visit_Call")
       then Some (fun c _ => match c with Cst i _ _ =>
              (match find8 i (m_tree md) with
               | [Node _ _ [Req (Node _ _ [Txt f]); _; Seq _ [Node _ _ [Req (Node _ _ (Txt b :: ps)); _]]; _]] =>
                   if str_eqb f (u "list") && str_eqb b (u "[") then [Say i None PosDefault (Some (RNode (Node 99 false (Txt b :: ps))))] else []
               | _ => []
               end, Ok tt) end)
       else None).

Definition system8 : system :=
  let Y := system2 (u "rules") (u "rules") in
  MkSystem (y_env Y) (y_unicode Y) (y_world Y) (y_py Y) (fun _ _ => literal8) parse8
    (fun md => Ok (Metadata (cst8 (m_tree md)) (fun _ => Place [] [] false) (fun _ => ex_range)))
    (y_took Y) (y_udiff Y) (fun md => Ok (code (Mod (m_tree md) true nl))) (y_style Y) (y_walk Y).
Definition fix8 : cmd N := whole_fix ex_cli system8 [u "d"; u "stdin"] ex_opts false false false [PathArg x_py] session0.
Definition disk0 : fs := put fs2 x_py (Some (show8 prog0)).
Definition disk1 : fs := put disk0 x_py (Some (show8 prog1)).
Definition disk2 : fs := put disk1 x_py (Some (show8 prog2)).
Definition rules8 : list (expr -> res Rules.report) := [sure to_literal].

Example live8 :
  let '(vs0, o0, F1) := live fix8 disk0 [] in let '(vs1, o1, F2) := live fix8 disk1 [] in let '(vs2, o2, F3) := live fix8 disk2 [] in
  o0 = Returned 0%N /\ o1 = Returned 0%N /\ o2 = Returned 0%N /\ F1 = disk1 /\ F2 = disk2 /\ F3 = disk2.
Proof. vm_compute. repeat split. Qed.

Definition progs8 : list (expr * module) := [(prog0, mod0); (prog1, mod1); (prog2, mod2)].

Lemma laid8 : forall e md, In (e, md) progs8 -> laid node8 form8 (m_tree md) e.
Proof.
  intros e md I. repeat (destruct I as [I|I]; [injection I as <- <-; repeat (constructor; [reflexivity|reflexivity|reflexivity|]; cbn; repeat apply Forall2_cons; try apply Forall2_nil)|]). contradiction.
Qed.

Lemma becomes8 : forall e0 e, becomes rules8 e0 e -> In e0 (map fst progs8) -> In e (map fst progs8).
Proof.
  intros e0 e H. induction H as [e|e r e' P B IH]; intro I; auto. apply IH. apply Permutation_sym, Permutation_length_1_inv in P. subst r.
  destruct I as [<-|[<-|[<-|[]]]]; vm_compute; auto.
Qed.

Lemma not_silenced8 : forall U t g C s, ~ silenced U (Metadata t (fun _ => Place [] [] false) g) C s.
Proof.
  intros U t g C s (name & c & _ & [(inner & n & outer & E & _)|([] & _)] & _). cbn in E. destruct inner; discriminate E.
Qed.

Lemma reads8 : forall e, In e (map fst progs8) -> reads node8 form8 system8 (show8 e) e.
Proof.
  intros e I. apply in_map_iff in I. destruct I as ([e' md] & <- & I). cbn [fst]. exists md. eexists. split; [|split; [reflexivity|split; [now apply laid8|split; [|intros C s; apply not_silenced8]]]].
  - destruct I as [I|[I|[I|[]]]]; injection I as <- <-; vm_compute; reflexivity.
  - destruct I as [I|[I|[I|[]]]]; injection I as <- <-; cbn; repeat constructor; cbn; intuition discriminate.
Qed.

Lemma readable8 : forall e', becomes rules8 prog0 e' -> readable node8 form8 system8 x_py (Some ex_opts) e'.
Proof.
  intros e' B F cfg md c Eg L (b & Eb & Fm).
  assert (I : In e' (map fst progs8)) by (apply (becomes8 prog0); [exact B|cbn; auto]).
  assert (c = show8 e') as ->.
  { injection Eb as <-. destruct (c_formatter cfg) as [st|]; [destruct Fm as (fmt & E & _); discriminate E|]. subst c. unfold code. cbn [m_newline m_default_newline m_tree].
    rewrite (laid_text _ _ L). destruct I as [<-|[<-|[<-|[]]]]; vm_compute; reflexivity. }
  split; [|now apply reads8]. destruct I as [<-|[<-|[<-|[]]]]; vm_compute; discriminate.
Qed.

(** The tree determines the program. *)
Lemma word_inv : forall i s e, laid node8 form8 (word i s) e -> if digit8 s then e = Number s else e = Name s.
Proof.
  intros i s e H. inversion H as [t e0 Nt Rt Fm Ch]; subst. unfold form8 in Fm. cbn [word outline map blank_part] in Fm. destruct e; try discriminate Fm; cbn [shape] in Fm.
  - destruct (digit8 s0) eqn:E; [discriminate Fm|]. injection Fm as ->. now rewrite E.
  - destruct (digit8 s0) eqn:E; [|discriminate Fm]. injection Fm as ->. now rewrite E.
  - destruct (forallb _ _); discriminate Fm.
  - destruct (forallb _ _); discriminate Fm.
  - destruct n; [|discriminate Fm]. destruct es as [|? [|? ?]]; discriminate Fm.
Qed.
Lemma list_inv : forall i t j e, node8 i = false -> node8 (node_id t) = true -> laid node8 form8 (list8 j [item8 i t]) e -> exists x, e = List [(false, x)] /\ laid node8 form8 t x.
Proof.
  intros i t j e Ni Nt H. inversion H as [t0 e0 _ Rt Fm Ch]; subst. unfold form8 in Fm. destruct t as [ti tl tp]. cbn [node_id] in Nt. cbn in Fm, Ch. rewrite Ni in Fm, Ch. cbn in Fm, Ch. rewrite Nt in Fm, Ch. destruct e; try discriminate Fm; cbn [shape] in Fm.
  - destruct (digit8 _); discriminate Fm.
  - destruct (digit8 _); discriminate Fm.
  - destruct (forallb _ _); discriminate Fm.
  - destruct es as [|[b x] [|y es]]; cbn [forallb fst negb andb] in Fm; [discriminate Fm| |].
    + destruct b; [discriminate Fm|]. cbn in Ch. inversion Ch; subst. eauto.
    + destruct (_ && _); [discriminate Fm|]. discriminate Fm.
  - destruct n; [|discriminate Fm]. destruct es as [|? [|? ?]]; discriminate Fm.
Qed.
Lemma call_inv : forall i t j f e, node8 i = false -> node8 (node_id t) = true -> node8 (node_id f) = true -> laid node8 form8 (call8 j f [item8 i t]) e ->
  exists g x, e = Py.Call g [plain_arg x] /\ laid node8 form8 f g /\ laid node8 form8 t x.
Proof.
  intros i t j f e Ni Nt Nf H. inversion H as [t0 e0 _ Rt Fm Ch]; subst. unfold form8 in Fm. destruct t as [ti tl tp], f as [fi fl fp]. cbn [node_id] in Nt, Nf.
  cbn in Fm, Ch. rewrite Ni in Fm, Ch. cbn in Fm, Ch. rewrite Nt, Nf in Fm, Ch. destruct e; try discriminate Fm; cbn [shape] in Fm.
  - destruct (digit8 _); discriminate Fm.
  - destruct (digit8 _); discriminate Fm.
  - destruct args as [|[[st kw] x] [|y es]]; cbn [forallb] in Fm; [discriminate Fm| |].
    + destruct st, kw; try discriminate Fm. cbn in Ch. inversion Ch as [|? ? ? ? L1 L2]; subst. inversion L2; subst. eexists _, _. split; [reflexivity|]. auto.
    + destruct (_ && _); [discriminate Fm|]. discriminate Fm.
  - destruct (forallb _ _); discriminate Fm.
  - destruct n; [|discriminate Fm]. destruct es as [|? [|? ?]]; discriminate Fm.
Qed.
Lemma top_inv : forall t e, node8 (node_id t) = true -> laid node8 form8 (m_tree (top8 t)) e -> exists x, e = Other 0 [x] /\ laid node8 form8 t x.
Proof.
  intros t e Nt H. inversion H as [t0 e0 _ Rt Fm Ch]; subst. unfold form8 in Fm. destruct t as [ti tl tp]. cbn [node_id] in Nt.
  cbn in Fm, Ch. rewrite Nt in Fm, Ch. destruct e; try discriminate Fm; cbn [shape] in Fm.
  - destruct (digit8 _); discriminate Fm.
  - destruct (digit8 _); discriminate Fm.
  - destruct (forallb _ _); discriminate Fm.
  - destruct (forallb _ _); discriminate Fm.
  - destruct n; [|discriminate Fm]. destruct es as [|? [|? ?]]; try discriminate Fm. cbn in Ch. inversion Ch; subst. eauto.
Qed.

Lemma which8 : forall e md e', In (e, md) progs8 -> laid node8 form8 (m_tree md) e' -> e' = e.
Proof.
  intros e md e' I H. destruct I as [I|[I|[I|[]]]]; injection I as <- <-; apply top_inv in H; try reflexivity; destruct H as (x & -> & H);
    repeat match goal with
    | H : laid _ _ (call8 _ _ _) _ |- _ => apply call_inv in H; [destruct H as (? & ? & -> & ? & H)|reflexivity|reflexivity|reflexivity]
    | H : laid _ _ inner8 _ |- _ => apply call_inv in H; [destruct H as (? & ? & -> & ? & H)|reflexivity|reflexivity|reflexivity]
    | H : laid _ _ (list8 _ _) _ |- _ => apply list_inv in H; [destruct H as (? & -> & H)|reflexivity|reflexivity]
    | H : laid _ _ tree_one _ |- _ => apply list_inv in H; [destruct H as (? & -> & H)|reflexivity|reflexivity]
    | H : laid _ _ (word _ _) _ |- _ => apply word_inv in H; cbn in H; subst
    end; reflexivity.
Qed.

Lemma reached_inv : forall node stop t e i x, reached node stop t e i x ->
  (i = node_id t /\ x = e) \/ (exists t' e', stop e = false /\ In (t', e') (combine (below node t) (children e)) /\ reached node stop t' e' i x).
Proof. intros node stop t e i x H. inversion H; subst; eauto 10. Qed.

(** The class does what the rule does. *)
Lemma speaks8 : forall e md, In (e, md) progs8 -> speaks node8 form8 (sure to_literal) (m_tree md) e (says literal8 md (calls (cst8 (m_tree md))) tt).
Proof.
  assert (B : forall t e t' e' i x, In (t', e') (combine (below node8 t) (children e)) -> at_node node8 t' e' i x -> at_node node8 t e i x) by (intros; eapply rd_below; eauto).
  assert (L : laid node8 form8 (list8 99 [item8 8 (word 13 (u "1"))]) one) by (repeat (constructor; [reflexivity|reflexivity|reflexivity|]; cbn; repeat apply Forall2_cons; try apply Forall2_nil)).
  assert (L' : laid node8 form8 (list8 99 [item8 4 inner8]) (List [(false, list_of one)])) by (repeat (constructor; [reflexivity|reflexivity|reflexivity|]; cbn; repeat apply Forall2_cons; try apply Forall2_nil)).
  intros e md I. split.
  - intros s Is. destruct I as [I|[I|[I|[]]]]; injection I as <- <-; vm_compute in Is; [destruct Is as [<-|[<-|[]]]|destruct Is as [<-|[]]|destruct Is].
    + exists (list_of (List [(false, list_of one)])). eexists. split; [|split; [vm_compute; reflexivity|exact L']]. eapply B; [left; reflexivity|apply rd_here].
    + exists (list_of one). eexists. split; [|split; [vm_compute; reflexivity|exact L]]. eapply B; [left; reflexivity|]. eapply B; [right; left; reflexivity|]. eapply B; [left; reflexivity|apply rd_here].
    + exists (list_of one). eexists. split; [|split; [vm_compute; reflexivity|exact L]]. eapply B; [left; reflexivity|]. eapply B; [left; reflexivity|apply rd_here].
  - intros i x o H E. destruct I as [I|[I|[I|[]]]]; injection I as <- <-;
      repeat (match goal with
              | H : False |- _ => destruct H
              | H : has_fix _ _ = false |- _ => vm_compute in H; try discriminate H; clear H
              | H : In (_, _) (combine _ _) |- _ => vm_compute in H
              | H : (_, _) = (_, _) \/ _ |- _ => destruct H as [H|H]
              | H : (_, _) = (_, _) |- _ => injection H; clear H; intros; subst
              | H : reached _ _ _ _ _ _ |- _ => apply reached_inv in H; destruct H as [[-> ->]|(? & ? & ? & ? & H)]
              end); try (vm_compute in E; discriminate E); vm_compute; eexists; (split; [left; reflexivity|reflexivity]).
Qed.

Lemma obeys8 : forall zp F p k e, In e (map fst progs8) -> obeys node8 form8 (system_at system8 zp) F p k (sure to_literal) e.
Proof.
  intros zp F p k e I c md M Ep (Ew & L & Nd & Ns) _. split; [intros; discriminate|]. cbn in Ep. injection Ew as <-. cbn [y_code system_at system8 d_tree].
  assert (Im : exists e', In (e', md) progs8).
  { unfold parse8 in Ep. repeat (destruct (str_eqb _ _); [injection Ep as <-; eexists; cbn; eauto 10|]). discriminate Ep. }
  destruct Im as (e' & Im). rewrite (which8 _ _ _ Im L). now apply speaks8.
Qed.

Lemma same_disk : forall F G, (forall q, f_file G q <> f_file F q -> In q [x_py] /\ q <> x_py) -> forall q, f_file G q = f_file F q.
Proof.
  intros F G H q. destruct (f_file G q) as [a|] eqn:E1, (f_file F q) as [b|] eqn:E2; auto.
  - destruct (str_eqb a b) eqn:E; [apply str_eqb_eq in E; now subst|]. apply str_eqb_neq in E. destruct (H q) as [[<-|[]] N]; congruence.
  - destruct (H q) as [[<-|[]] N]; congruence.
  - destruct (H q) as [[<-|[]] N]; congruence.
Qed.

Definition cfg8 : res config := generate_config (y_env system8) disk0 x_py None (Some ex_opts).

Lemma runs8 : forall D G e, In D [disk0; disk1; disk2] -> (forall q, f_file G q <> f_file D q -> In q [x_py] /\ q <> x_py) -> (forall q, f_isdir G q = f_isdir D q) -> In e (map fst progs8) ->
  runs_with node8 form8 (system_at system8 session0) G x_py (Some ex_opts) rules8 e.
Proof.
  intros D G e Id Fi Di I cfg Eg. change (y_env (system_at system8 session0)) with (y_env system8) in Eg.
  assert (Eg' : cfg8 = Ok cfg).
  { rewrite <- Eg. unfold cfg8. symmetry. rewrite (config_same _ D G) by (auto; intros; now apply same_disk). destruct Id as [<-|[<-|[<-|[]]]]; vm_compute; reflexivity. }
  exists [(1%N, None)]. 
  destruct (collect_rules (y_world (system_at system8 session0) G) cfg (y_py (system_at system8 session0))) as [r s] eqn:C.
  assert (r = Ok ([(1%N, None)], [])) as ->.
  { unfold cfg8 in Eg'. vm_compute in Eg'. injection Eg' as <-. vm_compute in C. injection C as <- _. reflexivity. }
  assert (Fa : fair_sets (y_world (system_at system8 session0) G)) by (intro l; apply Permutation_refl). destruct (selected_in _ _ _ _ _ _ Fa C) as [Nd Sel].
  split; auto. split; auto. constructor; [|constructor]. now apply obeys8.
Qed.

Lemma system8_fair : forall G, fair_sets (y_world system8 G).
Proof. intros G l. apply Permutation_refl. Qed.

Definition visit8 (D : fs) (n : nat) : list ev * ApiSpec.outcome unit :=
  play (fixit_file (tool_of (system_at system8 session0)) x_py true (Some ex_opts) false) ([IFiles D; IFiles D; IFiles D] ++ repeat (IAnswer None) n ++ [IFiles D; IDone (Ok tt)]).

Lemma one8 : forall D D' n, In (D, D', n) [(disk0, disk1, 2); (disk1, disk2, 1); (disk2, disk2, 1)] -> one_fix node8 form8 system8 ex_opts x_py rules8 prog0 D (fst (visit8 D n)) D'.
Proof.
  intros D D' n I.
  assert (Pl : run (fixit_file (tool_of (system_at system8 session0)) x_py true (Some ex_opts) false) (fst (visit8 D n)) (Returned tt)).
  { assert (X : snd (visit8 D n) = Returned tt) by (destruct I as [I|[I|[I|[]]]]; injection I as <- <- <-; vm_compute; reflexivity).
    destruct (visit8 D n) as [es o] eqn:E. cbn [fst snd] in *. subst o. exact (play_run _ _ _ _ _ E). }
  assert (X : snd (fst (live fix8 D [])) = Returned 0%N /\ snd (live fix8 D []) = D' /\
              effects (fst (fst (live fix8 D []))) = ELook D :: ELook D :: api_effects (concat (map snd [(session0, fst (visit8 D n))]))).
  { destruct I as [I|[I|[I|[]]]]; injection I as <- <- <-; vm_compute; repeat split. }
  destruct (live fix8 D []) as [[vs o] G] eqn:El. destruct (live_run _ _ _ _ _ _ _ El) as (R & L). cbn [fst snd] in X. destruct X as (-> & -> & Ef).
  exists ex_cli, [u "d"; u "stdin"], false, false, [PathArg x_py], session0, vs, 0%N, [x_py], [(session0, fst (visit8 D n))], session0.
  split; [reflexivity|]. split; [exact R|]. split; [exact L|]. split; [reflexivity|]. split; [constructor; [intros []|constructor]|].
  split; [constructor; [exact Pl|constructor]|]. split; [exact Ef|]. split; [left; reflexivity|].
  split; [apply no_errors_check; destruct I as [I|[I|[I|[]]]]; injection I as <- <- <-; vm_compute; reflexivity|].
  intros G' e' Fi Di B. apply (runs8 D); auto.
  - destruct I as [I|[I|[I|[]]]]; injection I as <- <- <-; cbn; auto.
  - apply (becomes8 prog0); [exact B|cbn; auto].
Qed.

(** "list([list([1])])" becomes "[list([1])]", then "[[1]]", and stays so. *)
Example C87_example :
  form_law form8 /\ (forall G, fair_sets (y_world system8 G)) /\
  (forall deq is_isinstance code_length reads_same, incl rules8 ([] ++ [] ++ other_rules deq is_isinstance code_length reads_same)) /\
  f_file disk0 x_py = Some (u "list([list([1])])" ++ nl) /\ reads node8 form8 system8 (u "list([list([1])])" ++ nl) prog0 /\
  (forall e', becomes rules8 prog0 e' -> readable node8 form8 system8 x_py (Some ex_opts) e') /\
  (forall n, fixes_again node8 form8 system8 ex_opts x_py rules8 prog0 (2 + n) disk0 disk2) /\
  f_file disk2 x_py = Some (u "[[1]]" ++ nl) /\ reads node8 form8 system8 (u "[[1]]" ++ nl) prog2 /\
  becomes rules8 prog0 prog2 /\ finished rules8 prog2 /\ ~ finished rules8 prog1.
Proof.
  split; [exact form8_law|]. split; [exact system8_fair|]. split; [intros deq isin cl rs r [<-|[]]; cbn; auto 10|]. split; [vm_compute; reflexivity|].
  split; [apply (reads8 prog0); cbn; auto|]. split; [exact readable8|]. split.
  { intro n. eapply fa_one; [apply (one8 disk0 disk1 2); cbn; auto|]. eapply fa_one; [apply (one8 disk1 disk2 1); cbn; auto|].
    induction n as [|n IH]; [constructor|]. eapply fa_one; [apply (one8 disk2 disk2 1); cbn; auto|exact IH]. }
  split; [vm_compute; reflexivity|]. split; [apply (reads8 prog2); cbn; auto|]. split.
  { eapply bc_run; [apply Permutation_refl|]. eapply bc_run; [apply Permutation_refl|]. vm_compute. constructor. }
  split.
  - intros x r e' Ix [<-|[]]. vm_compute in Ix. repeat (destruct Ix as [<-|Ix]; [vm_compute; discriminate|]). contradiction.
  - intro F. refine (F (list_of one) (sure to_literal) one _ _ _); [vm_compute; auto|cbn; auto|vm_compute; reflexivity].
Qed.
