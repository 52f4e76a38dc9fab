(** * Vocabulary for C97: putting a comment into a file to silence a report (docs/guide/quickstart.rst 90-137) *)
From Coq Require Import String List NArith ZArith Bool Arith.
From Verif Require Import Base PyStr Suppress SuppressSpec Cst Engine Batch Api ApiSpec System SystemSpec.
Import ListNotations.

(** ** The comments of the documentation *)

(** [listed U ns text]: the text is the rule names [ns], separated by commas. *)
Inductive listed (U : unicode) : list str -> str -> Prop :=
| l_one : forall n, wordlike U n -> listed U [n] n
| l_more : forall n ws ns text, wordlike U n -> spaces ws -> listed U ns text -> listed U (n :: ns) (n ++ u "," ++ ws ++ text).

(** The two words; they are "intended to be used" differently but "achieve the same result". *)
Definition directive (word : str) : Prop := word = u "lint-ignore" \/ word = u "lint-fixme".

(** Text behind the names: none, or something that is apart from them. *)
Definition remark (text : str) : Prop := text = [] \/ exists c t, text = c :: t /\ is_space c = true.

(** ** Putting a comment somewhere *)

(** A line with the comment among the lines above the statement (or the decorator). *)
Definition line_above (c : str) (n n' : ninfo) : Prop :=
  exists l1 l2, n_leading n = Some (l1 ++ l2) /\
    n' = NInfo (n_tw n) (n_body n) (n_comma n) (n_rbracket n) (n_lbracket n) (n_after_decorators n)
               (Some (l1 ++ Some c :: l2)) (n_decorator n).

(** The comment at the end of the line: of a statement, of the [class ...:] or [def ...:] of a block, behind the comma of an element or
    after the opening bracket's line or before the closing bracket, where there was no comment. *)
Inductive end_of_line (c : str) (n : ninfo) : ninfo -> Prop :=
| e_line : n_tw n = Some None ->
    end_of_line c n (NInfo (Some (Some c)) (n_body n) (n_comma n) (n_rbracket n) (n_lbracket n) (n_after_decorators n) (n_leading n) (n_decorator n))
| e_suite : n_tw n = None -> n_body n = SimpleSuite None ->
    end_of_line c n (NInfo None (SimpleSuite (Some c)) (n_comma n) (n_rbracket n) (n_lbracket n) (n_after_decorators n) (n_leading n) (n_decorator n))
| e_block : n_tw n = None -> n_body n = Indented None ->
    end_of_line c n (NInfo None (Indented (Some c)) (n_comma n) (n_rbracket n) (n_lbracket n) (n_after_decorators n) (n_leading n) (n_decorator n))
| e_comma : n_comma n = None ->
    end_of_line c n (NInfo (n_tw n) (n_body n) (Some c) (n_rbracket n) (n_lbracket n) (n_after_decorators n) (n_leading n) (n_decorator n))
| e_bracket : n_rbracket n = None ->
    end_of_line c n (NInfo (n_tw n) (n_body n) (n_comma n) (Some c) (n_lbracket n) (n_after_decorators n) (n_leading n) (n_decorator n)).

(** [commented c p p']: the comment [c] is put next to the code at [p] - above or at the end of a line of the innermost statement around
    it, or at the top of the file if that is the first statement. *)
Inductive commented (c : str) : place -> place -> Prop :=
| c_near : forall inner n n' outer h f, Forall (fun x => ~ stops x) inner -> line_above c n n' \/ end_of_line c n n' ->
    commented c (Place (inner ++ n :: outer) h f) (Place (inner ++ n' :: outer) h f)
| c_top : forall inner n h1 h2, Forall (fun x => ~ stops x) inner -> stops n ->
    commented c (Place (inner ++ [n]) (h1 ++ h2) true) (Place (inner ++ [n]) (h1 ++ Some c :: h2) true)
| c_module : forall nodes h1 h2 f, Forall (fun x => ~ stops x) nodes ->
    commented c (Place nodes (h1 ++ h2) f) (Place nodes (h1 ++ Some c :: h2) f).

(** [elsewhere p p']: the file may have changed, but not the innermost statement around the code - what surrounds that may be different,
    and so may the top of the file unless it is the first statement. *)
Inductive elsewhere : place -> place -> Prop :=
| w_outer : forall inner n outer outer' h h' f f', stops n -> outer <> [] -> outer' <> [] ->
    elsewhere (Place (inner ++ n :: outer) h f) (Place (inner ++ n :: outer') h' f')
| w_header : forall inner n h h', stops n -> elsewhere (Place (inner ++ [n]) h false) (Place (inner ++ [n]) h' false)
| w_same : forall p, elsewhere p p.

(** ** What a rule says about two versions of a file *)

(** About the same code, with the same message; ranges and replacements may differ. *)
Definition same_say (x x' : say) : Prop := s_node x = s_node x' /\ s_message x = s_message x'.

(** What a user sees of a violation: the rule, the code and the message. *)
Definition sight (v : viol) : str * N * str := (v_rule v, v_node v, v_message v).

(** The second version of a file is the first with the comment put at the code in [at_]. *)
Definition adds_comment (c : str) (at_ : N -> bool) (M M' : metadata) : Prop :=
  forall n, if at_ n then commented c (d_place M n) (d_place M' n) else elsewhere (d_place M n) (d_place M' n).

(** Several comments put into a file, one after the other, each with the code it is put at. *)
Inductive adds_comments : list (str * (N -> bool)) -> metadata -> metadata -> Prop :=
| a_none : forall M M', (forall n, elsewhere (d_place M n) (d_place M' n)) -> adds_comments [] M M'
| a_one : forall c at_ cs M M1 M', adds_comment c at_ M M1 -> adds_comments cs M1 M' -> adds_comments ((c, at_) :: cs) M M'.

(** One of the comments is at the node and silences the rule. *)
Definition silenced_by (U : unicode) (cs : list (str * (N -> bool))) (rule : str) (n : N) : Prop :=
  exists c at_, In (c, at_) cs /\ at_ n = true /\ silences U c rule.
