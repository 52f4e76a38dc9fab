(** * Ftypes: fixit/ftypes.py *)
From Coq Require Import String List NArith Bool Arith.
From Verif Require Import Base PyStr Regex.
Import ListNotations.
Set Implicit Arguments.
Local Open Scope N_scope.

(** ** Rule names *)

(** [[a-zA-Z0-9_]] and [[a-zA-Z0-9_-]] (ftypes.py 97-99) *)
Definition cls_word (c : N) : bool := is_ascii_alnum c || (c =? 95).
Definition cls_word_dash (c : N) : bool := cls_word c || (c =? 45).

(** ftypes.py 92-103 [QualifiedRuleRegex]; groups: 1 module, 2 local, 3 unnamed, 4 name. *)
Definition QualifiedRuleRegex : re :=
  Cat Bos
  (Cat (Grp 1 (Cat (Opt (Grp 2 (Chr (N.eqb 46))))
              (Cat (Plus (Chr cls_word))
                   (Star (Grp 3 (Cat (Chr (N.eqb 46)) (Plus (Chr cls_word_dash))))))))
  (Cat (Opt (Cat (Chr (N.eqb 58)) (Grp 4 (Plus (Chr cls_word_dash)))))
       Eos)).

(** A directory or file: the components of an absolute path (see Paths.v). *)
Definition path := list str.

(** ftypes.py 119-125 [QualifiedRule]; [root] takes no part in comparison and hashing. *)
Record qrule := QRule {
  q_module : str;
  q_name : option str;
  q_local : option str;
  q_root : option path }.

Definition opt_eqb {A} (eqb : A -> A -> bool) (a b : option A) : bool :=
  match a, b with
  | None, None => true
  | Some x, Some y => eqb x y
  | _, _ => false
  end.

(** The dataclass __eq__: module, name and local only (ftypes.py 119-125). *)
Definition qrule_eqb (a b : qrule) : bool :=
  str_eqb (q_module a) (q_module b) && opt_eqb str_eqb (q_name a) (q_name b)
  && opt_eqb str_eqb (q_local a) (q_local b).

(** ftypes.py 127-128 [QualifiedRule.__str__] *)
Definition qrule_str (q : qrule) : str :=
  q_module q ++ match q_name q with
                | Some (c :: n) => u ":" ++ c :: n
                | _ => []
                end.

(** ftypes.py 130-133 [QualifiedRule.__lt__], as the [<=] used by a stable sort. *)
Definition qrule_leb (a b : qrule) : bool := str_leb (qrule_str a) (qrule_str b).

(** config.py 382-399 [parse_rule]; the raw config is only used in the error. *)
Definition parse_rule (rule : str) (root : path) : res qrule :=
  match re_match QualifiedRuleRegex rule with
  | None => Err ConfigError
  | Some x =>
      match group 1 (st_caps x) with
      | None => Err TypeError (* cannot happen: group 1 always takes part *)
      | Some module =>
          let name := group 4 (st_caps x) in
          match group 2 (st_caps x) with
          | Some local => Ok (QRule module name (Some local) (Some root))
          | None => Ok (QRule module name None None)
          end
      end
  end.

(** ** Tags *)

(** ftypes.py 136-139 [Tags] *)
Record tags := Tags { t_include : list str; t_exclude : list str }.

Definition no_tags : tags := Tags [] [].

(** [if token[0] in "!^-"]: '!' 33, '^' 94, '-' 45 (ftypes.py 150) *)
Definition is_neg (c : N) : bool := (c =? 33) || (c =? 94) || (c =? 45).

(** The loop of ftypes.py 149-153 over the tokens, in any order. An empty token makes
    [token[0]] raise IndexError. *)
Fixpoint tags_loop (tokens : list str) (inc exc : list str) : res (list str * list str) :=
  match tokens with
  | [] => Ok (inc, exc)
  | [] :: _ => Err IndexError
  | (c :: tok) :: rest =>
      if is_neg c then tags_loop rest inc (sadd str_eqb tok exc)
      else tags_loop rest (sadd str_eqb (c :: tok) inc) exc
  end.

(** ftypes.py 141-158 [Tags.parse], for a given value; the set of tokens is traversed in
    order of first occurrence (TagsProps shows that the order is irrelevant).
    [Tags.parse("")] and [Tags.parse(None)] are both [no_tags]. *)
Definition tags_tokens (U : unicode) (value : str) : list str :=
  fold_left (fun s t => sadd str_eqb t s) (map strip (split 44 (lower U value))) [].

Definition tags_parse (U : unicode) (value : str) : res tags :=
  match value with
  | [] => Ok no_tags
  | _ => let! '(inc, exc) := tags_loop (tags_tokens U value) [] [] in
         Ok (Tags (sorted str_leb inc) (sorted str_leb exc))
  end.

(** ftypes.py 160-161 [Tags.__bool__] *)
Definition tags_bool (t : tags) : bool :=
  match t_include t, t_exclude t with [], [] => false | _, _ => true end.

(** The values [in Tags] is asked about: a string, a collection of strings, anything else. *)
Inductive tagval := TagStr (s : str) | TagColl (l : list str) | TagOther.

Definition smem_str (x : str) (l : list str) : bool := existsb (str_eqb x) l.

(** ftypes.py 163-179 [Tags.__contains__] *)
Definition tags_contains (t : tags) (v : tagval) : bool :=
  let check l :=
    if existsb (fun tag => smem_str tag (t_exclude t)) l then false
    else match t_include t with
         | [] => true
         | _ => existsb (fun tag => smem_str tag (t_include t)) l
         end in
  match v with
  | TagStr s => check [s]
  | TagColl l => check l
  | TagOther => false
  end.

(** ** Directives *)

(** ftypes.py 76-89 [LintIgnoreRegex]; groups: 1 directive, 2 rule names.
    '#' 35, ':' 58, ',' 44. *)
Definition LintIgnoreRegex (U : unicode) : re :=
  Cat (Chr (N.eqb 35))
  (Cat (Star (Chr is_space))
  (Cat (Grp 1 (Cat (Lit (u "lint-")) (Alt (Lit (u "ignore")) (Lit (u "fixme")))))
       (Opt (Cat (Alt (Cat (Chr (N.eqb 58)) (Star (Chr is_space))) (Plus (Chr is_space)))
                 (Grp 2 (Cat (Plus (Chr (is_word U)))
                             (Star (Cat (Chr (N.eqb 44))
                                   (Cat (Star (Chr is_space)) (Plus (Chr (is_word U))))))))))
  )).
