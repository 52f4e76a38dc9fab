(** * Dedent: textwrap.dedent of Python's library (3.8 to 3.13), which fixit/testing.py 18-20 applies to the code of test cases *)
From Coq Require Import String List NArith Bool Arith.
From Verif Require Import Base PyStr.
Import ListNotations.

(** [[ \t]] *)
Definition is_blank (c : N) : bool := (c =? 32)%N || (c =? 9)%N.

(** [_whitespace_only_re.sub('', text)], the regular expression being [^[ \t]+$] with MULTILINE, for one line *)
Definition normal (l : str) : str := if forallb is_blank l then [] else l.

(** [_leading_whitespace_re.findall(text)]: for each line that has a character that is neither space nor tab, the blanks before the first
    of them *)
Fixpoint leading (l : str) : str :=
  match l with
  | c :: l' => if is_blank c then c :: leading l' else []
  | [] => []
  end.
Definition indents (ls : list str) : list str := map leading (filter (fun l => negb (forallb is_blank l)) ls).

(** [for i, (x, y) in enumerate(zip(margin, indent)): if x != y: margin = margin[:i]; break] *)
Fixpoint cut (margin indent : str) : str :=
  match margin, indent with
  | x :: m, y :: i => if (x =? y)%N then x :: cut m i else []
  | _, _ => margin
  end.

(** The body of the loop over the indents *)
Definition narrow (margin : option str) (indent : str) : option str :=
  match margin with
  | None => Some indent
  | Some m => if startswith m indent then Some m
              else if startswith indent m then Some indent
              else Some (cut m indent)
  end.

(** [re.sub(r'(?m)^' + margin, '', text)], for one line *)
Definition unindent (margin l : str) : str := if startswith margin l then skipn (List.length margin) l else l.

Definition dedent (text : str) : str :=
  let ls := map normal (split 10 text) in
  match fold_left narrow (indents ls) None with
  | Some ((_ :: _) as m) => join [10%N] (map (unindent m) ls)
  | _ => join [10%N] ls
  end.
