(** * Vocabulary for C85: fixing as the user decides, and fixing standard input *)
From Coq Require Import String List NArith ZArith Bool Arith.
From Verif Require Import Base PyStr Ftypes Paths Config Collect CollectSpec Suppress SuppressSpec Cst Engine Batch Api ApiSpec System SystemSpec
  Session SessionSpec Cli CliSpec CommandsSpec.
Import ListNotations.

(** The violations of a file that can be fixed, and whether the fix was accepted, in the order in which the user was asked. *)
Definition decisions (es : list ev) : list (viol * bool) :=
  flat_map (fun xa => match x_violation (fst xa) with
                      | Some v => if autofixable v then [(v, match snd xa with Some true => true | _ => false end)] else []
                      | None => []
                      end) (given es).
Definition questions (es : list ev) : list (option choice) := map (fun d => Some (if snd d : bool then Yes else No)) (decisions es).
Definition chosen (es : list ev) : list viol := map fst (filter snd (decisions es)).

(** A file has been fixed as the user said: the user was told all that selected rules report where no comment silences them, the chosen
    fixes have been applied, and if this makes a difference, the result has been written. *)
Definition fixed_as_told (Y : system) (p : path) (opts : option options) (es : list ev) : Prop :=
  exists F F1 F2 rest content cfg, looks es = F :: F1 :: F2 :: rest /\ f_file F p = Some content /\
    generate_config (y_env Y) F1 p None opts = Ok cfg /\
    ((forall k, ~ selected Y F2 cfg k) /\ violations (results es) = [] /\ written es = [] \/
     exists md M, y_parse Y content = Ok md /\ y_wrap Y md = Ok M /\ all_complaints Y F2 cfg p md M (violations (results es)) /\
       (chosen es = [] /\ written es = [] \/
        chosen es <> [] /\ exists F3 md' c, apply_replacements md (chosen es) = Ok (Some md') /\ formatted Y F3 cfg p md' c /\
          ((c = content \/ c = []) /\ written es = [] \/ c <> content /\ c <> [] /\ written es = [(p, c)] /\ In (EWrite p c (Ok tt)) es))).

(** The state of the interpreter after some files. *)
Definition reached (Y : system) (opts : option options) (z : session) (ps : list path) (l : list (session * list ev)) : session :=
  fold_left (fun z v => after_file Y (fst v) opts (looks (snd (snd v))) z) (combine ps l) z.

(** The text on standard input has been fixed: [c] is the text with all that is reported applied, or the text itself if nothing is. *)
Definition fixed_text (Y : system) (p : path) (opts : option options) (es : list ev) (c : str) : Prop :=
  exists content F1 F2 rest cfg es', es = EIn (Ok content) :: es' /\ looks es = F1 :: F2 :: rest /\
    generate_config (y_env Y) F1 p None opts = Ok cfg /\
    ((forall k, ~ selected Y F2 cfg k) /\ c = content \/
     exists md M vs, y_parse Y content = Ok md /\ y_wrap Y md = Ok M /\ all_complaints Y F2 cfg p md M vs /\
       (vs = [] /\ c = content \/
        vs <> [] /\ exists F3 md' b, apply_replacements md vs = Ok (Some md') /\ formatted Y F3 cfg p md' b /\
          (b = [] /\ c = content \/ b <> [] /\ c = b))).
