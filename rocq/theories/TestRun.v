(** * TestRun: the test command put together with the rest of fixit *)
From Coq Require Import String List NArith ZArith Bool Arith Cantor.
From Verif Require Import Base PyStr Ftypes Paths Config Collect Suppress Cst Engine EngineProps Batch Api System Testing.
Import ListNotations.

(** Testing.v knows rule classes by a number. *)
Definition class_id (k : cls) : N :=
  N.of_nat (Cantor.to_nat (N.to_nat (fst k), match snd k with None => 0 | Some g => S g end)).

Definition class_of (n : N) : cls :=
  let (a, b) := Cantor.of_nat (N.to_nat n) in (N.of_nat a, match b with 0 => None | S g => Some g end).

(** What the test command needs besides what a [system] has: [textwrap.dedent], [str.encode], [bytes.decode], the VALID and INVALID
    attributes of the classes, the order in which unittest runs the tests of a class, and the working directory. *)
Record harness := Harness {
  h_dedent : str -> str;
  h_encode : str -> res str;
  h_decode : str -> res str;
  h_valid : fs -> cls -> option (list vcase);
  h_invalid : fs -> cls -> option (list icase);
  h_order : list (tcase * nat) -> list (tcase * nat);
  h_cwd : path }.

(** testing.py 67-114 with engine.py 57-98: the file is called valid.py or invalid.py in the working directory, and the only rule is
    a new instance of the class. *)
Definition lab_of (Y : system) (H : harness) (F : fs) : lab :=
  Lab (h_dedent H) (h_encode H) (h_decode H) (y_parse Y) (y_bytes Y)
    (fun valid => y_udiff Y (h_cwd H ++ [if valid then u "valid.py" else u "invalid.py"]))
    (fun k md =>
       let! M := y_wrap Y md in
       let! '(rs, _) := visit_batched (y_took Y) (d_tree M) [fresh (y_unicode Y) M md (y_code Y F (class_of (k_id k)))] in
       Ok (reported rs)).

(** The class as Testing.v sees it *)
Definition described (Y : system) (H : harness) (F : fs) (k : cls) : klass :=
  Klass (class_id k) (System.k_name (y_code Y F k)) (k_MESSAGE (y_code Y F k)) (h_valid H F k) (h_invalid H F k).

(** cli.py 287-289, ftypes.py 205-241: [Config(enable=qual_rules, disable=[], python_version=None)] *)
Definition test_config (cwd : path) (qs : list qrule) : config :=
  Config cwd cwd RIFalse qs [] [] None no_tags None OFfixit (TStr []).

(** cli.py 281-302 [test] *)
Definition test_of (Y : system) (H : harness) (F : fs) (names : list str) : Z :=
  test_command (lab_of Y H F) (fun s => parse_rule s (h_cwd H))
    (fun qs => let! '(ks, _) := fst (collect_rules (y_world Y F) (test_config (h_cwd H) qs) (y_py Y)) in Ok (map (described Y H F) ks))
    (h_order H) names.
