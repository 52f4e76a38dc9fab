(** * Conformance3: the unit tests of rule names, tags, directives, configuration and suppression

    Written by tools/conformance.py from /repo/src/fixit/tests/ftypes.py, config.py and rule.py; see
    Conformance.v. *)
From Coq Require Import String List NArith ZArith Bool Arith.
From Verif Require Import Base PyStr Regex Ftypes Paths Config Suppress.
Import ListNotations.
Open Scope N_scope.

Definition U0 : unicode := Build_unicode (fun _ => false) (fun s => s).
Definition directive (s : str) : option (option str) :=
  match re_match (LintIgnoreRegex U0) s with Some x => Some (group 2 (st_caps x)) | None => None end.
Definition no_root (r : res qrule) : option (option str * str * option str) :=
  match r with Ok q => Some (q_local q, q_module q, q_name q) | Err _ => None end.
Definition has (t : str) (v : tagval) : option bool := match tags_parse U0 t with Ok t => Some (tags_contains t v) | Err _ => None end.
Definition truth (t : str) : option bool := match tags_parse U0 t with Ok t => Some (tags_bool t) | Err _ => None end.

Example ignore_comment_regex : map (directive) [(u "#lint-ignore"); (u "# lint-ignore"); (u "# lint-ignore:FakeRule"); (u "# lint-ignore: Fake"); (u "# lint-fixme: Fake,Another"); (u "#lint-fixme:Fake,Another"); (u "#lint-fixme Fake, Another, Name"); (u "# something else"); (u "# noqa"); (u "# this is not a lint-ignore"); (u "# fake lint-fixme: something here")] =
  [Some None; Some None; Some (Some (u "FakeRule")); Some (Some (u "Fake")); Some (Some (u "Fake,Another")); Some (Some (u "Fake,Another")); Some (Some (u "Fake, Another, Name")); None; None; None; None].
Proof. vm_compute. reflexivity. Qed.

Example qualified_rule : map (fun s => no_root (parse_rule s [])) [[]%N; (u "foo-bar"); (u "foo/bar"); (u "foo"); (u "foo.bar"); (u "foo.bar:Baz"); (u ".foo"); (u ".foo.bar"); (u ".foo.bar:Baz"); (u "..foo")] =
  [None; None; None; Some (None, (u "foo"), None); Some (None, (u "foo.bar"), None); Some (None, (u "foo.bar"), (Some (u "Baz"))); Some ((Some (u ".")), (u ".foo"), None); Some ((Some (u ".")), (u ".foo.bar"), None); Some ((Some (u ".")), (u ".foo.bar"), (Some (u "Baz"))); None].
Proof. vm_compute. reflexivity. Qed.

Example tags_parser : map (tags_parse U0) [[]%N; []%N; (u "foo"); (u "foo, bar"); (u "foo, !bar"); (u "foo, -bar, foo, glob")] =
  [Ok (Tags [] []); Ok (Tags [] []); Ok (Tags [(u "foo")] []); Ok (Tags [(u "bar"); (u "foo")] []); Ok (Tags [(u "foo")] [(u "bar")]); Ok (Tags [(u "foo"); (u "glob")] [(u "bar")])].
Proof. vm_compute. reflexivity. Qed.

Example tags_bool_ : map (truth) [(u "hello"); (u "!hello"); (u "hello,world"); (u "hello,^world"); []%N; []%N] =
  [Some true; Some true; Some true; Some true; Some false; Some false].
Proof. vm_compute. reflexivity. Qed.

Example tags_contains_ : map (fun c => has (fst c) (snd c)) [([]%N, TagStr []%N); ((u "!hello"), TagStr []%N); ([]%N, TagStr (u "hello")); ((u "hello"), TagStr (u "hello")); ((u "!world"), TagStr (u "hello")); ((u "hello, ^world"), TagStr (u "hello")); ([]%N, TagColl []); ((u "!hello"), TagColl []); ([]%N, TagColl [(u "hello"); (u "world")]); ((u "hello"), TagColl [(u "hello"); (u "world")]); ((u "world"), TagColl [(u "hello"); (u "world")]); ((u "hello, world, blue"), TagColl [(u "hello"); (u "world")]); ((u "hello, world, !blue"), TagColl [(u "hello"); (u "world")]); ([]%N, TagOther); ([]%N, TagOther); ([]%N, TagOther); ((u "hello"), TagStr []%N); ((u "^hello"), TagStr (u "hello")); ((u "!hello, world"), TagStr (u "hello")); ((u "something, -world"), TagStr (u "hello")); ((u "hello"), TagColl []); ((u "!hello"), TagColl [(u "hello"); (u "world")]); ((u "!world"), TagColl [(u "hello"); (u "world")]); ((u "!hello, world, blue"), TagColl [(u "hello"); (u "world")]); ((u "hello, !world, blue"), TagColl [(u "hello"); (u "world")])] =
  [Some true; Some true; Some true; Some true; Some true; Some true; Some true; Some true; Some true; Some true; Some true; Some true; Some true; Some false; Some false; Some false; Some false; Some false; Some false; Some false; Some false; Some false; Some false; Some false; Some false].
Proof. vm_compute. reflexivity. Qed.

Definition project_files : list (str * table) := [((u "/t/pyproject.toml"), [((u "tool"), TTab [((u "fixit"), TTab [((u "root"), TBool true); ((u "enable-root-import"), TBool true); ((u "enable"), TArr [TStr (u "more.rules")]); ((u "disable"), TArr [TStr (u "fixit.rules.SomethingSpecific")]); ((u "python-version"), TStr (u "3.8")); ((u "overrides"), TArr [TTab [((u "path"), TStr (u "other")); ((u "enable"), TArr [TStr (u "other.stuff"); TStr (u ".globalrules")]); ((u "disable"), TArr [TStr (u "fixit.rules")]); ((u "options"), TTab [((u "other.stuff.Whatever"), TTab [((u "key"), TStr (u "value"))])]); ((u "python-version"), TStr (u "3.10"))]])])])]); ((u "/t/outer/.fixit.toml"), [((u "tool"), TTab [((u "fixit"), TTab [((u "enable"), TArr [TStr (u ".localrules")]); ((u "disable"), TArr [TStr (u "fixit.rules")])])])]); ((u "/t/outer/inner/pyproject.toml"), [((u "tool"), TTab [((u "fuzzball"), TTab [((u "something"), TStr (u "whatever"))])])]); ((u "/t/outer/inner/fixit.toml"), [((u "tool"), TTab [((u "fixit"), TTab [((u "root"), TBool true); ((u "enable"), TArr [TStr (u "fake8"); TStr (u "make8")]); ((u "disable"), TArr [TStr (u "foo.bar")]); ((u "unknown"), TStr (u "hello"))])])])].
Definition project_env : env := Env (fun s => match dget s project_files with Some t => Ok t | None => Err OSError end) (fun _ => true) (u "running") [] (fun l => l).
Definition project_fs : fs := FS (fun p => let s := u "/" ++ join (u "/") p in if existsb (str_eqb s) (map fst project_files) then Some s else None)
  (fun p => existsb (path_eqb p) [[]; [(u "t")]; [(u "t"); (u "outer")]; [(u "t"); (u "outer"); (u "inner")]]).

Example locate_configs_ : map (fun c : path * option path => locate_configs project_fs (fst c) (snd c)) [([(u "t")], None); ([(u "t"); (u "hello.py")], None); ([(u "t"); (u "outer")], None); ([(u "t"); (u "outer"); (u "frob.py")], None); ([(u "t"); (u "outer"); (u "inner")], None); ([(u "t"); (u "outer"); (u "inner"); (u "test.py")], None); ([(u "t"); (u "outer")], (Some [(u "t"); (u "outer")])); ([(u "t"); (u "outer"); (u "inner")], (Some [(u "t"); (u "outer")])); ([(u "t"); (u "outer"); (u "inner")], (Some [(u "t"); (u "outer"); (u "inner")]))] =
  [Ok [[(u "t"); (u "pyproject.toml")]]; Ok [[(u "t"); (u "pyproject.toml")]]; Ok [[(u "t"); (u "outer"); (u ".fixit.toml")]; [(u "t"); (u "pyproject.toml")]]; Ok [[(u "t"); (u "outer"); (u ".fixit.toml")]; [(u "t"); (u "pyproject.toml")]]; Ok [[(u "t"); (u "outer"); (u "inner"); (u "fixit.toml")]; [(u "t"); (u "outer"); (u "inner"); (u "pyproject.toml")]; [(u "t"); (u "outer"); (u ".fixit.toml")]; [(u "t"); (u "pyproject.toml")]]; Ok [[(u "t"); (u "outer"); (u "inner"); (u "fixit.toml")]; [(u "t"); (u "outer"); (u "inner"); (u "pyproject.toml")]; [(u "t"); (u "outer"); (u ".fixit.toml")]; [(u "t"); (u "pyproject.toml")]]; Ok [[(u "t"); (u "outer"); (u ".fixit.toml")]]; Ok [[(u "t"); (u "outer"); (u "inner"); (u "fixit.toml")]; [(u "t"); (u "outer"); (u "inner"); (u "pyproject.toml")]; [(u "t"); (u "outer"); (u ".fixit.toml")]]; Ok [[(u "t"); (u "outer"); (u "inner"); (u "fixit.toml")]; [(u "t"); (u "outer"); (u "inner"); (u "pyproject.toml")]]].
Proof. vm_compute. reflexivity. Qed.

Example read_configs_ : map (read_configs project_env project_fs) [[[(u "t"); (u "outer"); (u "inner"); (u "fixit.toml")]; [(u "t"); (u "outer"); (u "inner"); (u "pyproject.toml")]; [(u "t"); (u "outer"); (u ".fixit.toml")]; [(u "t"); (u "pyproject.toml")]]; [[(u "t"); (u "outer"); (u "inner"); (u "pyproject.toml")]; [(u "t"); (u "outer"); (u ".fixit.toml")]; [(u "t"); (u "pyproject.toml")]]; [[(u "t"); (u "outer"); (u ".fixit.toml")]; [(u "t"); (u "pyproject.toml")]]; [[(u "t"); (u "pyproject.toml")]]] =
  [Ok [(Raw [(u "t"); (u "outer"); (u "inner"); (u "fixit.toml")] [((u "root"), TBool true); ((u "enable"), TArr [TStr (u "fake8"); TStr (u "make8")]); ((u "disable"), TArr [TStr (u "foo.bar")]); ((u "unknown"), TStr (u "hello"))])]; Ok [(Raw [(u "t"); (u "outer"); (u ".fixit.toml")] [((u "enable"), TArr [TStr (u ".localrules")]); ((u "disable"), TArr [TStr (u "fixit.rules")])]); (Raw [(u "t"); (u "pyproject.toml")] [((u "root"), TBool true); ((u "enable-root-import"), TBool true); ((u "enable"), TArr [TStr (u "more.rules")]); ((u "disable"), TArr [TStr (u "fixit.rules.SomethingSpecific")]); ((u "python-version"), TStr (u "3.8")); ((u "overrides"), TArr [TTab [((u "path"), TStr (u "other")); ((u "enable"), TArr [TStr (u "other.stuff"); TStr (u ".globalrules")]); ((u "disable"), TArr [TStr (u "fixit.rules")]); ((u "options"), TTab [((u "other.stuff.Whatever"), TTab [((u "key"), TStr (u "value"))])]); ((u "python-version"), TStr (u "3.10"))]])])]; Ok [(Raw [(u "t"); (u "outer"); (u ".fixit.toml")] [((u "enable"), TArr [TStr (u ".localrules")]); ((u "disable"), TArr [TStr (u "fixit.rules")])]); (Raw [(u "t"); (u "pyproject.toml")] [((u "root"), TBool true); ((u "enable-root-import"), TBool true); ((u "enable"), TArr [TStr (u "more.rules")]); ((u "disable"), TArr [TStr (u "fixit.rules.SomethingSpecific")]); ((u "python-version"), TStr (u "3.8")); ((u "overrides"), TArr [TTab [((u "path"), TStr (u "other")); ((u "enable"), TArr [TStr (u "other.stuff"); TStr (u ".globalrules")]); ((u "disable"), TArr [TStr (u "fixit.rules")]); ((u "options"), TTab [((u "other.stuff.Whatever"), TTab [((u "key"), TStr (u "value"))])]); ((u "python-version"), TStr (u "3.10"))]])])]; Ok [(Raw [(u "t"); (u "pyproject.toml")] [((u "root"), TBool true); ((u "enable-root-import"), TBool true); ((u "enable"), TArr [TStr (u "more.rules")]); ((u "disable"), TArr [TStr (u "fixit.rules.SomethingSpecific")]); ((u "python-version"), TStr (u "3.8")); ((u "overrides"), TArr [TTab [((u "path"), TStr (u "other")); ((u "enable"), TArr [TStr (u "other.stuff"); TStr (u ".globalrules")]); ((u "disable"), TArr [TStr (u "fixit.rules")]); ((u "options"), TTab [((u "other.stuff.Whatever"), TTab [((u "key"), TStr (u "value"))])]); ((u "python-version"), TStr (u "3.10"))]])])]].
Proof. vm_compute. reflexivity. Qed.

Example merge_configs_ : map (fun rs => match merge_configs project_env [(u "t"); (u "a"); (u "b"); (u "c"); (u "foo.py")] rs None with Ok x => Ok (fst x) | Err e => Err e end) [[]; [(Raw [(u "t"); (u "fixit.toml")] [((u "enable"), TArr [TStr (u "foo"); TStr (u "bar")]); ((u "disable"), TArr [TStr (u "bar")])])]; [(Raw [(u "t"); (u "a"); (u "b"); (u "c"); (u "fixit.toml")] [((u "enable"), TArr [TStr (u "foo")]); ((u "python-version"), TStr (u "3.10"))]); (Raw [(u "t"); (u "a"); (u "b"); (u "fixit.toml")] [((u "enable"), TArr [TStr (u "bar")]); ((u "disable"), TArr [TStr (u "foo")])]); (Raw [(u "t"); (u "a"); (u "fixit.toml")] [((u "enable"), TArr [TStr (u "foo")]); ((u "python-version"), TStr (u "3.8"))])]; [(Raw [(u "t"); (u "a"); (u "b"); (u "c"); (u "fixit.toml")] [((u "enable"), TArr [TStr (u "foo")]); ((u "root"), TBool true)]); (Raw [(u "t"); (u "a"); (u "b"); (u "fixit.toml")] []); (Raw [(u "t"); (u "a"); (u "fixit.toml")] [])]] =
  [Ok (Config [(u "t"); (u "a"); (u "b"); (u "c"); (u "foo.py")] [] RIFalse [(QRule (u "fixit.rules") None None None)] [] [] (Some (u "running")) no_tags None OFfixit (TStr []%N)); Ok (Config [(u "t"); (u "a"); (u "b"); (u "c"); (u "foo.py")] [(u "t")] RIFalse [(QRule (u "fixit.rules") None None None); (QRule (u "foo") None None None)] [(QRule (u "bar") None None None)] [] (Some (u "running")) no_tags None OFfixit (TStr []%N)); Ok (Config [(u "t"); (u "a"); (u "b"); (u "c"); (u "foo.py")] [(u "t"); (u "a")] RIFalse [(QRule (u "bar") None None None); (QRule (u "fixit.rules") None None None); (QRule (u "foo") None None None)] [] [] (Some (u "3.10")) no_tags None OFfixit (TStr []%N)); Ok (Config [(u "t"); (u "a"); (u "b"); (u "c"); (u "foo.py")] [(u "t"); (u "a"); (u "b"); (u "c")] RIFalse [(QRule (u "fixit.rules") None None None); (QRule (u "foo") None None None)] [] [] (Some (u "running")) no_tags None OFfixit (TStr []%N))].
Proof. vm_compute. reflexivity. Qed.

Example generate_config_ : map (fun c : path * option path * option options => match c with (p, r, x) => generate_config project_env project_fs p r x end) [([(u "t"); (u "outer"); (u "inner"); (u "foo.py")], None, None); ([(u "t"); (u "outer"); (u "foo.py")], None, None); ([(u "t"); (u "outer"); (u "foo.py")], (Some [(u "t"); (u "outer")]), None); ([(u "t"); (u "other"); (u "foo.py")], None, None); ([(u "t"); (u "foo.py")], None, None); ([(u "t"); (u "foo.py")], None, Some (Options None None [] (Some OFcustom) (u "foo-bar")))] =
  [Ok (Config [(u "t"); (u "outer"); (u "inner"); (u "foo.py")] [(u "t"); (u "outer"); (u "inner")] RIFalse [(QRule (u "fake8") None None None); (QRule (u "fixit.rules") None None None); (QRule (u "make8") None None None)] [(QRule (u "foo.bar") None None None)] [] (Some (u "running")) no_tags None OFfixit (TStr []%N)); Ok (Config [(u "t"); (u "outer"); (u "foo.py")] [(u "t")] RITrue [(QRule (u ".localrules") None (Some (u ".")) (Some [(u "t"); (u "outer")])); (QRule (u "more.rules") None None None)] [(QRule (u "fixit.rules") None None None); (QRule (u "fixit.rules.SomethingSpecific") None None None)] [] (Some (u "3.8")) no_tags None OFfixit (TStr []%N)); Ok (Config [(u "t"); (u "outer"); (u "foo.py")] [(u "t"); (u "outer")] RIFalse [(QRule (u ".localrules") None (Some (u ".")) (Some [(u "t"); (u "outer")]))] [(QRule (u "fixit.rules") None None None)] [] (Some (u "running")) no_tags None OFfixit (TStr []%N)); Ok (Config [(u "t"); (u "other"); (u "foo.py")] [(u "t")] RITrue [(QRule (u ".globalrules") None (Some (u ".")) (Some [(u "t")])); (QRule (u "more.rules") None None None); (QRule (u "other.stuff") None None None)] [(QRule (u "fixit.rules") None None None); (QRule (u "fixit.rules.SomethingSpecific") None None None)] [((u "other.stuff.Whatever"), [((u "key"), TStr (u "value"))])] (Some (u "3.10")) no_tags None OFfixit (TStr []%N)); Ok (Config [(u "t"); (u "foo.py")] [(u "t")] RITrue [(QRule (u "fixit.rules") None None None); (QRule (u "more.rules") None None None)] [(QRule (u "fixit.rules.SomethingSpecific") None None None)] [] (Some (u "3.8")) no_tags None OFfixit (TStr []%N)); Ok (Config [(u "t"); (u "foo.py")] [(u "t")] RITrue [(QRule (u "fixit.rules") None None None); (QRule (u "more.rules") None None None)] [(QRule (u "fixit.rules.SomethingSpecific") None None None)] [] (Some (u "3.8")) no_tags None OFcustom (TStr (u "foo-bar")))].
Proof. vm_compute. reflexivity. Qed.

Definition bad0_files : list (str * table) := [((u "/t/pyproject.toml"), [((u "tool"), TTab [((u "fixit"), TTab [((u "root"), TBool true)])])]); ((u "/t/outer/.fixit.toml"), [((u "tool"), TTab [((u "fixit"), TTab [((u "enable"), TArr [TStr (u ".localrules")]); ((u "disable"), TArr [TStr (u "fixit.rules")])])])]); ((u "/t/outer/inner/pyproject.toml"), [((u "tool"), TTab [((u "fuzzball"), TTab [((u "something"), TStr (u "whatever"))])])]); ((u "/t/outer/inner/fixit.toml"), [((u "tool"), TTab [((u "fixit"), TTab [((u "root"), TBool true); ((u "enable"), TArr [TStr (u "fake8"); TStr (u "make8")]); ((u "disable"), TArr [TStr (u "foo.bar")]); ((u "unknown"), TStr (u "hello"))])])]); ((u "/t/outer/pyproject.toml"), [((u "tool"), TTab [((u "fixit"), TTab [((u "enable-root-import"), TBool true)])])])].
Definition bad0_env : env := Env (fun s => match dget s bad0_files with Some t => Ok t | None => Err OSError end) (fun _ => true) (u "running") [] (fun l => l).
Definition bad0_fs : fs := FS (fun p => let s := u "/" ++ join (u "/") p in if existsb (str_eqb s) (map fst bad0_files) then Some s else None)
  (fun p => existsb (path_eqb p) [[]; [(u "t")]; [(u "t"); (u "outer")]; [(u "t"); (u "outer"); (u "inner")]]).

Example invalid_config_0 : generate_config bad0_env bad0_fs [(u "t"); (u "outer"); (u "foo.py")] None None = Err ConfigError.
Proof. vm_compute. reflexivity. Qed.

Definition bad1_files : list (str * table) := [((u "/t/pyproject.toml"), [((u "tool"), TTab [((u "fixit"), TTab [((u "root"), TBool true)])])]); ((u "/t/outer/.fixit.toml"), [((u "tool"), TTab [((u "fixit"), TTab [((u "enable"), TArr [TStr (u ".localrules")]); ((u "disable"), TArr [TStr (u "fixit.rules")])])])]); ((u "/t/outer/inner/pyproject.toml"), [((u "tool"), TTab [((u "fuzzball"), TTab [((u "something"), TStr (u "whatever"))])])]); ((u "/t/outer/inner/fixit.toml"), [((u "tool"), TTab [((u "fixit"), TTab [((u "root"), TBool true); ((u "enable"), TArr [TStr (u "fake8"); TStr (u "make8")]); ((u "disable"), TArr [TStr (u "foo.bar")]); ((u "unknown"), TStr (u "hello"))])])]); ((u "/t/outer/pyproject.toml"), [((u "tool"), TTab [((u "fixit"), TTab [((u "output-format"), TStr (u "this is some weird format"))])])])].
Definition bad1_env : env := Env (fun s => match dget s bad1_files with Some t => Ok t | None => Err OSError end) (fun _ => true) (u "running") [] (fun l => l).
Definition bad1_fs : fs := FS (fun p => let s := u "/" ++ join (u "/") p in if existsb (str_eqb s) (map fst bad1_files) then Some s else None)
  (fun p => existsb (path_eqb p) [[]; [(u "t")]; [(u "t"); (u "outer")]; [(u "t"); (u "outer"); (u "inner")]]).

Example invalid_config_1 : generate_config bad1_env bad1_fs [(u "t"); (u "outer"); (u "foo.py")] None None = Err ConfigError.
Proof. vm_compute. reflexivity. Qed.

Example ignore_lint_ : map (fun l : list (str * place) => map fst (filter (fun x => negb (ignore_lint U0 (u "ExerciseReport") (snd x))) l)) [[((u "I pass"), (Place [(NInfo None NoBody None None [] [] None false); (NInfo (Some (Some (u "# random comment"))) NoBody None None [] [] (Some []) false)] [] true))]; [((u "I pass"), (Place [(NInfo None NoBody None None [] [] None false); (NInfo (Some None) NoBody None None [] [] (Some []) false)] [] true))]; [((u "I pass"), (Place [(NInfo None NoBody None None [] [] None false); (NInfo (Some (Some (u "# lint-fixme"))) NoBody None None [] [] (Some []) false)] [] true))]; [((u "I pass"), (Place [(NInfo None NoBody None None [] [] None false); (NInfo (Some (Some (u "# lint-ignore"))) NoBody None None [] [] (Some []) false)] [] true))]; [((u "I pass"), (Place [(NInfo None NoBody None None [] [] None false); (NInfo (Some (Some (u "# lint-fixme: ExerciseReport"))) NoBody None None [] [] (Some []) false)] [] true))]; [((u "I pass"), (Place [(NInfo None NoBody None None [] [] None false); (NInfo (Some (Some (u "# lint-ignore: ExerciseReport"))) NoBody None None [] [] (Some []) false)] [] true))]; [((u "I pass"), (Place [(NInfo None NoBody None None [] [] None false); (NInfo (Some (Some (u "# lint-fixme: SomethingElse, ExerciseReport"))) NoBody None None [] [] (Some []) false)] [] true))]; [((u "I pass"), (Place [(NInfo None NoBody None None [] [] None false); (NInfo (Some (Some (u "# lint-ignore: SomethingElse, ExerciseReport"))) NoBody None None [] [] (Some []) false)] [] true))]; [((u "I pass"), (Place [(NInfo None NoBody None None [] [] None false); (NInfo (Some (Some (u "# lint-fixme: SomethingElse"))) NoBody None None [] [] (Some []) false)] [] true))]; [((u "I pass"), (Place [(NInfo None NoBody None None [] [] None false); (NInfo (Some (Some (u "# lint-ignore: SomethingElse"))) NoBody None None [] [] (Some []) false)] [] true))]; [((u "I pass"), (Place [(NInfo None NoBody None None [] [] None false); (NInfo (Some None) NoBody None None [] [] (Some []) false)] [(Some (u "# random comment"))] true))]; [((u "I pass"), (Place [(NInfo None NoBody None None [] [] None false); (NInfo (Some None) NoBody None None [] [] (Some []) false)] [(Some (u "# lint-fixme"))] true))]; [((u "I pass"), (Place [(NInfo None NoBody None None [] [] None false); (NInfo (Some None) NoBody None None [] [] (Some []) false)] [(Some (u "# lint-ignore"))] true))]; [((u "I pass"), (Place [(NInfo None NoBody None None [] [] None false); (NInfo (Some None) NoBody None None [] [] (Some []) false)] [(Some (u "# lint-fixme: ExerciseReport"))] true))]; [((u "I pass"), (Place [(NInfo None NoBody None None [] [] None false); (NInfo (Some None) NoBody None None [] [] (Some []) false)] [(Some (u "# lint-ignore: ExerciseReport"))] true))]; [((u "I pass"), (Place [(NInfo None NoBody None None [] [] None false); (NInfo (Some None) NoBody None None [] [] (Some []) false)] [(Some (u "# lint-fixme: SomethingElse, ExerciseReport"))] true))]; [((u "I pass"), (Place [(NInfo None NoBody None None [] [] None false); (NInfo (Some None) NoBody None None [] [] (Some []) false)] [(Some (u "# lint-ignore: SomethingElse, ExerciseReport"))] true))]; [((u "I pass"), (Place [(NInfo None NoBody None None [] [] None false); (NInfo (Some None) NoBody None None [] [] (Some []) false)] [(Some (u "# lint-fixme: SomethingElse"))] true))]; [((u "I pass"), (Place [(NInfo None NoBody None None [] [] None false); (NInfo (Some None) NoBody None None [] [] (Some []) false)] [(Some (u "# lint-ignore: SomethingElse"))] true))]; [((u "I pass"), (Place [(NInfo None NoBody None None [] [] None false); (NInfo (Some None) NoBody None None [] [] None false); (NInfo None (SimpleSuite None) None None [] [] (Some []) false)] [] true))]; [((u "I pass"), (Place [(NInfo None NoBody None None [] [] None false); (NInfo (Some (Some (u "# lint-ignore"))) NoBody None None [] [] None false); (NInfo None (SimpleSuite (Some (u "# lint-ignore"))) None None [] [] (Some []) false)] [] true))]; [((u "I pass"), (Place [(NInfo None NoBody None None [] [] None false); (NInfo (Some None) NoBody None None [] [] None false); (NInfo None (SimpleSuite None) None None [] [] (Some []) false)] [(Some (u "# lint-ignore"))] true))]; [((u "I pass"), (Place [(NInfo None NoBody None None [] [] None false); (NInfo (Some None) NoBody None None [] [] None false); (NInfo None (SimpleSuite None) None None [] [] (Some [(Some (u "# lint-ignore"))]) false)] [] false))]; [((u "class def"), (Place [(NInfo None (SimpleSuite None) None None [] [] (Some []) false)] [] true))]; [((u "class def"), (Place [(NInfo None (SimpleSuite (Some (u "# lint-fixme"))) None None [] [] (Some []) false)] [] true))]; [((u "class def"), (Place [(NInfo None (SimpleSuite None) None None [] [] (Some []) false)] [(Some (u "# lint-fixme"))] true))]; [((u "class def"), (Place [(NInfo None (SimpleSuite None) None None [] [] (Some [(Some (u "# lint-fixme"))]) false)] [] false))]; [((u "class def"), (Place [(NInfo None (Indented None) None None [] [] (Some [None]) false)] [None] false))]; [((u "class def"), (Place [(NInfo None (Indented (Some (u "# comment"))) None None [] [] (Some [None]) false)] [None] false))]; [((u "class def"), (Place [(NInfo None (Indented (Some (u "# type: ignore # lint-ignore"))) None None [] [] (Some [None]) false)] [None] false))]; [((u "class def"), (Place [(NInfo None (Indented (Some (u "# lint-ignore ExerciseReport"))) None None [] [] (Some [None]) false)] [None] false))]; [((u "class def"), (Place [(NInfo None (Indented None) None None [] [] (Some [None; (Some (u "# type:ignore  # lint-fixme  # justification"))]) false)] [None] false))]; [((u "class def"), (Place [(NInfo None (Indented None) None None [] [] (Some [None; (Some (u "# lint-fixme: UnrelatedRule"))]) false)] [None] false))]; [((u "problem function"), (Place [(NInfo None (Indented None) None None [] [] (Some [None; (Some (u "# lint-fixme: ExerciseReport"))]) false)] [None] false))]; [((u "problem function"), (Place [(NInfo None (Indented None) None None [] [(Some (u "# lint-fixme: ExerciseReport"))] (Some [None]) false)] [None] false))]; [((u "class def"), (Place [(NInfo None (Indented None) None None [] [] (Some [None; (Some (u "# lint-fixme: ExerciseReport"))]) false)] [None] false)); ((u "class decorator"), (Place [(NInfo (Some None) NoBody None None [] [] (Some []) true); (NInfo None (Indented None) None None [] [] (Some [None; (Some (u "# lint-fixme: ExerciseReport"))]) false)] [None] false))]; [((u "class def"), (Place [(NInfo None (Indented None) None None [] [(Some (u "# lint-fixme: ExerciseReport"))] (Some [None]) false)] [None] false)); ((u "class decorator"), (Place [(NInfo (Some None) NoBody None None [] [] (Some []) true); (NInfo None (Indented None) None None [] [(Some (u "# lint-fixme: ExerciseReport"))] (Some [None]) false)] [None] false))]; [((u "I ellipse"), (Place [(NInfo None NoBody None None [] [] None false); (NInfo None NoBody None None [] [] None false); (NInfo None NoBody None None [] [] None false); (NInfo (Some None) NoBody None None [] [] (Some []) false)] [None; (Some (u "# lint-fixme: ExerciseReport"))] true))]; [((u "I ellipse"), (Place [(NInfo None NoBody None None [] [] None false); (NInfo None NoBody None None [None; (Some (u "# lint-fixme: ExerciseReport"))] [] None false); (NInfo None NoBody None None [] [] None false); (NInfo (Some None) NoBody None None [] [] (Some []) false)] [None] true))]; [((u "I ellipse"), (Place [(NInfo None NoBody None None [] [] None false); (NInfo None NoBody None None [] [] None false); (NInfo None NoBody None None [] [] None false); (NInfo (Some (Some (u "# lint-fixme: ExerciseReport"))) NoBody None None [] [] (Some []) false)] [None] true))]; [((u "I ellipse"), (Place [(NInfo None NoBody None None [] [] None false); (NInfo None NoBody None (Some (u "# lint-fixme: ExerciseReport")) [None] [] None false); (NInfo None NoBody None None [] [] None false); (NInfo (Some None) NoBody None None [] [] (Some []) false)] [None] true))]; [((u "I ellipse"), (Place [(NInfo None NoBody None None [] [] None false); (NInfo None NoBody None None [] [] None false); (NInfo None NoBody None None [None; (Some (u "# lint-fixme: ExerciseReport"))] [] None false); (NInfo None NoBody None None [] [] None false); (NInfo (Some None) NoBody None None [] [] (Some []) false)] [None] true))]; [((u "I ellipse"), (Place [(NInfo None NoBody None None [] [] None false); (NInfo None NoBody (Some (u "# lint-fixme: ExerciseReport")) None [] [] None false); (NInfo None NoBody None None [None] [] None false); (NInfo None NoBody None None [] [] None false); (NInfo (Some None) NoBody None None [] [] (Some []) false)] [None] true))]] =
  [[(u "I pass")]; [(u "I pass")]; []; []; []; []; []; []; [(u "I pass")]; [(u "I pass")]; [(u "I pass")]; []; []; []; []; []; []; [(u "I pass")]; [(u "I pass")]; [(u "I pass")]; []; []; []; [(u "class def")]; []; []; []; [(u "class def")]; [(u "class def")]; []; []; []; [(u "class def")]; []; []; []; []; []; []; []; []; []; []].
Proof. vm_compute. reflexivity. Qed.
