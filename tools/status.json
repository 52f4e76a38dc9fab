{
 "C09": {
  "status": "partial",
  "note": "Proved: a local rule is bound to the directory of a config that enables it (the first enabling mention since it was last disabled). The stronger claim that it is the nearest such config is refuted by C09_nearest_refuted: when two configs enable the same local name, the furthest one wins, because QualifiedRule equality ignores the root."
 },
 "C11": {
  "status": "partial",
  "note": "Proved: options replace the file settings exactly when given; with --config-file nothing else on the disk matters; the file's settings are honoured when it is in a directory above the linted path (C11_config_file_settings; C11_config_file_honoured spells it out for a file without applying overrides) and ignored as if empty otherwise (C11_config_file_ignored). The unconditional claim that the file is honoured is refuted by C11_config_file_elsewhere_refuted."
 },
 "C13": {
  "note": "str() of a parsed rule with a trailing newline drops it: C13_exact_roundtrip_refuted shows the exception the statement mentions."
 },
 "C17": {
  "status": "partial",
  "note": "Refuted for local packages: disabling never affects a class that a local import creates (C17_local_ineffective, C17_local_refuted), and a local rule that two entries find runs twice (C17_twice_refuted). Proved for rule classes of modules that stay in sys.modules."
 },
 "C19": {
  "note": "When collect_rules raises the directory stays on sys.path: C19_leak_refuted shows that the restriction to normal return is needed."
 },
 "C20": {
  "status": "partial",
  "note": "Proved exactly which modules stay (C20_exact): those whose name does not begin with the text fixit.local. The clause that no other module is removed is therefore refuted for names such as fixit.localized (C20_others_refuted)."
 },
 "C22": {
  "note": "Only the first directive of a comment counts: C22_every_directive_refuted shows that a second one in the same comment is ignored."
 },
 "C48": {
  "note": "C48_any covers every readable file, also one whose enable/disable/overrides have wrong types (one final 'Invalid config' message, or strings iterated by character). C48_accepts_refuted: only rule names are validated, so that a config every command rejects passes."
 },
 "C25": {
  "note": "C25_counts_refuted: two rules of one name (classes of different modules) overwrite each other's counts, hence the restriction to different names."
 },
 "C26": {
  "note": "About LibCST as modelled in Cst.v (trusted): parsed trees, in which separators between elements are explicit."
 },
 "C31": {
  "note": "C31_reformat_refuted: accepting (or autofixing) a violation that has no fix also rewrites the file in the formatter's style. C31_emptied_refuted: if the fixes leave an empty file it is not written at all although the fixes are reported."
 },
 "C32": {
  "note": "C32_config_error_refuted: with a broken configuration nothing is printed, so that an editor piping the text through fixit loses it."
 },
 "C33": {
  "note": "C33_early_respond: an answer given before the first result makes the generator raise TypeError. C33_reiterate_refuted: iterating again after the end loses the result."
 },
 "C37": {
  "note": "C37_refuted shows that the independence hypothesis is needed."
 },
 "C38": {
  "note": "C38_truncated_refuted: the file being written can be left empty, as it is written in place."
 },
 "C35": {
  "note": "For every behaviour of fixit_paths that ends. C35_crash_refuted: an exception of the command itself also gives status 1, with nothing printed."
 },
 "C36": {
  "note": "C36_quit_refuted: after 'y' and then quit the summary reports one fix applied although nothing is saved. C36_failed_refuted: a failing write does not change the summary either."
 },
 "C49": {
  "note": "C49_diff_refuted, C49_metrics_refuted: with --diff or --print-metrics other text precedes the content on standard output."
 },
 "C40": {
  "note": "For documents that no other URI names. C40_main_refuted: the arrival of a change itself can be delayed by a formatting request for another document, as the main thread serves that."
 },
 "C41": {
  "note": "C41_overlap_refuted: two overlapping requests can compute two different configurations, hence the restriction; with interval 0 it always holds (C41_immediate). C41_computed, C41_failing: a request that finds none looks at the files of that time; an error ends it and nothing is kept. C41_once: at most one store without overlap."
 },
 "C43": {
  "status": "partial",
  "note": "Proved: the text of the edit is the fixed and formatted content (C43_reply), which part of the document the edit replaces (C43_applied, for lines that end with \\n, \\r or \\r\\n), and for every document exactly when the result is the content (C43_exact_partial): iff the document does not end with a line end and its last line has no characters beyond the basic plane, or it has a line break that only Python knows (such as a form feed) before its last character. That the result is always exactly the content is refuted: the line end at the end of the old text is kept (C43_refuted), and with characters beyond the basic plane in the last line more of it (C43_astral_refuted)."
 },
 "C44": {
  "status": "partial",
  "note": "Proved when validations of the document do not overlap, in particular with interval 0. In general refuted (C44_refuted): a validation that has started is not cancelled and can publish after a later one."
 },
 "C45": {
  "note": "For rules whose single report on a case with a replacement carries a fix (otherwise the last check of testing.py computes a diff of no replacement). C45_empty_refuted: an expected replacement that is the empty string is not checked. C45_module_refuted: add_lint_rule_tests_to_module keeps only the last of several rules with the same class name."
 },
 "C46": {
  "note": "C46_autofix is the one-step statement for any base classes; C46_hierarchy for single inheritance from LintRule with no explicit AUTOFIX."
 },
 "C59": {
  "note": "Uses functional extensionality (Coq.Logic.FunctionalExtensionality)."
 },
 "C61": {
  "note": "Uses functional extensionality (Coq.Logic.FunctionalExtensionality). LibCST's check of f-string prefixes is part of the model (Rules.v, valid_fprefix)."
 },
 "C53": {
  "note": "C53_by_is_meaning is for singletons that == compares by identity, such as None (C53_none_example); with True the meaning changes (C53_true_refuted)."
 },
 "C62": {
  "note": "C62_black_refuted: black raises NothingChanged when the fixed code is already formatted; C62_black_lost: then nothing is ever written. C62_through, C62_ufmt and C62_black_exact say exactly what each formatter makes of the fixed code (tightened after two wrong formatters went unnoticed)."
 },
 "C64": {
  "note": "C64_meaning_refuted: without the commutation condition the fix changes meaning; C64_crash_refuted: targets other than names make the rule raise."
 },
 "C65": {
  "note": "C65_async_missed_refuted: leaving a nested function clears the flag, so later calls in the async def are missed. C65_super_meaning_refuted: super(A, other) is rewritten although super() means super(A, self)."
 },
 "C66": {
  "note": "C66_metadata_refuted: strings in Annotated[...] are reported and replaced."
 },
 "C67": {
  "note": "Refuted: the name dataclass need not be known; a mapping ** that already holds frozen makes the new decorator fail."
 },
 "C68": {
  "note": "Refuted: a compound statement that contains a mixed import is deleted as a whole, aliases are lost, relative imports are rewritten, and only the last set of mixed names is fixed."
 },
 "C69": {
  "note": "Refuted: with all upgrade rules in one run the bases of rule classes are not renamed (a rule pops the shared metadata sets), an unresolved base crashes the rule, names such as Rule become empty, 'X as X' breaks the uses."
 },
 "C70": {
  "note": "Refuted: a nested function with its own cls captures the name; imports and nonlocal declarations of the parameter keep the old name; with positional-only parameters the wrong parameter is renamed or cls is added twice."
 },
 "C71": {
  "note": "Refuted: 'or' in a try statement with several handlers is overlooked; '#noqa' is."
 },
 "C72": {
  "status": "proved",
  "note": "Methods are any functions of the rule's own state; shared metadata that a rule changes is not covered (C69 has an example). C72_monotone_refuted: a rule that raises hides the violations of the others."
 },
 "C73": {
  "status": "proved",
  "note": "C73_same_name_refuted: durations of different classes with the same name are added up."
 },
 "C74": {
  "status": "proved",
  "note": "C74_without_rich: the fallback pprint.pprint(\">>> \", path) takes the path as a stream and raises. C74_succeeds_refuted: a disabled rule that cannot be instantiated makes debug fail although linting works."
 },
 "C76": {
  "note": "C76_meaning, C76_safe, C76_run and C76_runs use functional extensionality. C76_stops needs no axiom. The exception (both comparison rules on) is exact: C76_cycle_refuted. C76_run is one run and C76_runs any number of runs of any of seven rules with conditions on the first program; in C76_runs what dict is called with must not itself be a call that a rule rewrites (`calm`)."
 },
 "C77": {
  "note": "The bound of nine is exact (C77_example_busy). Threads never wait for each other because lsp.py uses no locks; pygls, which the model replaces by its effects (documents, sending messages), is trusted not to block."
 },
 "C78": {
  "note": "A rule is any code that changes its violations through report only and does not catch what report raises; parsing, metadata and code generation by LibCST are arbitrary functions."
 },
 "C79": {
  "note": "Files of modules do not change during the session and importing a local module does not depend on what was imported before (Session.v). C79_projects_refuted and C79_leak_refuted show that the provisos are needed: cached modules and a leaked sys.path entry of one project decide which rules another project is linted with."
 },
 "C80": {
  "note": "One process, files one after the other (--jobs 1, or one file); the pool's part is C33-C37. Simplifications as in C78 and C79."
 },
 "C81": {
  "note": "The interpreter is in the same state for every request; C79 says when what was linted before makes no difference, C82 what concurrent requests do to sys.path."
 },
 "C82": {
  "note": "C82_race_refuted shows that the condition on directories in C82_same is needed: a real race in the language server (rules silently missing). find_rules is atomic in the model; sys.modules does not influence an import of a global module (Collect.v). Local rules are the subject of C83."
 },
 "C83": {
  "note": "Refutations show that the conditions are needed: the language server can lint a file with the rules of another project. What importlib does is taken from CPython's source (_find_and_load_unlocked), not from /repo."
 },
 "C84": {
  "note": "Processes are fair to each other in no way: any number of workers share the files in any way, each starts with the interpreter state of the main process (fork), files are done in any order; results of a file arrive together. Same-results claims (C84_file, C84_all, C84_code, C84_serial) are within one project (configurations agree on enable-root-import) while no file changes; across projects refuted (C84_projects_refuted). A killed worker, pickling and metrics printed by workers are not modelled (crashes: C37, C38)."
 },
 "C85": {
  "note": "Executions that return; for C85_quit any execution in which the user quit. A file with an error is covered by C80_writes (what is written is justified). `fix -` with --diff or metrics also prints these to standard output (C49_*_refuted)."
 },
 "C86": {
  "note": "C86_fix and C86_told: executions that return, the user not quitting; files with errors are covered by C86_others and C80_writes. The disk is the function that the model's looks see; rules and formatters do not write to it. C86_told also needs that the files fixed are neither configuration files nor modules with rules (stated), and C86_clean that fix starts from the interpreter state that lint started from."
 },
 "C87": {
  "note": "C87_fix, C87_raises: one command. C87_stops, C87_done: command after command; if compare_singleton_primitives_by_is and compare_primitives_by_equal are both selected, no program reached may have a comparison that mixes their operators (C76 shows this is needed). That a rule class does on the nodes of a file what its model does on expressions (`obeys`), that LibCST parses what it prints as the same program (`readable`) and how programs are laid out (`form`) are hypotheses; ProgramExamples meets them with a small language of lists."
 },
 "C88": {
  "note": "C88_says: one class on one file. C88_obeys, C88_runs: so the hypotheses of C87 about rule classes hold of the built-in ones. C88_lint: the violations of a file. C88_stops: C87_stops with these classes. Hypotheses: a node can be read as the expression it lays out (`reads_nodes`), LibCST's visit goes through the expressions of the file in the order of the file (`seen`), a rule builds a node that lays out its fix (`writes_fixes`); met in VisitorsExamples by a small language with CollapseIsinstanceChecks itself."
 },
 "C89": {
  "note": "C89_meaning: any of the classes, the single fixes assumed to keep meaning (C53-C61 say when). C89_seven: seven classes, conditions on the first program. Both use functional extensionality (through C76_meaning). The hypotheses about trees and texts are those of C88; MeaningExamples meets all of them with two commands that fix f(tuple(tuple((a, b))))."
 },
 "C90": {
  "note": "The class run later must have the same code as the class tested, and Python and LibCST must be the same (same_language); the rest of the system may differ. C90_nothing_refuted: exit status 0 does not mean that a rule was tested, a name that cannot be imported is only logged. TestRunExamples meets all hypotheses with RewriteToLiteral."
 },
 "C91": {
  "note": "What a node is, and what LibCST's metadata says about it, are any functions of its identity that fit its type (shows_things, shows_kinds); nodes are different objects (own_ids), also the lines of a class. C91_says/C91_lint: the ten classes without state; C91_state: the four with; C91_abc: DeprecatedABCImport, whose report about the module comes last. Whether what is reported is an improvement is the subject of C63 to C71, with what goes wrong (the _refuted theorems there). StatementsExamples meets all hypotheses with four of the classes."
 },
 "C92": {
  "note": "C92_lint has the exact reports of each of the three; C92_base_kept and C92_use_renamed spell out what becomes of references. That every reference to an old name is reported is refuted (C92_all_renamed_refuted: `class Bar(CSTLintRule)`), as in C69_together_refuted for one class. Bases of classes are different nodes, inside their class (well_read). SharedExamples meets all hypotheses, with the three rules and with one."
 },
 "C93": {
  "note": "C93_config is about one configuration, C93_file, C93_lint and C93_fix about whole runs (iff, also interrupted ones); C93_documented about the syntax in docs/guide/configuration.rst 240. The comparison is with a program that reads every configuration file as if its options tables were empty, on the same file systems; rules that read configuration files themselves see the same ones. fixit debug, which prints the whole Config, and the language server are not part of it."
 },
 "C94": {
  "note": "textwrap.dedent is Python's (Dedent.v models it line by line; Conformance4 compares the model with the real one on 644 strings). C94_dedent and C94_blank are the exact result, C94_tests the consequence for tests, C94_untestable and C94_code_refuted the findings. C94_tests and C94_untestable are about any surroundings of a test whose dedent is this one."
 },
 "C95": {
  "note": "str.format is Python's: Template.v models its parser character by character and its evaluation for keyword arguments; attributes, items, repr, ascii, non-empty format specs and the object result are arbitrary functions (a record `python`), and C95_exact says which templates give a text whatever those do. Conformance5 compares the model with the real str.format on 2 x 1173 templates. C95_unchecked_refuted, C95_lint_breaks and C95_fix_breaks are findings."
 },
 "C96": {
  "note": "Local rules (leading dot) are excluded: each import makes new classes, see C17. C96_enable_refuted and C96_disable_refuted are findings about the documentation of enable and disable. That a module which cannot be imported is left out is part of what an entry stands for."
 },
 "C97": {
  "note": "In C97_file the rules' calls of report are taken to be about the same code with the same messages in both versions (ranges and replacements may differ), as they are for rules that do not look at comments; the world and the configuration are the same. C97_example_apart: in 'A , B' the second name belongs to the remark."
 },
 "C98": {
  "note": "The servers of pygls are calls that go on, raise or return. C98_only_refuted and C98_both_refuted are findings about the documented usage [--stdio | --tcp PORT | --ws PORT]."
 },
 "C99": {
  "note": "Storing the output is assumed to succeed. At API level each execution of one has one of the other (both directions); C99_lint is an equivalence; C99_fix is stated for executions that end and a readable configuration."
 },
 "C100": {
  "note": "For executions that end with an exit code, files read in this process (C37, C84 relate this to the process pool). The summary line itself is C47."
 },
 "C101": {
  "note": "Assumes that which files are found below a path depends on the names of files and directories only (trailrunner also reads .gitignore files, which fixing does not change) and that all paths can be walked."
 },
 "C102": {
  "note": "Executions that end (with a value or an exception). Printing metrics does not fail. The clock that the durations come from is an opaque function."
 },
 "C103": {
  "note": "Executions in which only the command changes files, no write fails, every file is found once and the answer to every question is yes. C103_formatter_refuted shows that the condition on formatting cannot be dropped."
 },
 "C104": {
  "note": "Condition: whenever the command looks, the paths stand for the same files and trailrunner.walk of each of these gives just that file. The executions may stop at any point."
 },
 "C105": {
  "note": "Files one after another: fixit lint with its process pool delivers the same results, see C84 and C37."
 },
 "C106": {
  "note": "Files one after another; with the process pool callers cannot answer (C37)."
 },
 "C107": {
  "note": "Each command returns 0. The directory listing depends only on which files exist (names_only). fixit fix never uses the process pool (parallel=False)."
 },
 "C108": {
  "note": "For commands that succeed; a class is shown by its module and name, not by which import made it. Files do not change meanwhile, and importing a local module does not depend on earlier imports (Session.v). C108_projects_refuted is a finding: debug shows, and lint uses (C79_projects_refuted), the rule of another project."
 },
 "C109": {
  "note": "Files do not change meanwhile. That no file is found twice is needed: a file found twice is counted once, its auto-fixes twice."
 },
 "C110": {
  "note": "Only the command changes the files, and no write fails. The two theorems are the two directions; which files are below a path depends on names only."
 },
 "C111": {
  "note": "Files do not change meanwhile; for commands that end normally (after an exception, which lines were printed before it does depend on the order). Paths other than standard input; linting in one process (for the pool see C84)."
 },
 "C112": {
  "note": "Only the command changes the files, and no write fails. The conditions are those under which it is true: a local rule module that is itself fixed, or a configuration file, may change what is done with the files after it (C101)."
 },
 "C113": {
  "note": "Files do not change meanwhile; no standard input; linting in one process. The example is a finding of sorts: auto-fixes of a file named twice are counted twice (4 instead of 2), though its violations are there once."
 }
}