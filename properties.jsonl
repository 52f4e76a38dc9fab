{"id": "C01", "title": "Config discovery order", "statement": "locate_configs(path, root) returns exactly the existing files named fixit.toml, .fixit.toml or pyproject.toml in the directories from the path's own directory (the path itself if it is a directory) up to and including root, nearest directory first and in that name order inside a directory; it never returns a file outside root, and raises ValueError when path is not inside root.", "quantifier": "every directory tree, path depth, root and set of existing files", "why_tests_cant": "directory trees and depths are unbounded", "anchors": ["src/fixit/config.py:locate_configs", "src/fixit/config.py:FIXIT_CONFIG_FILENAMES"]}
{"id": "C02", "title": "Reading stops at the root config", "statement": "read_configs keeps the order of its input, drops the files with no or an empty tool.fixit table, and reads nothing after the first file whose table has a true `root` value. It fails exactly when a file that is reached cannot be read or parsed, or has a tool or tool.fixit that is no table, with that file's error.", "quantifier": "every list of paths and every file content", "why_tests_cant": "lists of files and TOML contents are unbounded", "anchors": ["src/fixit/config.py:read_configs"]}
{"id": "C03", "title": "Configs beyond a root config have no influence", "statement": "The configuration generated for a path does not depend on the content, validity or existence of any config file that comes after (above) the first config with root = true.", "quantifier": "every pair of file systems that agree up to the root config", "why_tests_cant": "quantifies over pairs of file systems (non-interference)", "anchors": ["src/fixit/config.py:generate_config", "src/fixit/config.py:read_configs"]}
{"id": "C04", "title": "Nearest setting wins for scalar settings", "statement": "For python-version, formatter, output-format and output-template the value in the generated Config is the one given by the nearest config that sets it (for the first two: the last applicable override of the nearest config that sets it in its table or in an applicable override); when none sets it, the default is used. An empty python-version disables version filtering.", "quantifier": "every stack of configs and overrides", "why_tests_cant": "stacks of configs are unbounded", "anchors": ["src/fixit/config.py:merge_configs"]}
{"id": "C05", "title": "Last mention decides enable/disable", "statement": "A rule (module or module:name) is in Config.enable exactly when the last time it is mentioned - configs from the furthest to the nearest, in a table enable before disable, overrides after the table they belong to, non-applicable overrides not counted, fixit.rules counted as enabled before everything - it is mentioned in an enable list, and in Config.disable exactly when the last mention is in a disable list.", "quantifier": "every stack of configs and overrides", "why_tests_cant": "stacks of configs are unbounded", "anchors": ["src/fixit/config.py:merge_configs", "src/fixit/ftypes.py:QualifiedRule"]}
{"id": "C06", "title": "Enable and disable are disjoint, sorted and deterministic", "statement": "Config.enable and Config.disable of a merged config have no rule in common, no duplicates, are sorted by their textual form, and do not depend on the iteration order of the sets used to build them.", "quantifier": "every stack of configs and every set iteration order", "why_tests_cant": "Python's set order depends on the hash seed: a test sees one order", "anchors": ["src/fixit/config.py:merge_configs", "src/fixit/ftypes.py:QualifiedRule.__lt__"]}
{"id": "C07", "title": "Overrides apply only below their path", "statement": "A well-formed override whose path is not an ancestor of (or equal to) the file has no effect on the generated config, wherever it stands; one that matches has the same effect as a config table standing after the tables before it.", "quantifier": "every stack of configs, override and file path", "why_tests_cant": "quantifies over all stacks and paths", "anchors": ["src/fixit/config.py:merge_configs.process_subpath"]}
{"id": "C08", "title": "Rule options are replaced per rule", "statement": "Config.options maps a rule name to the whole option table of the last applicable table that mentions this rule (tables are not merged key by key); rules not mentioned have no entry.", "quantifier": "every stack of configs", "why_tests_cant": "stacks of configs are unbounded", "anchors": ["src/fixit/config.py:merge_configs", "src/fixit/config.py:get_options"]}
{"id": "C09", "title": "Local rules are imported relative to the config that names them", "statement": "A local rule (.module) in Config.enable is bound to the directory of the config that enables it.", "quantifier": "every stack of configs", "why_tests_cant": "stacks are unbounded; the failing case needs two configs naming the same local rule", "anchors": ["src/fixit/config.py:parse_rule", "src/fixit/ftypes.py:QualifiedRule.root", "src/fixit/config.py:merge_configs"]}
{"id": "C10", "title": "enable-root-import never leaves the root", "statement": "When a config is accepted with enable-root-import set, the directory appended to sys.path is the project root or a directory below it, and the setting comes from the config in the root directory; configs elsewhere, absolute paths and '..' components are rejected with ConfigError.", "quantifier": "every stack of configs and every string value", "why_tests_cant": "strings and stacks are unbounded", "anchors": ["src/fixit/config.py:merge_configs", "src/fixit/config.py:collect_rules"]}
{"id": "C11", "title": "Command line options override the files", "statement": "--rules replaces the enable list and empties the disable list; --tags, --output-format and --output-template replace the configured value when given and only then; --config-file uses that file and no other.", "quantifier": "every option value and file system", "why_tests_cant": "quantifies over all configurations", "anchors": ["src/fixit/config.py:generate_config", "src/fixit/cli.py:main"]}
{"id": "C12", "title": "Only valid configurations are returned", "statement": "If merge_configs returns, every rule name in enable/disable was a valid rule name, every formatter is a registered one (so formatting never fails to find it), the python version parsed, option values are scalars; and a wrong type or value in any table or override, applicable or not where its type is concerned, is an exception instead; which exception it is, is determined by the first fault in the documented order.", "quantifier": "every raw config", "why_tests_cant": "TOML values are unbounded", "anchors": ["src/fixit/config.py:merge_configs", "src/fixit/config.py:get_sequence", "src/fixit/config.py:get_options", "src/fixit/format.py:format_module"]}
{"id": "C13", "title": "Rule name grammar", "statement": "parse_rule accepts exactly an optional leading dot, a module name of dot separated words, and an optional colon and rule name (plus one trailing newline); the parsed module, name and locality are the corresponding parts of the string, and str() of the result is the string given (without the newline).", "quantifier": "every string", "why_tests_cant": "strings are unbounded", "anchors": ["src/fixit/config.py:parse_rule", "src/fixit/ftypes.py:QualifiedRuleRegex", "src/fixit/ftypes.py:QualifiedRule.__str__"]}
{"id": "C14", "title": "Rule selection", "statement": "The rule classes instantiated by collect_rules are exactly those found for some enable entry that loads, that are not found for any disable entry (unless also found for an enable entry naming a single rule), whose tags are accepted by the tag filter when one is set, and whose version specifier contains the target version when one is set.", "quantifier": "every set of modules, config and import outcome", "why_tests_cant": "modules, configs and import failures are unbounded", "anchors": ["src/fixit/config.py:collect_rules"]}
{"id": "C15", "title": "Every disabled rule has one reason", "statement": "With debug_reasons, a rule found by some enable or disable entry is either in the result or has a reason, never both; the reason is 'disabled', 'tags' or 'python-version' according to the first filter that removed it.", "quantifier": "every set of modules and config", "why_tests_cant": "unbounded module sets", "anchors": ["src/fixit/config.py:collect_rules", "src/fixit/cli.py:debug"]}
{"id": "C16", "title": "A failing rule import affects nothing else", "statement": "An enable or disable entry whose import raises is logged and contributes nothing; all other entries are collected as if it were absent.", "quantifier": "every config and every subset of failing entries", "why_tests_cant": "any subset of imports may fail", "anchors": ["src/fixit/config.py:collect_rules", "src/fixit/config.py:find_rules"]}
{"id": "C17", "title": "Disabling one rule of a local package", "statement": "enable = ['.rules'], disable = ['.rules:Foo'] disables Foo.", "quantifier": "every local package", "why_tests_cant": "class identity depends on import history", "anchors": ["src/fixit/config.py:collect_rules", "src/fixit/config.py:local_rule_loader"]}
{"id": "C18", "title": "Finding rules in a module", "statement": "find_rules of a module yields each rule class of the module and of its direct non-package submodules once per name, in name order; of module:name exactly that class or CollectionError; an import failure is CollectionError.", "quantifier": "every module tree and name", "why_tests_cant": "module trees are unbounded", "anchors": ["src/fixit/config.py:find_rules", "src/fixit/config.py:walk_module"]}
{"id": "C19", "title": "sys.path is restored", "statement": "collect_rules leaves sys.path as it found it when it returns.", "quantifier": "every config, prior sys.path and import outcome", "why_tests_cant": "histories of sys.path are unbounded", "anchors": ["src/fixit/util.py:append_sys_path", "src/fixit/config.py:collect_rules"]}
{"id": "C20", "title": "Local rules never leak into sys.modules", "statement": "Whatever happens during the import of a local rule, no module of the fixit.local namespace is left in sys.modules afterwards, and no other module is removed.", "quantifier": "every import outcome and prior sys.modules", "why_tests_cant": "any import may fail at any point", "anchors": ["src/fixit/config.py:local_rule_loader"]}
{"id": "C21", "title": "Tag filters", "statement": "A rule is accepted by a tag filter iff none of its tags is excluded and, if there is an included tag, at least one of its tags is included; parsing splits on commas, lower-cases, strips and sorts, so that order, case, spacing and repetition do not matter.", "quantifier": "every filter string and every tag collection", "why_tests_cant": "strings and collections are unbounded", "anchors": ["src/fixit/ftypes.py:Tags"]}
{"id": "C22", "title": "Directive matching", "statement": "A comment suppresses a rule iff its first lint-ignore/lint-fixme directive has no rule list or lists the rule's name (with or without the Rule suffix, as is or in lower case).", "quantifier": "every comment text and rule name", "why_tests_cant": "comment texts are unbounded", "anchors": ["src/fixit/ftypes.py:LintIgnoreRegex", "src/fixit/rule.py:LintRule.ignore_lint"]}
{"id": "C23", "title": "Directive scope", "statement": "The comments consulted for a node are those of the node and its ancestors up to and including the nearest one with leading lines (decorators are passed through): trailing comments, comments after commas and inside brackets, leading comments; and the module header iff that statement is the first of the module (or the node is the module). Comments elsewhere never suppress.", "quantifier": "every tree and node", "why_tests_cant": "trees are unbounded", "anchors": ["src/fixit/rule.py:LintRule.node_comments"]}
{"id": "C24", "title": "Reporting", "statement": "report adds exactly one violation with the rule's name, the given message (or the class MESSAGE), the node's or the given range and the replacement when the node is not suppressed, nothing when it is, and never touches earlier violations; without a message it raises ValueError.", "quantifier": "every node, rule state and argument", "why_tests_cant": "all call histories", "anchors": ["src/fixit/rule.py:LintRule.report"]}
{"id": "C25", "title": "Violations are delivered completely and in order", "statement": "collect_violations yields all violations of each rule in report order, rules in the given order, with the diff of its own fix exactly for those with an autofix, and counts them: its return value, Count.<rule>, FixCount.<rule> (for rules with pairwise different names other than Total) and Count.Total equal the number of violations / fixable violations yielded; the metrics hook is called once, after the last violation. If it raises, a prefix of the violations was yielded and the hook not called.", "quantifier": "every list of rules and violations", "why_tests_cant": "lists are unbounded", "anchors": ["src/fixit/engine.py:LintRunner.collect_violations"]}
{"id": "C26", "title": "Applying fixes changes only the accepted nodes", "statement": "apply_replacements changes the source exactly by replacing the text of each outermost accepted node by its replacement's text (a sequence that loses its last element, a line that loses its last small statement and a block that loses its last statement are replaced as a whole, by 'pass' where Python needs a statement); fixes inside a replaced node are ignored; without accepted replacements the module is unchanged.", "quantifier": "every tree and every subset of accepted violations", "why_tests_cant": "trees and subsets are unbounded", "anchors": ["src/fixit/engine.py:LintRunner.apply_replacements"]}
{"id": "C27", "title": "The diff shown is the fix applied", "statement": "The changed source used for a violation's diff equals the source after accepting this violation alone.", "quantifier": "every tree and violation", "why_tests_cant": "trees are unbounded", "anchors": ["src/fixit/engine.py:diff_violation", "src/fixit/engine.py:LintRunner.apply_replacements"]}
{"id": "C28", "title": "Fix order does not matter", "statement": "Accepting the same fixes for pairwise different nodes in any order gives the same module; for one node the last accepted fix wins.", "quantifier": "every permutation of accepted fixes", "why_tests_cant": "number of orders is unbounded", "anchors": ["src/fixit/engine.py:LintRunner.apply_replacements"]}
{"id": "C29", "title": "Result protocol of one file", "statement": "Linting content yields one result per violation in order, or exactly one clean result when there is none or no rule is enabled; an exception yields one final error result; nothing is raised to the caller and nothing follows an error result.", "quantifier": "every content, rule set, caller decision sequence and failure point", "why_tests_cant": "decision sequences and failure points are unbounded", "anchors": ["src/fixit/api.py:fixit_bytes"]}
{"id": "C30", "title": "Which content is returned", "statement": "fixit_bytes returns the formatted module with exactly the fixes of the violations answered True (all of them with autofix, whatever is answered), and None when there is none or an error occurred.", "quantifier": "every decision sequence", "why_tests_cant": "2^n decision sequences", "anchors": ["src/fixit/api.py:fixit_bytes"]}
{"id": "C31", "title": "When files are written", "statement": "fixit_file writes at most once, only its own path, only after all its results have been consumed without error, and only when a fix was accepted (autofix accepts every violation); it writes exactly the fixed content, and not when that equals the old content or is empty. Linting without accepted fixes never writes. Conversely, a file linted to its end without error is written when the accepted fixes change its content to something non-empty.", "quantifier": "every file system, decision sequence, abandonment point", "why_tests_cant": "all decision sequences and abandonment points", "anchors": ["src/fixit/api.py:fixit_file"]}
{"id": "C32", "title": "STDIN mode", "statement": "With autofix, linting from standard input writes to standard output exactly once, the fixed content or the unchanged input, also if linting fails, provided the configuration can be read; without autofix it writes nothing; no file is ever written.", "quantifier": "every input and failure", "why_tests_cant": "inputs unbounded", "anchors": ["src/fixit/api.py:fixit_stdin"]}
{"id": "C33", "title": "capture routes answers", "statement": "With capture, the answer given by respond (or sent) while handling a result is delivered for that result and only for it, a result without an answer gets None; result is the generator's return value after exhaustion and ValueError before.", "quantifier": "every generator and answer history", "why_tests_cant": "all generators and histories", "anchors": ["src/fixit/util.py:capture"]}
{"id": "C34", "title": "Path arguments", "statement": "fixit_paths lints standard input iff the first path is '-', under the second path's name if given, raises on a third path; otherwise lints every file found for every path, in order, once per occurrence, ignoring later '-'.", "quantifier": "every argument list and directory content", "why_tests_cant": "argument lists are unbounded", "anchors": ["src/fixit/api.py:fixit_paths"]}
{"id": "C35", "title": "Exit code of lint", "statement": "When fixit lint ends normally, its exit code has bit 0 set iff some result is a violation and bit 1 set iff some result is an error; it is 0 iff everything is clean, and no other bit is ever set. Linting asks nothing and writes no file.", "quantifier": "every sequence of results", "why_tests_cant": "sequences are unbounded", "anchors": ["src/fixit/cli.py:lint"]}
{"id": "C36", "title": "Answers in interactive fix are honoured", "statement": "In interactive fix (one file), the user is asked once per fixable violation, in order; exactly the fixes answered 'y' are accepted by the engine, and the files written are those of that run. Quitting stops before the current file is written.", "quantifier": "every answer sequence", "why_tests_cant": "3^n answer sequences", "anchors": ["src/fixit/cli.py:fix"]}
{"id": "C37", "title": "Parallel equals sequential", "statement": "Linting or fixing several distinct files in a process pool gives, for every schedule, the same results per file and the same final file contents as processing them one after the other, if what the configuration, rules and formatter do for a file does not depend on the contents of the other linted files; and no schedule gets stuck. Files not named like a configuration file do not influence the configuration.", "quantifier": "every schedule of the worker processes", "why_tests_cant": "number of interleavings is exponential", "anchors": ["src/fixit/api.py:fixit_paths", "src/fixit/api.py:_fixit_file_wrapper"]}
{"id": "C38", "title": "A crash while fixing harms at most the file being written", "statement": "If the process dies at any point of a run over several files, every linted file has its old content or its complete new content, except a file that is just being written (or whose writing failed), which has a prefix of its new content; no other file is changed.", "quantifier": "every crash point", "why_tests_cant": "every instruction is a crash point", "anchors": ["src/fixit/api.py:fixit_file"]}
{"id": "C39", "title": "Debounce", "statement": "For one document at any time at most one validation is waiting; a validation that starts is that of the most recent change at that time; a change is skipped only if a later one follows within the interval; with interval 0 every change is validated.", "quantifier": "every sequence of changes and timer firings", "why_tests_cant": "all interleavings of calls and timers", "anchors": ["src/fixit/lsp.py:Debouncer", "src/fixit/lsp.py:debounce"]}
{"id": "C40", "title": "Documents do not interfere", "statement": "Changes to one document never cancel or alter the validation of another, nor delay its timers and threads: everything about a document is as if the events of the others had not happened. (Handling a notification waits while the main thread serves a formatting request.)", "quantifier": "every interleaving of events of several documents", "why_tests_cant": "all interleavings", "anchors": ["src/fixit/lsp.py:LSP.validate"]}
{"id": "C41", "title": "Configuration is cached per path", "statement": "The language server's configuration of a path is one that the files gave at some time; as long as requests for one file do not overlap it is computed at most once, and later requests see the same configuration even if the files changed; a failing computation is not cached.", "quantifier": "every request history and file system history", "why_tests_cant": "histories unbounded", "anchors": ["src/fixit/lsp.py:LSP.load_config"]}
{"id": "C42", "title": "Published diagnostics mirror lint results", "statement": "Diagnostics published for a version of a document are those of a text the document had after this version was announced, linted with the server's configuration: one per violation, in order, with the same message, rule name and columns and line numbers one less; errors produce none. Every validation that ends has published unless reading the document or the configuration failed.", "quantifier": "every result sequence", "why_tests_cant": "sequences unbounded", "anchors": ["src/fixit/lsp.py:LSP._validate"]}
{"id": "C43", "title": "Formatting edit", "statement": "The edit returned by the format request has the fixed and formatted content of the document as its text, and applying it to the document gives exactly this content.", "quantifier": "every document and formatted content", "why_tests_cant": "documents unbounded", "anchors": ["src/fixit/lsp.py:LSP.format"]}
{"id": "C44", "title": "Published diagnostics are not stale", "statement": "After diagnostics for one version of a document have been published, no diagnostics for an earlier version are published.", "quantifier": "every interleaving of timer threads", "why_tests_cant": "thread interleavings", "anchors": ["src/fixit/lsp.py:LSP._validate", "src/fixit/lsp.py:Debouncer"]}
{"id": "C45", "title": "One test per VALID/INVALID case", "statement": "Test generation yields for each rule exactly one test method per VALID and per INVALID case under distinct names, each test runs a fresh rule instance, and the generated test passes iff a VALID case has no report / an INVALID case has at least one and all match the expectations.", "quantifier": "every rule and case list", "why_tests_cant": "case lists unbounded", "anchors": ["src/fixit/testing.py:gen_test_methods_for_rule", "src/fixit/testing.py:LintRuleTestCase._test_method"]}
{"id": "C46", "title": "AUTOFIX and metadata dependencies of a rule class", "statement": "A rule class has AUTOFIX true iff some INVALID case of it has a non-empty expected replacement (or a base class has it), and always depends on the parent node provider, without loosing other dependencies.", "quantifier": "every class definition", "why_tests_cant": "class definitions unbounded", "anchors": ["src/fixit/rule.py:LintRule.__init_subclass__"]}
{"id": "C47", "title": "Output lines and summary", "statement": "lint and fix print one line per violation (path relative to the working directory when below it, line, column, rule, message, marked if fixable), two per error, nothing for clean files, in the order of the results; the final summary shows the number of distinct files visited, of distinct files with errors, of fixes available and of fixes taken.", "quantifier": "every result sequence", "why_tests_cant": "sequences unbounded", "anchors": ["src/fixit/api.py:print_result", "src/fixit/cli.py:splash"]}
{"id": "C48", "title": "validate-config reports every bad rule and never crashes", "statement": "validate_config never raises and returns one message per enable/disable entry, in tables and overrides, that does not parse or does not import, and none for the others.", "quantifier": "every config file", "why_tests_cant": "config files unbounded", "anchors": ["src/fixit/config.py:validate_config"]}
{"id": "C49", "title": "fix on STDIN prints only the fixed content", "statement": "fixit fix - writes to standard output exactly the content fixit_stdin writes there (the fixed content, or the input), writes no file and asks nothing, unless diffs or metrics are requested.", "quantifier": "every input, configuration and execution", "why_tests_cant": "all inputs and all failure points", "anchors": ["src/fixit/cli.py:fix", "src/fixit/api.py:fixit_stdin", "src/fixit/api.py:print_result"]}
{"id": "C50", "title": "The --rules option", "statement": "--rules selects exactly the comma separated entries (white space and empty entries ignored), each once, in textual order whatever the set order, local names relative to the working directory; it is rejected with a configuration error iff some entry is not a rule name.", "quantifier": "every option text and every set iteration order", "why_tests_cant": "texts and iteration orders are unbounded", "anchors": ["src/fixit/cli.py:main", "src/fixit/ftypes.py:QualifiedRule", "src/fixit/config.py:parse_rule"]}
{"id": "C51", "title": "upgrade applies only upgrade rules", "statement": "fixit upgrade asks nothing and behaves as automatic fixing with exactly the rules of fixit.upgrade enabled and nothing disabled, whatever the configuration says.", "quantifier": "every configuration, tree and execution", "why_tests_cant": "all configurations", "anchors": ["src/fixit/cli.py:upgrade", "src/fixit/config.py:merge_configs"]}
{"id": "C52", "title": "Reported if-conditions are static", "statement": "Every condition NoStaticIfCondition reports has, whatever its names, calls and their effects, the same outcome every time it has one (not every such condition is reported: `True and True` is not).", "quantifier": "every condition and every behaviour of the program around it", "why_tests_cant": "all expressions, all run time behaviours", "anchors": ["src/fixit/rules/no_static_if_condition.py:NoStaticIfCondition"]}
{"id": "C53", "title": "Comparison rules change operators only", "statement": "ComparePrimitivesByEqual replaces exactly the is / is not operators next to a number or string literal by == / !=, ComparePrimitivesByIs (singletons) exactly the == / != next to True, False or None by is / is not; operands, order and the other operators stay; a replacement is not reported by the same rule again; the second rule keeps the meaning where == with the singleton is identity, as with None, but not with True (refuted: 1 == True). The two rules can undo each other (refuted: `1 == True`).", "quantifier": "every comparison chain", "why_tests_cant": "chains of any length", "anchors": ["src/fixit/rules/compare_primitives_by_equal.py", "src/fixit/rules/compare_singleton_primitives_by_is.py"]}
{"id": "C54", "title": "Collapsed isinstance checks", "statement": "CollapseIsinstanceChecks replaces an or-chain by one that is true in the same cases, if its operands have no effect and do not fail; its replacement is not reported again. (The value may differ, and an exception of an operand may be left out: both refuted.)", "quantifier": "every or-chain, every machine", "why_tests_cant": "chains of any length and nesting", "anchors": ["src/fixit/rules/chained_instance_check.py:CollapseIsinstanceChecks"]}
{"id": "C55", "title": "Test assertion rules keep the assertion", "statement": "UseAssertIn and UseAssertIsNotNone replace an assertion by one that does the same for every operand (evaluation order, exceptions and effects included); DeprecatedUnittestAsserts replaces every deprecated alias by its new name; NoAssertTrueForComparisons replaces assertTrue(a, literal) by the comparison that was meant (which is not what the call did: refuted); no rule reports its own replacement.", "quantifier": "every call, every machine where self is a test case", "why_tests_cant": "all operand expressions and their effects", "anchors": ["src/fixit/rules/use_assert_in.py", "src/fixit/rules/use_assert_is_not_none.py", "src/fixit/rules/no_assert_true_for_comparison.py", "src/fixit/rules/deprecated_unittest_asserts.py"]}
{"id": "C56", "title": "Literals instead of calls", "statement": "RewriteToLiteral replaces list/tuple/set/dict calls of plain displays by literals with the same meaning, never reported again. Refuted for keyword arguments (dict(a=[]) becomes {}) and for starred elements of pairs.", "quantifier": "every call, every machine with Python's displays", "why_tests_cant": "displays of any length with any element expressions", "anchors": ["src/fixit/rules/rewrite_to_literal.py:RewriteToLiteral"]}
{"id": "C57", "title": "Comprehensions instead of calls", "statement": "RewriteToComprehension replaces list/set/dict calls of generators and list comprehensions by comprehensions with the same meaning (same elements, order, effects), if elements for dict are written as pairs. Refuted for longer elements; with one element the rule itself fails.", "quantifier": "every comprehension with any clauses", "why_tests_cant": "nested clauses, conditions and effects are unbounded", "anchors": ["src/fixit/rules/rewrite_to_comprehension.py:RewriteToComprehension"]}
{"id": "C58", "title": "any and all of generators", "statement": "NoRedundantListComprehension keeps the result of any/all if going through the elements has no effect and does not fail; refuted otherwise. Its replacement is not reported again.", "quantifier": "every comprehension", "why_tests_cant": "iterations of any length", "anchors": ["src/fixit/rules/no_redundant_list_comprehension.py:NoRedundantListComprehension"]}
{"id": "C59", "title": "Redundant lambdas", "statement": "NoRedundantLambda reports exactly the lambdas that pass all their plain parameters on in order; calling the replacement does the same as calling the lambda if the function is without effect and does not mention the parameters. Refuted if it does, and if the function does not exist yet.", "quantifier": "every lambda, every arguments", "why_tests_cant": "any number of parameters, any function expression", "anchors": ["src/fixit/rules/no_redundant_lambda.py:NoRedundantLambda"]}
{"id": "C60", "title": "Redundant f-strings", "statement": "NoRedundantFString replaces an f-string without expressions by a plain string of the same text, whatever doubled braces it has; only these are reported, and no replacement is.", "quantifier": "every text", "why_tests_cant": "all texts, all nestings of braces", "anchors": ["src/fixit/rules/no_redundant_fstring.py:NoRedundantFString"]}
{"id": "C61", "title": "f-strings instead of %", "statement": "UseFstring replaces a %-format by an f-string with the same text: for any single value that is not a tuple, and for a tuple display with as many unstarred, effect-free elements as placeholders (no backslash in the literal). Refuted: extra elements are dropped, a run time tuple is not unpacked, the prefix u makes the rule fail, an expression that starts with a brace becomes text. String literals inside the replacement keep prefix and text, never have the quote of the f-string, and a changed quote does not occur in their text. Refuted: a literal with another quote may contain the quote of the f-string, the new quote may contain it, and nested f-strings keep it (syntax errors before Python 3.12).", "quantifier": "every format string, any expressions, any machine", "why_tests_cant": "texts with any number of placeholders and braces", "anchors": ["src/fixit/rules/use_fstring.py:UseFstring"]}
{"id": "C62", "title": "Formatting after fixes", "statement": "The formatter named in the configuration is the one that is used on fixed code: the last defined style with that name; without a formatter the fixed code is written as it is; with black the written text is black's output for the fixed code under the project's settings. Refuted: when black has nothing to change in the fixed code it raises NothingChanged, so the fix is never written and an error is reported instead.", "quantifier": "every registry of styles, any behaviour of black and ufmt, every file and caller", "why_tests_cant": "any formatter behaviour, any third-party style, all runs", "anchors": ["src/fixit/format.py:Formatter", "src/fixit/format.py:BlackFormatter", "src/fixit/format.py:format_module", "src/fixit/api.py:fixit_bytes"]}
{"id": "C63", "title": "Dropping object from the bases keeps the class", "statement": "NoInheritFromObject reports a class exactly when one of its bases is object, the replacement keeps all other bases in their order and everything else, is not reported again, and whenever the original class statement succeeds the new one gives a class with the same method resolution order (an object before another base never succeeds).", "quantifier": "every class statement, every class hierarchy", "why_tests_cant": "all hierarchies under C3 linearisation", "anchors": ["src/fixit/rules/no_inherit_from_object.py:NoInheritFromObject"]}
{"id": "C64", "title": "Sorted attributes", "statement": "SortedAttributes reports a class exactly when its docstring has @sorted-attributes and its attribute assignments are not in order; the replacement permutes the body's lines: what stands before the first assignment, the assignments in order, the others in their order, and it is not reported again. The class body means the same when the lines that change places commute. Refuted: without that condition (b = 1; a = b fails after the fix), and an assignment to a tuple or subscript makes the rule fail (AttributeError for targets without a value, TypeError for attributes and subscripts unless it is the only assignment).", "quantifier": "every class body, any semantics of the lines", "why_tests_cant": "all bodies, all orders, any effect of a line", "anchors": ["src/fixit/rules/sorted_attributes_rule.py:SortedAttributes"]}
{"id": "C65", "title": "Calls and the functions and classes around them", "statement": "UseAsyncSleepInAsyncDef reports exactly the calls of time.sleep directly in an async def (before any nested function ends); NoRedundantArgumentsSuper reports exactly the two-argument super calls whose first argument is the dotted name of the classes around, and proposes super(). Refuted: a call after a nested function is missed; the second argument is not checked to be the first parameter.", "quantifier": "every syntax tree: any nesting and order of functions, classes and calls", "why_tests_cant": "state carried through a traversal of arbitrary trees", "anchors": ["src/fixit/rules/use_async_sleep_in_async_def.py:UseAsyncSleepInAsyncDef", "src/fixit/rules/no_redundant_arguments_super.py:NoRedundantArgumentsSuper"]}
{"id": "C66", "title": "Annotation rules", "statement": "UseTypesFromTyping reports exactly the builtin container names within annotations and replaces them when the typing name is in scope; NoStringTypeAnnotation reports exactly the strings within annotations after the __future__ import and outside Literal[...]; ReplaceUnionWithOptional replaces a union of a type and None by an Optional of the same values. Refuted: string metadata in Annotated[...] is rewritten as if it were a type.", "quantifier": "every syntax tree, every nesting of annotations and subscripts, any types", "why_tests_cant": "state carried through a traversal of arbitrary trees", "anchors": ["src/fixit/rules/use_types_from_typing.py:UseTypesFromTyping", "src/fixit/rules/no_string_type_annotation.py:NoStringTypeAnnotation", "src/fixit/rules/replace_union_with_optional.py:ReplaceUnionWithOptional"]}
{"id": "C67", "title": "Named tuples and frozen data classes", "statement": "NoNamedTuple reports a class exactly when a base is typing.NamedTuple, keeps all other bases in order and adds @dataclass(frozen=True) last; ExplicitFrozenDataclass reports exactly the dataclass decorators without the keyword frozen and adds frozen=True after the other arguments; neither result is reported again, by either rule. Refuted: the name dataclass need not be known; a mapping ** that already holds frozen makes the new decorator fail.", "quantifier": "every class statement and decorator, any name resolution", "why_tests_cant": "all combinations of bases, decorators and arguments", "anchors": ["src/fixit/rules/no_namedtuple.py:NoNamedTuple", "src/fixit/rules/extra/explicit_frozen_dataclass.py:ExplicitFrozenDataclass"]}
{"id": "C68", "title": "Imports of abstract base classes", "statement": "DeprecatedABCImport replaces exactly the imports of only ABCs from collections outside except blocks, and splits the imports that mix ABCs and other names; undotted imports without aliases bind the same names to the same objects as before. Bases collections.X become collections.abc.X, all others stay. Refuted: a compound statement that contains a mixed import is deleted as a whole, aliases are lost, relative imports are rewritten, and only the last set of mixed names is fixed.", "quantifier": "every module body, any nesting of the imports", "why_tests_cant": "all modules, all positions of the import", "anchors": ["src/fixit/rules/deprecated_abc_import.py:DeprecatedABCImport"]}
{"id": "C69", "title": "fixit upgrade", "statement": "The upgrade rules rename exactly the four old names imported from fixit and the names that stand for them, so that every use still has the name it is imported as; rule classes lose the suffix Rule; the old test case keywords are removed, all other arguments stay in order, line and column become a range, once. Refuted: with all upgrade rules in one run the bases of rule classes are not renamed (a rule pops the shared metadata sets), an unresolved base crashes the rule, names such as Rule become empty, 'X as X' breaks the uses.", "quantifier": "every import, alias, name, class and call", "why_tests_cant": "any names, any combination of rules on shared metadata", "anchors": ["src/fixit/upgrade/deprecated_import.py:FixitDeprecatedImport", "src/fixit/upgrade/remove_rule_suffix.py:FixitRemoveRuleSuffix", "src/fixit/upgrade/deprecated_testcase_keywords.py:FixitDeprecatedTestCaseKeywords"]}
{"id": "C70", "title": "Renaming the first parameter of a class method", "statement": "UseClsInClassmethod reports exactly the class methods whose first ordinary parameter is not cls and proposes no fix when cls is known; otherwise the renaming keeps what every name of the function refers to, and the result is not reported again. Refuted: a nested function with its own cls captures the name; imports and nonlocal declarations of the parameter keep the old name; with positional-only parameters the wrong parameter is renamed or cls is added twice.", "quantifier": "every function body with any nesting of functions, any names", "why_tests_cant": "scoping over arbitrary nestings", "anchors": ["src/fixit/rules/cls_in_classmethod.py:UseClsInClassmethod"]}
{"id": "C71", "title": "or in except, noqa comments", "statement": "AvoidOrInExcept reports exactly the try statements with a single handler whose type is an 'or'; UseLintFixmeComment reports exactly the comments that begin with '# noqa' in any case. Refuted: 'or' in a try statement with several handlers is overlooked; '#noqa' is.", "quantifier": "every list of handlers, every comment text", "why_tests_cant": "all texts, all lists", "anchors": ["src/fixit/rules/avoid_or_in_except.py:AvoidOrInExcept", "src/fixit/rules/extra/use_lint_fixme_comment.py:UseLintFixmeComment"]}
{"id": "C72", "title": "Rules do not interfere", "statement": "Linting a file with several rules delivers exactly the violations that linting it with each rule alone delivers, in the order of the rules; it succeeds iff it does with each rule alone, and when it fails one of the rules fails alone with the same error: during the traversal (then no violation of any rule is delivered) or while its violations are delivered (then those of the rules before it have been). That adding a rule never loses violations is false, because a rule that raises hides the others.", "quantifier": "every syntax tree, every list of rules with arbitrary visitor methods and states, every clock", "why_tests_cant": "rules are arbitrary programs whose calls are interleaved in one traversal of any tree", "anchors": ["src/fixit/engine.py: LintRunner.collect_violations", "src/fixit/rule.py: LintRule.get_visitors"]}
{"id": "C73", "title": "Durations in the metrics", "statement": "For each name Duration.<class>.<method> the metrics hook is told the sum of the times of exactly the calls of that method of rules with that class name, and there is no entry for methods that were not called. Classes of the same name share an entry.", "quantifier": "every tree, every list of rules and methods, every time each call takes", "why_tests_cant": "times are not reproducible and the number of calls is unbounded", "anchors": ["src/fixit/engine.py: LintRunner.collect_violations visit_hook", "src/fixit/rule.py: LintRule.get_visitors"]}
{"id": "C74", "title": "fixit debug shows what linting uses", "statement": "For every path, in order, fixit debug shows the configuration generated for it, the sorted names of exactly the rules that this configuration selects, and the sorted names of all other rules it finds, each once and with the reason disabled, tags or python-version. It fails only where linting could not start, or when a disabled class cannot be instantiated; without the optional package rich it always fails after showing the options.", "quantifier": "every configuration, set of importable modules, list of paths and interpreter state", "why_tests_cant": "quantifies over all configurations, module contents and installed packages", "anchors": ["src/fixit/cli.py: debug", "src/fixit/config.py: generate_config, collect_rules", "src/fixit/rule.py: LintRule.__str__"]}
{"id": "C75", "title": "Each expression rule reports exactly what it documents", "statement": "Every built-in rule over expressions reports an expression if and only if it has the documented form, and offers exactly the documented replacement (or none): a static if condition, a comparison of primitives by is or of singletons by ==, chained isinstance calls, assertTrue/assertFalse of in, None or comparisons, deprecated unittest methods, calls that could be literals or comprehensions, any/all over a list comprehension, and string formatting that could be an f-string.", "quantifier": "every expression, at every size, for each rule", "why_tests_cant": "an if and only if over all expressions: the documented examples are finitely many", "anchors": ["src/fixit/rules/compare_primitives_by_equal.py", "src/fixit/rules/compare_singleton_primitives_by_is.py", "src/fixit/rules/no_static_if_condition.py", "src/fixit/rules/chained_instance_check.py", "src/fixit/rules/use_assert_in.py", "src/fixit/rules/use_assert_is_not_none.py", "src/fixit/rules/no_assert_true_for_comparison.py", "src/fixit/rules/deprecated_unittest_asserts.py", "src/fixit/rules/rewrite_to_literal.py", "src/fixit/rules/rewrite_to_comprehension.py", "src/fixit/rules/no_redundant_list_comprehension.py", "src/fixit/rules/use_fstring.py"]}
{"id": "C76", "title": "Fixing a whole program again and again ends, and keeps its meaning", "statement": "Running 'fixit fix --automatic' repeatedly with any selection of the built-in expression rules reaches a program that no rule has a fix for (or in which a rule raises, and which then stays as it is), after at most 13 runs per node of the program, unless both ComparePrimitivesByEqual and CompareSingletonPrimitivesByIs are on and a literal is compared with None, True or False: `1 is None` is fixed back and forth for ever (refuted). No fixed number of runs is enough for all programs (refuted). If every single fix keeps the meaning of the expression it replaces, the whole program keeps its meaning, through any number of runs.", "quantifier": "every selection and order of the expression rules, every program, every number of runs, every machine that satisfies the stated laws of Python", "why_tests_cant": "termination over all programs of all sizes, and equality of meaning over all programs, states and machines", "anchors": ["src/fixit/engine.py: apply_replacements", "src/fixit/api.py: fixit_bytes", "src/fixit/cli.py: fix", "src/fixit/rules"]}
{"id": "C77", "title": "The language server handles every request", "statement": "The server never stops taking messages for good: whenever it does not take messages it waits for the handling of one request, this is never blocked by anything else, and takes at most eight more actions of its thread whatever other threads, timers and programs do meanwhile; no request takes more than nine actions. Every formatting request is given a thread, which in the end has either answered exactly once, as the last thing it does, or failed with the exception of reading, encoding or decoding the document or generating the configuration (IndexError for an empty document). After any history, if the client is silent, letting time pass and threads act publishes the diagnostics of the last change or ends its validation with an exception.", "quantifier": "every server configuration, every history of messages, timers, thread actions and file changes", "why_tests_cant": "interleavings of threads, timers and messages are unbounded", "anchors": ["src/fixit/lsp.py:LSP.format", "src/fixit/lsp.py:LSP._validate", "src/fixit/lsp.py:LSP.diagnostic_generator", "src/fixit/lsp.py:debounce"]}
{"id": "C78", "title": "From configuration and comments to violations and files", "statement": "Linting or fixing a file with the whole of fixit: if no error is reported, the violations delivered are exactly the report calls that the rules selected by the configuration make while the file is traversed, minus those at a place where a comment in scope names the rule (or all rules), each with its rule, message, position, node, replacement and diff, rule after rule and in the order of the calls. In every execution, with errors or abandoned, each violation delivered is such a call, and if the file is written then with the replacements of such calls only. The code of rules that are not selected and the report calls that a comment silences have no effect on any execution; if all calls are silenced nothing is delivered and nothing written.", "quantifier": "every configuration, every set of importable modules and rules with arbitrary code, every file and metadata, every caller behaviour, crash point and file system history", "why_tests_cant": "rules are arbitrary code; independence of unselected rules and silenced reports compares all pairs of executions", "anchors": ["src/fixit/api.py:fixit_file", "src/fixit/api.py:fixit_bytes", "src/fixit/engine.py:LintRunner.collect_violations", "src/fixit/config.py:collect_rules", "src/fixit/rule.py:LintRule.report"]}
{"id": "C79", "title": "Files linted before do not matter", "statement": "Linting or fixing a file after other files in the same process (as fixit_paths does with --jobs 1, and each worker of the pool) delivers the violations that linting it in a fresh process delivers, and fails with an error iff that does, provided that no file with enable-root-import before it ended in an error (other errors do not matter) and that modules imported for the other configurations are the ones its own configuration would find, in particular within a project whose configurations agree on enable-root-import. Both provisos are needed: a project with a module of the same name as one of a project linted before is linted with the other project's rules, and after an error the other project's root stays on sys.path.", "quantifier": "every sequence of files linted before, every configuration and file system history, every set of importable modules, every caller behaviour", "why_tests_cant": "compares all histories of a process with a fresh process; the state carried over (sys.modules, sys.path) depends on everything that was imported before", "anchors": ["src/fixit/api.py:fixit_paths", "src/fixit/config.py:collect_rules", "src/fixit/config.py:find_rules", "src/fixit/util.py:append_sys_path"]}
{"id": "C80", "title": "Commands end to end", "statement": "fixit lint of files, run to its end, exits with 0 iff there is nothing to complain about in any of the files it was given (each can be read, configured, its rules imported and run, the file parsed when there are rules, and no selected rule reports anything that is not silenced); bit 0 of the exit status is set only if a selected rule reports something unsilenced, and always if a file processed without error has such a report; it never writes a file nor asks anything. fixit fix writes, in every execution, only to files it was given, and only content made from what was read by applying replacements proposed by selected rules where no comment silences them and formatting. fixit fix --automatic run to its end exits with 0, has fixed every file for which no error was reported (all unsilenced reports applied, the formatted result written iff it is different and not empty), and has written nothing else.", "quantifier": "every command line, configuration, set of modules and rules with arbitrary code, file, file system history, user answers, crash point and previous state of the process", "why_tests_cant": "composes arbitrary rules, configurations, file sets and errors; the exit status quantifies over all of them", "anchors": ["src/fixit/cli.py:lint", "src/fixit/cli.py:fix", "src/fixit/api.py:fixit_paths", "src/fixit/api.py:fixit_file"]}
{"id": "C81", "title": "The editor shows what lint says", "statement": "The language server with the whole of fixit: each diagnostic published for a version of a document is something that a rule selected by the configuration says about a text the document had after this version was announced and that no comment silences, and if linting goes through, the diagnostics are exactly all of this, in order; they are the violations that fixit lint or fix reports for a file with this content when it sees the same files. The edit returned for a formatting request is the text with all that is reported applied and formatted, which is what fixit fix --automatic writes for such a file. When the client falls silent, diagnostics for the last change and about the current text are published, unless the configuration cannot be read.", "quantifier": "every history of edits, requests, timers, thread interleavings and file system changes; every configuration, set of rules with arbitrary code and text", "why_tests_cant": "compares two front ends over all histories and rules", "anchors": ["src/fixit/lsp.py:LSP._validate", "src/fixit/lsp.py:LSP.format", "src/fixit/lsp.py:LSP.diagnostic_generator", "src/fixit/api.py:fixit_bytes", "src/fixit/api.py:fixit_file"]}
{"id": "C82", "title": "Rules collected in several threads at once", "statement": "However the threads of the language server that collect rules at the same time interleave: sys.path always begins with what was on it, followed by exactly the directories that requests have put there and not yet removed; removing never fails; when all requests have ended without an exception sys.path is what it was; no request waits for another and all end. While a request imports its rules, the directory of its project is on sys.path, if it was there before, if the request has put it there itself or if no other request is for the same directory. If no two requests are for the same directory and module names are unambiguous, each request gets the rules it would get by itself. (Two requests for the same project can interfere: see C82_race_refuted.)", "quantifier": "every number of requests, configurations, modules and interleaving", "why_tests_cant": "the interleavings cannot be enumerated or forced by a test", "anchors": ["src/fixit/util.py:append_sys_path", "src/fixit/config.py:collect_rules", "src/fixit/config.py:find_rules", "src/fixit/lsp.py:Debouncer"]}
{"id": "C83", "title": "Local rules imported in several threads at once", "statement": "However requests that import local rules (modules of a project, as submodules of fixit.local) interleave in the threads of the language server: the modules a request gets are the one it asked for and its submodules, each loaded with its packages from the project of some request, never from elsewhere; an exception is ImportError, KeyError or one raised by a module; when no request is underway, nothing of fixit.local is left in sys.modules; no request waits for another and all end. If all requests are for one project, a request without an exception has exactly the modules it should. A request that is not interrupted gets exactly what it should, modules or exception, whatever came before. (Interleaved requests for two projects can get each other's rules, and requests for one project can fail: C83_mixed_refuted, C83_lost_refuted.)", "quantifier": "every number of requests, projects, module trees and interleaving", "why_tests_cant": "the interleavings cannot be enumerated or forced by a test", "anchors": ["src/fixit/config.py:local_rule_loader", "src/fixit/config.py:find_rules", "src/fixit/config.py:walk_module", "src/fixit/lsp.py:Debouncer"]}
{"id": "C84", "title": "Lint with a process pool", "statement": "`fixit lint` with several files, whatever number of processes share them in whatever way and whichever are done first: the exit status is 0 if and only if there is nothing to complain about in any file (it can be read, its configuration and rules can be loaded, no rule raises, none reports something that no comment silences); bit 0 is only set if a rule complains, and it is set if a rule complains about a file without an error; the lines printed are those of the results and the summary; nothing is written. For the files of one project the outcome does not depend on the processes: two runs over the same files, or a run with a pool and one without, both report an error or neither does, and if not, they have the same results for each file, the same exit status and the same lines up to order. (For files of several projects it does: C84_projects_refuted.)", "quantifier": "every set of files, number of processes, assignment of files to processes, order of completion, system of rules", "why_tests_cant": "the ways to share files among processes and orders of completion are unbounded and not under a test's control", "anchors": ["src/fixit/api.py:fixit_paths", "src/fixit/api.py:_fixit_file_wrapper", "src/fixit/cli.py:lint"]}
{"id": "C85", "title": "Interactive fixing and fixing of standard input, with everything below", "statement": "`fixit fix` (interactive) of files, from any state of the interpreter: a question is asked for exactly the violations that can be fixed, in order; when the user does not quit, every file for which no error is reported has been fixed as the user said: the user was told all that the selected rules report where no comment silences them, and the file's new content is its old one with exactly the accepted fixes applied and formatted (nothing is written if none is accepted, or if they change nothing). After quitting, the files before are fixed as told, nothing of the file at hand is written although fixes of it may have been accepted, and later files are left alone. Nothing else is written. What is displayed is each result in the configured format and the summary. `fixit fix -` writes no file and asks nothing; when no error is reported, standard output gets exactly the text with all that is reported applied and formatted, or the text itself.", "quantifier": "every file system and its changes, configuration, set of rules, list of arguments, sequence of answers, state of the interpreter", "why_tests_cant": "the combinations of files, rules, comments, configurations and answers are unbounded", "anchors": ["src/fixit/cli.py:fix", "src/fixit/api.py:fixit_paths", "src/fixit/api.py:fixit_stdin", "src/fixit/api.py:fixit_file"]}
{"id": "C86", "title": "What is on the disk after lint and fix, if nobody else changes files", "statement": "While `fixit fix` runs, nobody else changes files. Whatever happens (answers, errors, quitting, dying anywhere), only files named on the command line or found under a directory named change, and no directory does. When it runs to its end without the user quitting, a file (named once) for which no error is reported has afterwards the content that comes from its content before: the rules selected by its configuration report exactly the violations shown, and the new content is the old one with these fixed (interactively: with the chosen ones fixed) and formatted. `fixit lint` changes nothing. If `fixit lint` exits with 0, then `fixit fix` from the same files and state of the interpreter, in any mode, asks nothing and changes nothing. `fixit lint` and `fixit fix` of the same files report the same violations for each file, if no file fixed is a configuration file or contains rules; without errors they print the same but for the summary.", "quantifier": "every file system, configuration, set of rules, list of arguments, sequence of answers, state of the interpreter and point at which the process dies", "why_tests_cant": "the combinations of files, rules, comments, configurations, answers and crash points are unbounded", "anchors": ["src/fixit/cli.py:lint", "src/fixit/cli.py:fix", "src/fixit/api.py:fixit_paths", "src/fixit/api.py:fixit_file", "src/fixit/config.py:generate_config"]}
{"id": "C87", "title": "Fixing files that hold programs, again and again", "statement": "`fixit fix --automatic` of files, nobody else changing files. If a file named once holds a program, its rules do what the built-in rules do on expressions (they report exactly what the built-in rules report on the nodes of the program, with their replacements, and may leave out only nodes inside of nodes they replace), no comment silences anything, and no error is reported for the file, then afterwards the file holds the program in which one run of these rules, in some order, has made its replacements; no rule raises anywhere in the program. If a rule raises anywhere in the program, an error is reported and the file stays as it is. Running the command again and again with any of the built-in rules that fix expressions, as long as it ends without an error for the file, after at most 13 commands for each node of the program nothing is left to fix; from then on the command proposes no fix for this file and leaves the file as it is (if formatting what was read gives what was read).", "quantifier": "every program, layout of programs in syntax trees, selection and order of rules, configuration, other files and rules for them, number of commands", "why_tests_cant": "programs, their layouts and the sequences of commands are unbounded; tests run one rule on one snippet once", "anchors": ["src/fixit/cli.py:fix", "src/fixit/api.py:fixit_file", "src/fixit/engine.py:LintRunner.collect_violations", "src/fixit/engine.py:LintRunner.apply_replacements", "src/fixit/rules"]}
{"id": "C88", "title": "The built-in rule classes about expressions, on whole files", "statement": "When the engine drives one of the built-in rule classes that fix expressions over a file and it gets through, it has looked at every expression of the file and reported exactly what its check of that expression alone finds, in the order of the file, at that node, with the replacement built for that node; it raises for none of them. CollapseIsinstanceChecks, which remembers what it has seen, is the same but that it reports nothing for `a or b` inside of `a or b or c`, and it forgets no chain. So linting a file without errors reports exactly these, but where a comment silences them; and `fixit fix --automatic` with any selection of these classes, again and again, comes to an end as C87 says.", "quantifier": "every program, syntax tree, class of the built-in rules that fix expressions, selection of them, configuration, number of commands", "why_tests_cant": "a class may remember, skip or mix up nodes in a way that only shows in larger files; tests give a rule one snippet", "anchors": ["src/fixit/rules/chained_instance_check.py:CollapseIsinstanceChecks.visit_BooleanOperation", "src/fixit/rules/use_fstring.py:UseFstring", "src/fixit/rules/rewrite_to_literal.py:RewriteToLiteral.visit_Call", "src/fixit/rules", "src/fixit/engine.py:LintRunner.collect_violations"]}
{"id": "C89", "title": "Fixing a file keeps what its program does", "statement": "Run `fixit fix --automatic` any number of times over files, with any of the built-in rule classes that fix expressions selected for one of them. If each single fix keeps the meaning of the expression that it replaces, the file afterwards holds a program that means what the program before meant: the same value or exception and the same effects, in every state. For CompareSingletonPrimitivesByIs, UseAssertIn, UseAssertIsNotNone, DeprecatedUnittestAsserts, RewriteToLiteral, RewriteToComprehension and NoRedundantFString it is enough that the program to begin with does not rebind self, list, tuple, set and dict, calls them with plain arguments, and gives dict pairs.", "quantifier": "every Python machine with the laws the fixes rely on, program, state, selection of classes, configuration, other files, number of commands", "why_tests_cant": "fixes meet inside each other and across runs in unboundedly many programs; a test compares texts, not what programs do", "anchors": ["src/fixit/cli.py:fix", "src/fixit/engine.py:LintRunner.apply_replacements", "src/fixit/rules/rewrite_to_literal.py:RewriteToLiteral", "src/fixit/rules/rewrite_to_comprehension.py:RewriteToComprehension", "src/fixit/rules/use_assert_in.py:UseAssertIn"]}
{"id": "C90", "title": "A rule that passes its tests does on files what its cases say", "statement": "If `fixit test NAMES` exits with 0, then for every rule that NAMES select and each of its cases: linting a file that holds the (dedented) code of the case with this rule gives one clean result and writes nothing if the case is VALID; it gives at least one violation, each with the case's message and range, if the case is INVALID, and no error; and if the case has a replacement, no formatter is configured and all fixes are accepted, the file is written with exactly that replacement. With other rules selected as well the violations that carry the rule's name are those of the case, if no rule raises.", "quantifier": "every rule class, case, name list, order of the tests, configuration, path, later state of the files and the interpreter, run of fixit_file", "why_tests_cant": "it relates what test runs show to every later run of fixit on files: other configurations, other rules, other interpreter states", "anchors": ["src/fixit/cli.py:test", "src/fixit/testing.py:LintRuleTestCase._test_method", "src/fixit/testing.py:generate_lint_rule_test_cases", "src/fixit/api.py:fixit_file", "src/fixit/engine.py:LintRunner"]}
{"id": "C91", "title": "The built-in rules about statements, and those that keep state, on whole files", "statement": "Linting a file without errors with any of the built-in rules about classes, functions, try, if, annotations, comments, imports and test cases (NoInheritFromObject, NoNamedTuple, ExplicitFrozenDataclass, SortedAttributes, UseClsInClassmethod, AvoidOrInExcept, NoStaticIfCondition, ReplaceUnionWithOptional, UseLintFixmeComment, FixitDeprecatedTestCaseKeywords, DeprecatedABCImport, UseAsyncSleepInAsyncDef, NoRedundantArgumentsSuper, UseTypesFromTyping, NoStringTypeAnnotation) selected, whatever other rules are: the violations that this rule delivers are exactly those its documentation asks for about the nodes of the file, at every depth, in the order of the traversal, each with its replacement, except where a comment silences them.", "quantifier": "every file, tree, metadata that LibCST computes, selection of rules, configuration, comments, run of fixit_file", "why_tests_cant": "the rules' test cases are a few snippets with one rule each; here all trees, all combinations with other rules in one batched traversal", "anchors": ["src/fixit/rules/no_inherit_from_object.py", "src/fixit/rules/no_namedtuple.py", "src/fixit/rules/extra/explicit_frozen_dataclass.py", "src/fixit/rules/sorted_attributes_rule.py", "src/fixit/rules/cls_in_classmethod.py", "src/fixit/rules/avoid_or_in_except.py", "src/fixit/rules/no_static_if_condition.py", "src/fixit/rules/replace_union_with_optional.py", "src/fixit/rules/extra/use_lint_fixme_comment.py", "src/fixit/upgrade/deprecated_testcase_keywords.py", "src/fixit/rules/deprecated_abc_import.py", "src/fixit/rules/use_async_sleep_in_async_def.py", "src/fixit/rules/no_redundant_arguments_super.py", "src/fixit/rules/use_types_from_typing.py", "src/fixit/rules/no_string_type_annotation.py", "src/fixit/engine.py:LintRunner.collect_violations", "src/fixit/api.py:fixit_file"]}
{"id": "C92", "title": "The rules of fixit.upgrade together on whole files", "statement": "Linting a file without errors with any of the rules of fixit.upgrade, which take names out of metadata sets that they share, and any other rules that leave those sets alone, in any order: FixitRemoveRuleSuffix reports each class whose name ends in Rule once for every base that is fixit.LintRule, FixitDeprecatedTestCaseKeywords reports the calls of ValidTestCase and InvalidTestCase with old keywords, and FixitDeprecatedImport reports every imported alias of an old name and every reference to it with the new name, except where a comment silences them, and except for the references that are base classes when FixitRemoveRuleSuffix is run, too (with one name per reference, none of those is reported).", "quantifier": "every file, tree, metadata that LibCST computes, selection and order of rules, configuration, comments, run of fixit_file", "why_tests_cant": "each rule's test cases run it alone; what is taken from the shared sets depends on the order of the traversal and on which rules run together", "anchors": ["src/fixit/upgrade/deprecated_import.py:FixitDeprecatedImport", "src/fixit/upgrade/remove_rule_suffix.py:FixitRemoveRuleSuffix", "src/fixit/upgrade/deprecated_testcase_keywords.py:FixitDeprecatedTestCaseKeywords", "src/fixit/engine.py:LintRunner.collect_violations", "src/fixit/api.py:fixit_file"]}
{"id": "C93", "title": "Options for rules have no effect", "statement": "The options tables of configuration files ([tool.fixit.options], and those of overrides), when they map rule names to tables of strings, numbers and booleans, change nothing: every configuration is the one, or every error the error, that empty tables would give, up to the options it carries, and every run of fixit_file, fixit lint (in one process or several) and fixit fix, with whatever answers, failures and file systems on the way, is a run with those tables emptied, and conversely: same results, output, files written and exit status. So the guide's claim that they set options for individual rules is not met. An options table of an override written as the guide shows ([[tool.fixit.overrides.options]]) makes the configuration refused for every file, wherever the override applies.", "quantifier": "every configuration, file, file system, set of rules, command line, schedule of answers and failures", "why_tests_cant": "a test can show that one option has no effect on one file; that no option of any rule has any effect on any run is a statement about all pairs of runs", "anchors": ["src/fixit/config.py:get_options", "src/fixit/config.py:merge_configs", "src/fixit/config.py:generate_config", "src/fixit/config.py:collect_rules", "src/fixit/api.py:fixit_file", "src/fixit/cli.py:lint", "src/fixit/cli.py:fix", "docs/guide/configuration.rst"]}
{"id": "C94", "title": "The layout of code in test cases", "statement": "The code of VALID and INVALID cases of a rule, and the code expected after fixing, may start with a newline and be indented as a whole: textwrap.dedent empties lines of blanks and takes the longest common indentation (tabs and spaces are different) off all other lines, so a case and the same case laid out in another way have the same test, with the same outcome. The code stays as written exactly if no line consists of blanks and not all other lines are indented; dedenting twice is dedenting once. Refuted: that code which begins in the first column is tested as it is written (blanks in a string of several lines are lost). What the fixes give is not dedented, so when it has a line of blanks or all of it is indented, no expected replacement lets the test pass.", "quantifier": "every text, indentation, rule, test case, expected replacement", "why_tests_cant": "all texts and indentations, tabs and spaces mixed, and all rules", "anchors": ["src/fixit/testing.py:_dedent", "src/fixit/testing.py:LintRuleTestCase._test_method", "src/fixit/ftypes.py:Invalid", "src/fixit/ftypes.py:Valid"]}
{"id": "C95", "title": "Output formats and templates", "statement": "With output-format custom each violation is printed as the output-template says: other characters as they are, doubled braces as a brace, and {message}, {path}, {rule_name}, {start_col}, {start_line} replaced by their texts, which are never read as templates themselves. The two built-in formats are templates: a command with -o custom and such a template does and prints exactly what it does with the built-in format. Format and template change nothing but the lines: the same results, fixes and files. A lone brace, an empty or numbered field or an unknown name is refused with ValueError, IndexError or KeyError, at the first violation: lint then breaks off with neither the remaining results nor a summary, and fix never writes any file. Refuted: that a configuration which is accepted has a template that can be used.", "quantifier": "every template, message, path, rule, position, command, sequence of results, place where the command stops", "why_tests_cant": "all templates and all texts put into them, and all runs of the commands", "anchors": ["src/fixit/api.py:print_result", "src/fixit/config.py:generate_config", "src/fixit/config.py:merge_configs", "src/fixit/cli.py:lint", "src/fixit/cli.py:fix", "src/fixit/ftypes.py:OutputFormat", "docs/guide/configuration.rst"]}
{"id": "C96", "title": "Which rules run, from what the configuration files say", "statement": "For rules called by absolute names: a rule runs iff the tags and the target version allow it, and either the last entry with some text module:Rule that stands for it is in an enable list, or the last entry with some text module that stands for it is in an enable list and there is no text that stands for it whose last entry is in a disable list (entries counted from the furthest file to the nearest, enable before disable, overrides after their table, fixit.rules enabled at first). So a rule enabled by its name runs whatever else is disabled, and one that is always called by the same text runs iff the last entry enables it. Without entries the rules of fixit.rules run; with --rules exactly those its entries stand for; with fixit upgrade exactly those of fixit.upgrade. Refuted: the documented claims that enable overrides all that files further up disable, and that disable overrides all that the same file and those further up enable.", "quantifier": "every set of configuration files and overrides, command line, set of modules and rules, state of the interpreter", "why_tests_cant": "all hierarchies of configuration files and all ways in which a rule can be called in them", "anchors": ["src/fixit/config.py:merge_configs", "src/fixit/config.py:collect_rules", "src/fixit/config.py:find_rules", "src/fixit/config.py:generate_config", "src/fixit/cli.py:main", "src/fixit/cli.py:upgrade", "docs/guide/configuration.rst"]}
{"id": "C97", "title": "Silencing a report with a comment", "statement": "A comment '# lint-ignore: A, B remark' or '# lint-fixme: A, B remark' silences exactly the rules it lists, one without a list silences every rule, and the two words have the same effect whatever follows. Putting such a comment above the innermost statement around the code, at the end of one of its lines, or at the top of the file when it is the first statement, adds what the comment silences to what was silenced there and changes nothing for code in other statements; for any code there is such a place. When a file is linted again after comments were put into it and the rules say the same as before, the user gets the same violations in the same order except those of the silenced rules on the code next to a comment; so there are none left iff each was silenced by one of the comments.", "quantifier": "every comment of the documented form, rule name, place in a tree, pair of versions of a file, rules and configuration", "why_tests_cant": "all comments and places where one can be put, all rules and files", "anchors": ["src/fixit/rule.py:LintRule.node_comments", "src/fixit/rule.py:LintRule.ignore_lint", "src/fixit/rule.py:LintRule.report", "src/fixit/ftypes.py:LintIgnoreRegex", "docs/guide/quickstart.rst"]}
{"id": "C98", "title": "Where the language server listens", "statement": "fixit lsp opens only channels that the command line asks for (the last value of each option; standard input and output unless --stdio says no), one at a time in the order web socket, TCP, standard input and output, each after the server on the one before has ended; without options only standard input and output. Port 0 is treated as no port. Refuted: that only the channel named is used (after the server on a port has ended, the same command serves standard input and output) and that two ports can be served together.", "quantifier": "every command line of fixit lsp, every way the servers end", "why_tests_cant": "all combinations of options and all points at which a server ends or raises", "anchors": ["src/fixit/cli.py:lsp", "src/fixit/lsp.py:LSP.start", "src/fixit/ftypes.py:LSPOptions", "docs/guide/commands.rst"]}
{"id": "C99", "title": "A text on standard input instead of the file", "statement": "Linting or fixing a file, and doing the same with its text on standard input under its name, give the same results, questions, looks and metrics; what is printed with autofix is what the file holds after the other (if the configuration can be read). fixit lint - p prints and returns exactly what fixit lint p does; fixit fix --automatic - p says the same lines, returns the same, stores nothing and prints the text that fixit fix --automatic p leaves in the file.", "quantifier": "every file and text, configuration, set of rules, option, answer and file system", "why_tests_cant": "two programs are compared on all of their executions", "anchors": ["src/fixit/api.py:fixit_stdin", "src/fixit/api.py:fixit_file", "src/fixit/cli.py:lint", "src/fixit/cli.py:fix"]}
{"id": "C100", "title": "Linting several paths at once", "statement": "While nobody changes a file, fixit lint with several paths prints what fixit lint prints for each of them, in the order of the paths and with one summary at the end, and its exit code has the bits of all their exit codes; the order of the paths decides about the order of the lines only; linting again prints and returns the same; several paths together lint successfully exactly if each of them does.", "quantifier": "every list of paths, file system, configuration, set of rules and options", "why_tests_cant": "all lists of paths and all outputs", "anchors": ["src/fixit/cli.py:lint", "src/fixit/api.py:fixit_paths", "src/fixit/api.py:fixit_file"]}
{"id": "C101", "title": "Fixing several paths at once", "statement": "While only the command changes files and no write fails, fixit fix --automatic with several paths prints what fixing them one after another with separate commands prints (in this order, with one summary at the end) and leaves the same files, unless a file that is fixed is a configuration file.", "quantifier": "every list of paths, file system, configuration, set of rules and options", "why_tests_cant": "all lists of paths and contents; the files found at the start are fixed later, when others have changed", "anchors": ["src/fixit/cli.py:fix", "src/fixit/api.py:fixit_paths", "src/fixit/api.py:fixit_file"]}
{"id": "C102", "title": "Options that only add lines", "statement": "fixit lint and fixit fix with --diff or --print-metrics do exactly what they do without: they look at, write, read, ask, raise and return the same, and print the same lines with more lines in between. fixit fix shows all diffs anyway when it is interactive: --diff has no effect at all.", "quantifier": "every command line, file system and its changes, configuration, set of rules, answers, state of the interpreter", "why_tests_cant": "two programs are compared on all of their executions", "anchors": ["src/fixit/cli.py:lint", "src/fixit/cli.py:fix", "src/fixit/api.py:print_result", "src/fixit/engine.py:LintRunner.collect_violations"]}
{"id": "C103", "title": "Answering yes to every question", "statement": "fixit fix with --interactive, answered yes at every question, leaves exactly the files that fixit fix --automatic leaves and prints exactly what fixit fix --automatic --diff prints, summary and exit status included - if the files are formatted already, and so if no formatter is configured. With a formatter the two differ: --automatic reformats a file none of whose violations has a fix.", "quantifier": "every list of paths, disk, configuration, set of rules, options, file contents; every execution that returns 0", "why_tests_cant": "two programs are compared on all of their executions, with any number of files, violations and questions", "anchors": ["src/fixit/cli.py:fix", "src/fixit/api.py:fixit_bytes", "src/fixit/api.py:fixit_file", "src/fixit/api.py:fixit_paths", "src/fixit/engine.py:LintRunner.apply_replacements"]}
{"id": "C104", "title": "A directory and the files in it", "statement": "Linting or fixing directories (and files) is linting or fixing the files that are found in them, given one by one in the order in which they are found: the same files are looked at and written, the same questions asked, the same lines printed and the same status returned, with a process pool or without. A - that is not the first path changes nothing. If nothing is found, lint says so and returns 0; it does not fall back to the current directory.", "quantifier": "every list of paths, directory tree, order in which files are found, file system and its changes, options, answers; every execution", "why_tests_cant": "two programs are compared on all of their executions", "anchors": ["src/fixit/api.py:fixit_paths", "src/fixit/cli.py:lint", "src/fixit/cli.py:fix"]}
{"id": "C105", "title": "Answering no to every question", "statement": "fixit fix with --interactive, answered no at every question, does - the questions apart - exactly what fixit lint --diff does: the same events in the same order, the same lines printed (summary included), and so no file is written; it returns 0 where lint returns, and raises what lint raises. Every execution of fixit lint --diff is one of these.", "quantifier": "every list of paths that does not begin with -, every file system and its changes, configuration, set of rules, options; every execution, ended or not", "why_tests_cant": "two programs are compared on all of their executions, with any number of files, violations and questions", "anchors": ["src/fixit/cli.py:fix", "src/fixit/cli.py:lint", "src/fixit/api.py:fixit_paths", "src/fixit/api.py:fixit_bytes"]}
{"id": "C106", "title": "Which answers matter to the library", "statement": "To callers of the library who answer results through a generator: with autofix=True answers have no effect at all, and without it only True counts - not answering and answering False are the same. Whatever is answered instead, the results, the files looked at and written and the outcome can be the same.", "quantifier": "every text, file, standard input and list of paths, every tool configuration, file system and its changes, every sequence of answers and of their replacements; every history, ended or not", "why_tests_cant": "all histories are compared that differ in any number of answers", "anchors": ["src/fixit/api.py:fixit_bytes", "src/fixit/api.py:fixit_file", "src/fixit/api.py:fixit_stdin", "src/fixit/api.py:fixit_paths"]}
{"id": "C107", "title": "Fixing several paths with questions", "statement": "fixit fix path1 path2 ... asking its questions is fixit fix path1, then fixit fix path2, ..., until one of them is told to quit, given the same answers in the same order: the same questions are asked, the same lines printed apart from the summaries, and the same files left - as long as no write fails and none of the files is a config file.", "quantifier": "every list of paths, sequence of answers, tool and rule configuration, options, file system that only the command changes", "why_tests_cant": "all histories of one command are compared with all histories of the sequence of commands", "anchors": ["src/fixit/cli.py:fix", "src/fixit/api.py:fixit_paths", "src/fixit/api.py:fixit_file"]}
{"id": "C108", "title": "fixit debug for several paths", "statement": "Within one project fixit debug path1 path2 ... shows exactly what fixit debug path1, then fixit debug path2, ... show, each in a fresh process: modules imported for one path do not change what is shown for the next, and sys.path is what it was. What is shown for a path after others are the configuration and the rules that linting uses for that path after the other files. Across projects the first claim is refuted: a module of the same name in a project shown before is taken for that of the project.", "quantifier": "every list of paths, configuration files, set of importable modules, interpreter state and options; for the comparison with linting every execution of it without errors", "why_tests_cant": "all sequences of paths and interpreter states are compared, by induction over the paths", "anchors": ["src/fixit/cli.py:debug", "src/fixit/config.py:collect_rules", "src/fixit/config.py:find_rules", "src/fixit/config.py:generate_config"]}
{"id": "C109", "title": "The summary of several paths adds up", "statement": "When fixit lint path1 path2 ... ends normally and no file is found in two of the paths, the numbers in its summary line (files checked, files with errors, auto-fixes available) are the sums of those in the summary lines of fixit lint path1, fixit lint path2, ... run separately on the same files; also where the line is the short one, which only says how many files are clean.", "quantifier": "every list of paths, tree of files, configuration, set of rules, metrics and diff setting, and every normal execution of each of the commands", "why_tests_cant": "the counts are of sets of paths and lists of results of unbounded size, over all lists of paths and all executions", "anchors": ["src/fixit/cli.py:lint", "src/fixit/cli.py:splash", "src/fixit/api.py:fixit_paths"]}
{"id": "C110", "title": "The summary of fixing several paths adds up", "statement": "When no file is found in two of the paths and none of the files is a configuration file, fixit fix --automatic path1 path2 ... succeeds exactly when fixing path1, then path2, ... succeeds, with the same files in the end; its summary has as files checked, files with errors, auto-fixes available and fixes applied the sums of those of the separate commands, and in each as many fixes are applied as are available.", "quantifier": "every list of paths, tree of files, configuration, set of rules, metrics and diff setting, and every successful execution", "why_tests_cant": "sums over sets and lists of unbounded size, for all lists of paths, files changing between the commands", "anchors": ["src/fixit/cli.py:fix", "src/fixit/cli.py:splash", "src/fixit/api.py:fixit_paths", "src/fixit/api.py:fixit_file"]}
{"id": "C111", "title": "The order of the paths does not matter to lint", "statement": "fixit lint with the same paths in another order prints the same lines in another order, then the same summary, and has the same exit status; also when files are found in several of the paths.", "quantifier": "every list of paths and permutation of it, tree of files, configuration, set of rules, metrics and diff setting, and every normal execution", "why_tests_cant": "all permutations of lists of unbounded length, and all executions", "anchors": ["src/fixit/cli.py:lint", "src/fixit/cli.py:splash", "src/fixit/api.py:fixit_paths"]}
{"id": "C112", "title": "The order of the paths does not matter to fix", "statement": "fixit fix --automatic with the same paths in another order prints the same lines in another order, then the same summary, and leaves every file with the same contents, when no file is found in two of the paths, none of the files is a configuration file, and neither rules nor formatters look into the files of each other.", "quantifier": "every list of paths and permutation of it, tree of files, configuration, set of rules, metrics and diff setting, and every successful execution", "why_tests_cant": "all permutations of lists of unbounded length, with the disk changing after each file", "anchors": ["src/fixit/cli.py:fix", "src/fixit/api.py:fixit_paths", "src/fixit/api.py:fixit_file", "src/fixit/api.py:fixit_bytes"]}
{"id": "C113", "title": "Naming files again", "statement": "When all the files of further paths are already among those of the first paths (a path named twice, a directory and a file in it), fixit lint path... further... prints, before the summary, what fixit lint path... prints and then again lines of it; the summary has the same numbers of files checked and of files with errors, at least as many auto-fixes, and the exit status is the same.", "quantifier": "every list of paths and of further paths, tree of files, configuration, set of rules, metrics and diff setting, and every normal execution", "why_tests_cant": "all lists of paths and all ways in which they overlap, and all executions", "anchors": ["src/fixit/cli.py:lint", "src/fixit/cli.py:splash", "src/fixit/api.py:fixit_paths"]}
