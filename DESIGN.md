# Formal model of Instagram/Fixit in Rocq (Coq 8.16.1)

The model is a set of total Gallina functions transcribed function by function from
`/repo/src/fixit`. Python exceptions are values (`res`), state is explicit, outside
libraries are either modelled (regular expressions, libcst's visit/replace, path
arithmetic, generators) or are parameters that every theorem quantifies over
(TOML parsing, PEP 440 versions, imports, formatters, rule visitors, the process pool's scheduler,
threads and timers, terminal input).

Build: `cd rocq && coq_makefile -f _CoqProject -o Makefile && make -j4` (about 4 minutes).

## Files (rocq/theories)

| file | models | of |
|---|---|---|
| Base, PyStr | exceptions, dicts, sets, `sorted`, str methods | Python |
| Regex | backtracking `re` engine, `match`/`search` | Python `re` |
| Ftypes | QualifiedRule, Tags, the two regexes, CodePosition/Range | ftypes.py |
| Paths | absolute paths, parent, relative_to, `/`, resolve | pathlib |
| Config | locate/read/get_sequence/get_options/parse_rule/merge/generate/validate | config.py |
| Collect | find_rules, walk_module, local loader, collect_rules, sys.path, sys.modules | config.py, util.py |
| Suppress | node_comments, ignore_lint, report | rule.py |
| Cst, Engine | trees, visit, deep_replace, collect_violations, apply_replacements | engine.py, libcst |
| Api | generators, fixit_bytes/stdin/file/paths, file system effects, crash points | api.py |
| Capture | the `capture` wrapper | util.py |
| Pool | several files in a process pool, schedules | api.py (trailrunner) |
| Cli | lint, fix, upgrade, test, validate-config, splash, print_result, options | cli.py, api.py |
| Lsp | debouncer, caches, diagnostics, format edit, threads and timers | lsp.py |
| Testing | test generation, the pass criterion, `__init_subclass__` | testing.py, rule.py |
| Py | a small Python expression language with effects, exceptions and generators | Python |
| Rules | lint rules on expressions (C52–C61) | rules/*.py |
| Format | formatters | format.py |
| Classes, Trees, Imports, Scopes | lint rules on class statements, on nested functions/classes/annotations, on imports, on scopes and comments (C63–C68, C70, C71) | rules/*.py, rules/extra/*.py |
| Upgrade | the upgrade rules | upgrade/*.py |
| Batch | many rules in one traversal, durations | engine.py, rule.py, libcst |
| Debug | `fixit debug` | cli.py |
| Whole | automatic fixing of whole expression trees with many rules, again and again | engine.py, rules/*.py |
| System | Config, Collect, Suppress, Batch, Engine and Api composed: `tool_of` fills the open places of Api.v's `tool` with the models of collect_rules, of the traversal and of report; rules are arbitrary code that calls report | api.py, engine.py, config.py, rule.py |
| Session | what a process keeps from one linted file to the next: sys.path, which modules are in sys.modules and with which search path they were found, how many times local modules were imported | config.py `collect_rules`, `find_rules`, util.py `append_sys_path`, api.py `fixit_paths` (one job) |
| Commands | `lint` and `fix` over the whole of fixit: Cli.v's commands with Session.v's files | cli.py 122-244, api.py `fixit_paths` (one job) |
| EditorSpec, EditorProps | no new model: Lsp's server with System's `tool_of` as its tool | lsp.py, api.py |
| Threads, ThreadsProps | collect_rules as a sequence of steps (test sys.path, append, import one rule, ..., select, remove), several requests interleaved by an arbitrary schedule; find_rules is one step | config.py 202-272, util.py 73-91 |
| Local, LocalSpec, LocalProps | local_rule_loader and walk_module as steps on the shared package fixit.local: import it, set its path, look a module up, load it, bind it, list sys.modules, purge; importlib's `_find_and_load` (from CPython) is modelled at this granularity, executing a module takes one step and imports nothing local | config.py 87-124, 139-142, 177-199 |
| Jobs, JobsSpec, JobsProps | fixit_paths with a process pool and `fixit lint` on top: what the pool hands on is a parameter, constrained to be the results of files shared among processes (each a Session starting as a copy of the main process); not modelled: trailrunner, pickling, killed workers, metrics printed by workers | api.py 222-235, 276-310; cli.py 122-165 |
| FixSpec, FixProps | what the user decides in `fixit fix`, over whole_fix of Commands; fixing standard input end to end | api.py 97-219, 276-301; cli.py 168-244 |
| DiskSpec, DiskProps | executions of Commands during which only the program changes files | api.py 186-219, 276-301; cli.py 122-244 |
| ProgramSpec, ProgramFacts, ProgramProps, ProgramExamples | Commands on files whose syntax trees lay out the expressions of Py | engine.py 57-143; api.py 97-219; cli.py 168-244; rules/*.py (by way of Rules and Whole) |
| Visitors, VisitorsSpec, VisitorsFacts, VisitorsProps, VisitorsExamples | The classes around the rules of Rules: their visit methods and what they remember, as code for the engine of System | rules/*.py visit_ methods; chained_instance_check.py 96-138; use_fstring.py 147-228 |
| WholeRuns, MeaningProps, MeaningExamples | (no new code: the meaning of programs through runs and commands) | |
| TestRun, TestRunSpec, TestRunProps, TestRunExamples | cli.py 281-302, testing.py 67-114 with engine.py 57-98 | rules see the module, not the file's name |
| Statements, StatementsSpec, StatementsFacts, StatementsProps, StatementsExamples | the visit_ and leave_ methods of the 15 rule classes of C91 (rules/, rules/extra/, upgrade/) as the engine calls them | the tree and the metadata are any functions of the node's identity; UseAsyncSleep passes self.MESSAGE, which is the default |
| Shared, SharedSpec, SharedProps, SharedExamples | upgrade/deprecated_import.py 90-131, remove_rule_suffix.py 54-63, deprecated_testcase_keywords.py 75-108 in one traversal, engine.py 81-98 with metadata that rules change | the sets of names per node are given, in the order in which pop takes them; KeywordsRule's visit_Module is left out |
| OptionsSpec, OptionsProps | no further code: Config, Api, Commands and Jobs with options tables emptied | - |
| Dedent, DedentProps, Conformance4 | testing.py 18-20, textwrap.dedent of Python 3.8-3.13 | the regular expressions of textwrap are written as functions on lines; Conformance4 is generated by tools/dedent.py from the Python in the sandbox |
| Template, TemplateProps, TemplateRuns, Conformance5 | api.py 66-73 with str.format of CPython (unicode_format.h) | attributes, items, repr, ascii and format specs are arbitrary; Conformance5 is generated by tools/template.py from the Python in the sandbox |
| SelectSpec, SelectProps | config.py 202-272, 402-594 and cli.py main and upgrade together: no new model, C96 | modules by absolute names |
| SilenceSpec, SilenceProps | rule.py 119-265 with api.py and engine.py: no new model, C97 | |
| Serve, ServeProps | cli.py 247-278, lsp.py 142-151 | the servers of pygls are opaque calls; what click refuses (no number for a port) is not modelled |
| InputProps | api.py 153-219, cli.py 122-244 (through Api, Cli) | none of its own |
| SeveralProps | cli.py 122-165, api.py 238-310 (through Api, Cli) | none of its own |
| SeveralFix | cli.py 168-244, api.py 186-310 (through Api, Cli) | none of its own |
| VerboseProps | cli.py 122-244, api.py 34-310, engine.py 57-118 (through Cli, Api, Commands) | none of its own |
| ConsentProps | cli.py 168-244, api.py 97-310, engine.py 120-143 (through Cli, Api, Engine) | all_yes, formatted_already |
| PathArgProps | api.py 238-310, cli.py 122-244 (through Api, Cli, Jobs) | stand_for, throughout |
| RefusalProps | cli.py 122-244 (through Cli, Api) | quiet, ends_like, all_no |
| HeedProps | api.py 97-310 (through Api, Session, Commands) | same_but, any_answers, as_much_a_yes, heeds_only |
| AskProps | cli.py 168-244, api.py 186-310 (through Cli, Api) | leaves_told, told_in_turn |
| DebugSession | cli.py 320-350 with the interpreter state of Session (debug_session) | one_project, debug_shows |
| SummaryProps | nothing new (cli.py 24-53 and 126-163 through Cli) | last_says, counts, tells_counts |
| FixSummary | nothing new (cli.py 24-53 and 179-247 through Cli) | finishes, summaries, tells_fixes |
| PathOrder | nothing new (cli.py 24-53 and 126-163 through Cli) | outputs |
| FixOrder | nothing new (api.py 97-150, 186-219, cli.py 179-247 through Api and Cli) | succeeds, blind, same_files |
| AgainProps | nothing new (cli.py 24-53 and 126-163 through Cli) | outputs (PathOrder), counts (SummaryProps) |
| Conformance, Conformance2, Conformance3 | no model: the repository's own test data, generated by tools/conformance.py | rules/*.py, upgrade/*.py, tests/*.py |

PyFacts and PyStrFacts have no model of fixit: they state what Py.v's `eval` and PyStr.v's functions
compute, so that these can be compared with Python's documentation.

Each model file `X.v` has lemmas in `XFacts.v` and the theorems named in MANIFEST.json in
`XProps.v` (`X*Props.v`); specifications live in `XSpec.v` (or in the Props file, directly before
the theorem) and do not use the model's helper functions. Theorem `Cnn_name` belongs to property
`Cnn` of properties.jsonl; `Cnn_…_refuted` exhibits a concrete run of the model (by computation) in
which a natural stronger claim is false: those are findings about the code. `Cnn_…_partial` is a
part of the property; what is missing is in MANIFEST.json.

## Trusted base

* **Coq's kernel** (8.16.1), including `vm_compute`, and the OCaml it runs on.
* **Axioms.** `Print Assumptions` prints *Closed under the global context* for every theorem listed
  in MANIFEST.json except the following, for which it lists
  `Coq.Logic.FunctionalExtensionality.functional_extensionality_dep` (standard library) only:
  `C59_lambda`, `C61_tuple`, `C61_single`, `C76_meaning`, `C76_safe`, `C76_run`,
  `C76_runs`, `C89_meaning`, `C89_seven`.
  (In those proofs the denotation of an expression is a function of the interpreter state, and two
  denotations are compared as functions.) `coqchk -o` additionally lists axioms of library files
  that are loaded but not used (`Coq.ssr.ssrunder`).
* **Our reading of the source.** Nothing is extracted or run: every definition cites the lines it
  models and any simplification is stated in its comment. As evidence (not proof) that the models
  are the code's, tools/conformance.py parses, with Python's `ast`, the 358 VALID/INVALID cases of
  the 30 rules in /repo and the tables of 126 cases in tests/ftypes.py, tests/config.py and
  tests/rule.py, writes them as terms of the model, and the Conformance files check by computation that
  every model agrees with every case, including the expected replacements. Their translation of
  source text (and of the comments LibCST gives to nodes, for the shapes in tests/rule.py) is part of
  this evidence only: no theorem depends on these files.
* **Modelled outside libraries** (trusted to be as described, since they are not in /repo):
  Python's `re` (backtracking semantics, the subset used), `str` methods (with the case mapping of
  non-ASCII letters as a parameter where it matters), `dict`/`set`/`sorted`, `pathlib` on absolute
  paths without symbolic links, generators (`send`, `StopIteration`; no `throw`), LibCST's tree
  traversal, `deep_replace`/`RemovalSentinel`/`FlattenSentinel` (Cst.v) and its check of string
  prefixes, `f`-string and `%`-format semantics (Py.v), `trailrunner` and the process pool as
  "any interleaving" (Pool.v), pygls' main thread and `threading.Timer` as a transition system
  (Lsp.v), `unittest` test discovery by name (Testing.v).
* **Oracles**: everything else is a field of a record over which the theorems quantify, so that no
  behaviour is assumed of it: `env` (TOML parser, version parser, formatters), `world` (imports and
  module contents), `tool` (parser, rule visitors, formatter), `machine`, `cli`, `server`, `lab`,
  `py` (names, calls, attributes, operators as arbitrary state transformers that may raise).

## What is not modelled

* Exceptions that are not `Exception` subclasses (KeyboardInterrupt, SystemExit raised by a rule);
  a rule or formatter that keeps state between runs inside one process (except where `machine`
  says so); symbolic links, permissions, concurrent edits by other programs except as
  explicit events (Lsp) or crash points (Api); printing that fails (closed pipe); colours
  and the exact bytes of a diff; the layout of what `fixit debug` prints; logging; the
  `--debug` flag; `textwrap.dedent` (an opaque function in Testing and TestRun, modelled in Dedent); the spawning of worker processes.
* The Python language of Py.v has expressions only: finite iterators, no whitespace or parentheses
  (LibCST keeps them; the rules copy them), `{**d}`, `await`, `yield`, `:=` are `Other`
  expressions with arbitrary meaning, closures are opaque values, set and dict displays hash after
  evaluating.
* All lint rules of `fixit.rules`, `fixit.rules.extra` and `fixit.upgrade` are modelled, each on the part of
  the syntax its file header describes; the matchers and metadata providers of LibCST they call are
  oracles (qualified names, scopes, positions).

## Properties: what is modelled and how it is proved

| id | model | specification and proof |
|---|---|---|
| C01, C02 | Config `locate_configs`, `read_configs` over an arbitrary file system predicate | list of candidate files written by directory depth; induction over the ancestors / the file list |
| C03 | `generate_config` end to end | two worlds that agree up to the first root config give equal results; induction |
| C04–C08 | `merge_configs` | ConfigSpec: "layers" (tables and applicable overrides, furthest first), last mention in a flat list of mentions; induction over the config list with the sets generalised. C06: permutation invariance of `sorted` |
| C09 | same, `QualifiedRule` equality without the root | invariant "the root of an enabled local rule is that of an enabling mention"; the claim about the nearest config is refuted |
| C10, C12 | `merge_configs` with every type check | acceptance is equivalent to a declarative `valid` predicate; which exception is raised: the first fault of a flat list of conditions (ConfigErrors); `Path.resolve` normalises `..` |
| C11 | `generate_config` with options | field by field; `--config-file` by independence of all other files |
| C13 | Regex on QualifiedRuleRegex | equivalence with an inductive grammar; the engine's backtracking is characterised by lemmas on `\w+(\.\w+)*` |
| C14–C16, C19 | Collect `collect_rules` over a world with module table and `sys.path` | found rules as relation; the fold's state is characterised by sets; failing entries are no-ops |
| C17 | import of local modules creates fresh classes | proved for modules that stay in `sys.modules`, refuted for local ones |
| C18, C20 | `find_rules`, `walk_module`, the local loader | equations over the sorted member list; invariant on `sys.modules` |
| C21 | Tags | membership and canonical form |
| C22 | Regex on the directive pattern | scanner-free specification: first position where a directive text occurs |
| C23, C24 | Suppress over ancestor chains | list of comments in scope defined by structure; C24 history induction over `report` calls |
| C25–C28 | Engine over Cst trees | text-level specification of edits (`EngineSpec`): the source is a concatenation in which exactly the outermost accepted nodes change; induction over trees |
| C29–C32, C34 | Api generators as interaction trees, any caller behaviour | runs of a caller against the generator, induction; file effects are a trace |
| C33 | Capture state machine | answers indexed by result; every event list |
| C35, C36, C47, C49, C51 | Cli loops over result lists of arbitrary `fixit_paths` | fold invariants; C51: equality with `fix` under a fixed config |
| C37 | Pool: small-step interleavings of per-file processes | any complete schedule gives the sequential result (commutation under the stated independence), and progress |
| C38 | prefixes of the effect trace | every prefix of every run |
| C39–C42, C44 | Lsp: transition system with arbitrary event lists (changes, timer expiries, thread steps, config changes) | invariants over reachable states; projection per document (C40) |
| C43 | the edit's range against the document text | where the edit ends in UTF-16 columns; exactness refuted |
| C45, C46 | Testing | method names, pass criterion as an iff; class hierarchy induction |
| C48, C50 | `validate_config`, `--rules` | message list as a `flat_map`; sorted distinct entries; C48_any (ValidateProps) for every readable file, also with parts of wrong types |
| C52–C61 | Rules over Py (C61's quotes: QuoteProps) | for every machine `py`: the replacement's denotation equals the original's (`same_meaning`) or has the same truth value (`condition`), under hypotheses that are discharged for a toy machine in PyToy; syntactic claims (only these operators change, not reported again) by induction over expressions |
| C62 | Format: `format_module` and the formatters on top of C30 | the bytes written are the formatter's result for the fixed module; the chosen formatter by name; errors |
| C63 | Classes `no_object` | relational specification of Python's class creation with the C3 method resolution order (ClassesSpec); removing `object` keeps it; the case of a failing linearisation |
| C64 | Classes `sorted_attributes` | the new body as a permutation with the other lines kept in order; meaning by a small-step reading of class bodies whose assignments commute |
| C65, C66 | Trees: visitors with state over trees of functions, classes, annotations | the set of reported nodes is characterised by the enclosing nodes (TreesFacts `select`), for every tree, so that the state machine is shown equal to a context condition |
| C67 | Classes `no_named_tuple`, `frozen_decorator` | what of the class statement is kept, in order; result not reported again; differences in behaviour as refuted claims |
| C68 | Imports | names bound by an import statement before and after, as relations |
| C69 | Upgrade: the rules of `fixit upgrade` | renamed references resolve to the new names; shared metadata sets that a rule empties are state of the model |
| C70 | Scopes: functions, blocks, nonlocal/global | what every name refers to (resolution through scopes) before and after renaming, by induction over scopes; C71: two syntactic rules |
| C72, C73 | Batch: LibCST's batched visit with any rules | each rule's state is that of a run alone; durations as sums over the list of calls |
| C74 | Debug: `fixit debug` | from C14 and C15 |
| C75 | Rules over Py, against ReportsSpec | ReportsSpec gives the documented form and replacement of each rule as inductive relations without the model's helpers; equivalence by case analysis and induction over expressions |
| C76 | Whole: the engine on expression trees (a module is a tree whose other nodes are `Other`), all expression rules | a weight that every fix makes smaller (10 per node, plus 1 for list comprehensions, f-strings, method names to be renamed, plus up to 2 per comparison operator), so that runs end; congruence of `eval` over whole trees for the meaning; refutations by computation and induction. Not in the model: that the code of a replaced tree parses to that tree (parentheses), and that qualified names stay the same from run to run |
| C77 | Lsp: the main thread, jobs as finite trees of actions | invariant: the thread the main thread is busy with exists and is not over; a static bound on the actions of a job; case analysis of complete executions of a formatting job; construction of a continuation for the last change |
| C78 | System | exactness and soundness by composing C14, C23, C24, C25, C29, C31, C72; independence by a simulation between instances with and without the silenced calls and a congruence on generators (`alike`) |
| C79 | Session | the process state that survives a file (sys.path, sys.modules as the search path each module was first imported with, the generation counter of local modules); invariant over the session; a bijection between the classes of a fresh process and of an old one; C78 for what is delivered, C14_raises for failing; the two ways the provisos can fail are refutations by computation |
| C80 | Commands | composition of C45-C50's simulation of the commands (lint_sim, fix_sim), C34, C79's session and C78/C31_done per file; the exit status is an iff |
| C81 | Lsp with `z_tool := tool_of Y` | C42, C43, C77 (histories) composed with C78's exactness and C31_done; a run of fixit_file with the same looks gives the same violations and writes |
| C82 | Threads | invariant over schedules: sys.path is a permutation of what requests hold after the old entries; simulation of each request against collect_rules; termination measure; counterexample for two requests with the same directory |
| C83 | Local | invariant over schedules (where modules come from, who will remove a key), termination measure, simulation of an uninterrupted request against a direct definition; two counterexamples |
| C84 | Jobs | exit status from the results (as C80); two ways to share the files: every file compared with linting it alone (C79), by induction along the files of a process; permutations |
| C85 | Commands | fix_loop simulates the generator with the answers (fix_sim, and fix_quit for the interrupted run); per file C78 and C31; standard input via the run of fixit_bytes |
| C86 | Commands | `leads`: each look finds what was written so far; fixit_file looks before it writes and writes only its file, so each file's turn sees one disk; then C78, C85 per file, and induction over the files with the interpreter states kept equal |
| C87 | Commands, Whole | a tree is `laid` out as a program; Cst.visit with the replacements of the rules is Whole.pass on the program (induction over trees); with C86 per file; the weight of C76 falls with each command that leaves something to fix |
| C88 | Visitors, System | the calls of the batched visitor, filtered by method names, are the expressions of the tree in preorder; a stateless class is a map over them; for CollapseIsinstanceChecks an invariant on the nodes seen (all chains so far, closed under left operands, nothing else) |
| C89 | Whole, System | the conditions on the first program are an invariant: what the seven rules replace by what is one small relation, under which, and under rebuilding around it, each node keeps them; then C76_run for each command of C88 |
| C90 | Testing, System | a test that passes fixes what one instance reports on the case's module (C45_success); visiting is deterministic for each rule whatever the others do and whatever the clock, so linting delivers the same reports |
| C91 | Classes, Scopes, Imports, Trees, Upgrade, System | the calls of a class's methods are the entering and leaving of nodes of its types; by induction over the tree they are what C63-C71 say about one node, or what Trees' traversal gives; then C78 |
| C92 | Shared, Upgrade | invariant over the traversal: the set of a node has lost one name if FixitRemoveRuleSuffix is run and a class with this base has been entered, and one if FixitDeprecatedImport has entered it; a class comes before its bases |
| C93 | Config, Api, System, Session, Commands, Jobs | simulation: merge states equal but for options; generators and commands that do the same as long as the file systems looked at have valid options tables |
| C94 | Dedent, Testing | the margin is the greatest common blank prefix (fold with the set of prefixes as invariant); two layouts have margins that differ by the added indentation |
| C95 | Template, Cli, Commands, Jobs | inductive relation between templates and texts; the parser is an automaton whose mode is related to the text read since the last piece; simulation of the commands under two configurations that print the same |
| C96 | Config, Collect, Cli | what an entry stands for is a relation on texts and modules; C05 and C14 composed over the lists of entries; refutations by two concrete files |
| C97 | Suppress, System | comments and edits as relations; C22 and C23 for the scope before and after, C78's exactness for two runs |
| C98 | Serve | the option values as last mention in the command line; traces of channels opened and closed, by induction over the calls |
| C99 | InputProps | two generators are taken apart into a common part and how they end; at command level by a relation between generators that the loops of the commands respect |
| C100 | SeveralProps | the loop of the command as a big-step relation on generators (events and results), which splits along `++` of the files; equivalences |
| C101 | SeveralFix | the same relation for the loop of fix, on a disk that only the command changes (`leads`); what is fixed keeps names and configurations |
| C102 | VerboseProps | a relation between generators (one without calls) and one between commands (one with fewer lines), by induction; both directions |
| C103 | ConsentProps | a relation between two generators on the same disk (one unanswered, one answered yes where there is a fix), by induction on files and events; a counterexample with a formatter |
| C104 | PathArgProps | the same plan for both lists of paths, whatever is looked at; the executions are the same |
| C105 | RefusalProps | a simulation between the loops of the two commands in both directions, by induction on the generator |
| C106 | HeedProps | a predicate on generators (continuations that agree on related answers), closed under their combinators, by induction |
| C107 | AskProps | as C101, over the histories of the loop (isteps: whether it was ended by quit), with the answers |
| C108 | DebugSession | invariant over the paths: sys.path as before, every module loaded from the path that all configurations agree on; the selection is the same up to the numbers of local imports (Session) |
| C109 | SummaryProps | what each path yields alone is what it yields after the others (C100); sets of paths of disjoint lists of results add up |
| C110 | FixSummary | induction over the paths with the disk changing (C101); the numbers of the fix loop are those of the lint loop |
| C111 | PathOrder | induction over the permutation: executions of the files can be exchanged; summary and exit status depend on the set of results only |
| C112 | FixOrder | simulation: the program for a file does on another disk what it does on this one, if they agree on the file; two files can be exchanged; induction over the permutation |
| C113 | AgainProps | the execution for a file is among those already made; sets of paths and exit bits depend on which results there are |

Disagreements between the English property and the code are recorded as `…_refuted` theorems and in
the notes of MANIFEST.json. The mutation experiments are in seeded/LOG.jsonl.
