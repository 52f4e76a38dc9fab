{
 "claims": [
  {
   "property": "C01",
   "status": "proved",
   "theorems": [
    "C01_locate",
    "C01_members"
   ],
   "note": ""
  },
  {
   "property": "C02",
   "status": "proved",
   "theorems": [
    "C02_read",
    "C02_stops",
    "C02_raises"
   ],
   "note": ""
  },
  {
   "property": "C03",
   "status": "proved",
   "theorems": [
    "C03_root_shields"
   ],
   "note": ""
  },
  {
   "property": "C04",
   "status": "proved",
   "theorems": [
    "C04_python_version",
    "C04_formatter",
    "C04_output_format",
    "C04_output_template"
   ],
   "note": ""
  },
  {
   "property": "C05",
   "status": "proved",
   "theorems": [
    "C05_enable",
    "C05_disable",
    "C05_only_names"
   ],
   "note": ""
  },
  {
   "property": "C06",
   "status": "proved",
   "theorems": [
    "C06_disjoint_sorted",
    "C06_deterministic"
   ],
   "note": ""
  },
  {
   "property": "C07",
   "status": "proved",
   "theorems": [
    "C07_layers_defined",
    "C07_only_layers_matter",
    "C07_inert_override"
   ],
   "note": ""
  },
  {
   "property": "C08",
   "status": "proved",
   "theorems": [
    "C08_options"
   ],
   "note": ""
  },
  {
   "property": "C09",
   "status": "partial",
   "theorems": [
    "C09_nearest_refuted",
    "C09_local_root_partial"
   ],
   "note": "Proved: a local rule is bound to the directory of a config that enables it (the first enabling mention since it was last disabled). The stronger claim that it is the nearest such config is refuted by C09_nearest_refuted: when two configs enable the same local name, the furthest one wins, because QualifiedRule equality ignores the root."
  },
  {
   "property": "C10",
   "status": "proved",
   "theorems": [
    "C10_root_import",
    "C10_rejected"
   ],
   "note": ""
  },
  {
   "property": "C11",
   "status": "partial",
   "theorems": [
    "C11_options",
    "C11_config_file",
    "C11_config_file_elsewhere_refuted",
    "C11_config_file_honoured",
    "C11_config_file_settings",
    "C11_config_file_ignored"
   ],
   "note": "Proved: options replace the file settings exactly when given; with --config-file nothing else on the disk matters; the file's settings are honoured when it is in a directory above the linted path (C11_config_file_settings; C11_config_file_honoured spells it out for a file without applying overrides) and ignored as if empty otherwise (C11_config_file_ignored). The unconditional claim that the file is honoured is refuted by C11_config_file_elsewhere_refuted."
  },
  {
   "property": "C12",
   "status": "proved",
   "theorems": [
    "C12_raises",
    "C12_succeeds",
    "C12_kinds",
    "C12_given",
    "C12_accepts_exactly",
    "C12_formatter_registered"
   ],
   "note": ""
  },
  {
   "property": "C13",
   "status": "proved",
   "theorems": [
    "C13_parse_rule_grammar",
    "C13_parse_rule_rejects",
    "C13_parse_rule_str",
    "C13_rule_name_unambiguous",
    "C13_exact_roundtrip_refuted"
   ],
   "note": "str() of a parsed rule with a trailing newline drops it: C13_exact_roundtrip_refuted shows the exception the statement mentions."
  },
  {
   "property": "C14",
   "status": "proved",
   "theorems": [
    "C14_selection",
    "C14_raises"
   ],
   "note": ""
  },
  {
   "property": "C15",
   "status": "proved",
   "theorems": [
    "C15_reasons"
   ],
   "note": ""
  },
  {
   "property": "C16",
   "status": "proved",
   "theorems": [
    "C16_failing_entries"
   ],
   "note": ""
  },
  {
   "property": "C17",
   "status": "partial",
   "theorems": [
    "C17_local_ineffective",
    "C17_twice_refuted",
    "C17_global_partial",
    "C17_local_refuted"
   ],
   "note": "Refuted for local packages: disabling never affects a class that a local import creates (C17_local_ineffective, C17_local_refuted), and a local rule that two entries find runs twice (C17_twice_refuted). Proved for rule classes of modules that stay in sys.modules."
  },
  {
   "property": "C18",
   "status": "proved",
   "theorems": [
    "C18_whole_module",
    "C18_named",
    "C18_import_failure"
   ],
   "note": ""
  },
  {
   "property": "C19",
   "status": "proved",
   "theorems": [
    "C19_restored",
    "C19_leak_refuted"
   ],
   "note": "When collect_rules raises the directory stays on sys.path: C19_leak_refuted shows that the restriction to normal return is needed."
  },
  {
   "property": "C20",
   "status": "partial",
   "theorems": [
    "C20_exact",
    "C20_no_local_left",
    "C20_others_refuted"
   ],
   "note": "Proved exactly which modules stay (C20_exact): those whose name does not begin with the text fixit.local. The clause that no other module is removed is therefore refuted for names such as fixit.localized (C20_others_refuted)."
  },
  {
   "property": "C21",
   "status": "proved",
   "theorems": [
    "C21_contains",
    "C21_contains_other",
    "C21_parse",
    "C21_parse_fails_iff",
    "C21_parse_order",
    "C21_case_sensitive_tags"
   ],
   "note": ""
  },
  {
   "property": "C22",
   "status": "proved",
   "theorems": [
    "C22_directive",
    "C22_no_directive",
    "C22_names_unique",
    "C22_names_total",
    "C22_every_directive_refuted"
   ],
   "note": "Only the first directive of a comment counts: C22_every_directive_refuted shows that a second one in the same comment is ignored."
  },
  {
   "property": "C23",
   "status": "proved",
   "theorems": [
    "C23_scope",
    "C23_ignore_lint",
    "C23_outer_irrelevant"
   ],
   "note": ""
  },
  {
   "property": "C24",
   "status": "proved",
   "theorems": [
    "C24_report",
    "C24_history"
   ],
   "note": ""
  },
  {
   "property": "C25",
   "status": "proved",
   "theorems": [
    "C25_complete",
    "C25_raises",
    "C25_counts_refuted"
   ],
   "note": "C25_counts_refuted: two rules of one name (classes of different modules) overwrite each other's counts, hence the restriction to different names."
  },
  {
   "property": "C26",
   "status": "proved",
   "theorems": [
    "C26_code",
    "C26_code_no_newline",
    "C26_nothing_accepted",
    "C26_edits",
    "C26_whole_module",
    "C26_module_removed",
    "C26_inner_ignored",
    "C26_empty_flatten"
   ],
   "note": "About LibCST as modelled in Cst.v (trusted): parsed trees, in which separators between elements are explicit."
  },
  {
   "property": "C27",
   "status": "proved",
   "theorems": [
    "C27_diff",
    "C27_no_diff"
   ],
   "note": ""
  },
  {
   "property": "C28",
   "status": "proved",
   "theorems": [
    "C28_order_irrelevant",
    "C28_last_wins"
   ],
   "note": ""
  },
  {
   "property": "C29",
   "status": "proved",
   "theorems": [
    "C29_about",
    "C29_some",
    "C29_error_last",
    "C29_never_raises",
    "C29_complete",
    "C29_abandoned"
   ],
   "note": ""
  },
  {
   "property": "C30",
   "status": "proved",
   "theorems": [
    "C30_content",
    "C30_autofix_all",
    "C30_interactive"
   ],
   "note": ""
  },
  {
   "property": "C31",
   "status": "proved",
   "theorems": [
    "C31_done",
    "C31_writes",
    "C31_nothing",
    "C31_lint_only",
    "C31_reformat_refuted",
    "C31_emptied_refuted"
   ],
   "note": "C31_reformat_refuted: accepting (or autofixing) a violation that has no fix also rewrites the file in the formatter's style. C31_emptied_refuted: if the fixes leave an empty file it is not written at all although the fixes are reported."
  },
  {
   "property": "C32",
   "status": "proved",
   "theorems": [
    "C32_always",
    "C32_stdin",
    "C32_config_error_refuted"
   ],
   "note": "C32_config_error_refuted: with a broken configuration nothing is printed, so that an editor piping the text through fixit loses it."
  },
  {
   "property": "C33",
   "status": "proved",
   "theorems": [
    "C33_routing",
    "C33_early_respond",
    "C33_reiterate_refuted"
   ],
   "note": "C33_early_respond: an answer given before the first result makes the generator raise TypeError. C33_reiterate_refuted: iterating again after the end loses the result."
  },
  {
   "property": "C34",
   "status": "proved",
   "theorems": [
    "C34_grouped",
    "C34_order",
    "C34_stdin",
    "C34_files",
    "C34_serial"
   ],
   "note": ""
  },
  {
   "property": "C35",
   "status": "proved",
   "theorems": [
    "C35_exit",
    "C35_readonly",
    "C35_crash_refuted"
   ],
   "note": "For every behaviour of fixit_paths that ends. C35_crash_refuted: an exception of the command itself also gives status 1, with nothing printed."
  },
  {
   "property": "C36",
   "status": "proved",
   "theorems": [
    "C36_answers",
    "C36_applied",
    "C36_quit_refuted",
    "C36_failed_refuted"
   ],
   "note": "C36_quit_refuted: after 'y' and then quit the summary reports one fix applied although nothing is saved. C36_failed_refuted: a failing write does not change the summary either."
  },
  {
   "property": "C37",
   "status": "proved",
   "theorems": [
    "C37_same",
    "C37_progress",
    "C37_config",
    "C37_refuted"
   ],
   "note": "C37_refuted shows that the independence hypothesis is needed."
  },
  {
   "property": "C38",
   "status": "proved",
   "theorems": [
    "C38_crash",
    "C38_truncated_refuted"
   ],
   "note": "C38_truncated_refuted: the file being written can be left empty, as it is written in place."
  },
  {
   "property": "C39",
   "status": "proved",
   "theorems": [
    "C39_start",
    "C39_version",
    "C39_immediate"
   ],
   "note": ""
  },
  {
   "property": "C40",
   "status": "proved",
   "theorems": [
    "C40_main_refuted",
    "C40_projection",
    "C40_no_delay"
   ],
   "note": "For documents that no other URI names. C40_main_refuted: the arrival of a change itself can be delayed by a formatting request for another document, as the main thread serves that."
  },
  {
   "property": "C41",
   "status": "proved",
   "theorems": [
    "C41_computed",
    "C41_failing",
    "C41_once",
    "C41_overlap_refuted",
    "C41_from_files",
    "C41_same",
    "C41_immediate"
   ],
   "note": "C41_overlap_refuted: two overlapping requests can compute two different configurations, hence the restriction; with interval 0 it always holds (C41_immediate). C41_computed, C41_failing: a request that finds none looks at the files of that time; an error ends it and nothing is kept. C41_once: at most one store without overlap."
  },
  {
   "property": "C42",
   "status": "proved",
   "theorems": [
    "C42_published",
    "C42_complete"
   ],
   "note": ""
  },
  {
   "property": "C43",
   "status": "partial",
   "theorems": [
    "C43_refuted",
    "C43_astral_refuted",
    "C43_reply",
    "C43_nothing",
    "C43_applied",
    "C43_exact_partial"
   ],
   "note": "Proved: the text of the edit is the fixed and formatted content (C43_reply), which part of the document the edit replaces (C43_applied, for lines that end with \\n, \\r or \\r\\n), and for every document exactly when the result is the content (C43_exact_partial): iff the document does not end with a line end and its last line has no characters beyond the basic plane, or it has a line break that only Python knows (such as a form feed) before its last character. That the result is always exactly the content is refuted: the line end at the end of the old text is kept (C43_refuted), and with characters beyond the basic plane in the last line more of it (C43_astral_refuted)."
  },
  {
   "property": "C44",
   "status": "partial",
   "theorems": [
    "C44_refuted",
    "C44_order",
    "C44_not_stale_partial",
    "C44_immediate"
   ],
   "note": "Proved when validations of the document do not overlap, in particular with interval 0. In general refuted (C44_refuted): a validation that has started is not cancelled and can publish after a later one."
  },
  {
   "property": "C45",
   "status": "proved",
   "theorems": [
    "C45_success",
    "C45_methods",
    "C45_no_lists",
    "C45_passes",
    "C45_fresh",
    "C45_exit",
    "C45_empty_refuted",
    "C45_module_refuted",
    "C45_module",
    "C45_shared_refuted"
   ],
   "note": "For rules whose single report on a case with a replacement carries a fix (otherwise the last check of testing.py computes a diff of no replacement). C45_empty_refuted: an expected replacement that is the empty string is not checked. C45_module_refuted: add_lint_rule_tests_to_module keeps only the last of several rules with the same class name."
  },
  {
   "property": "C46",
   "status": "proved",
   "theorems": [
    "C46_autofix",
    "C46_hierarchy",
    "C46_dependencies",
    "C46_all_dependencies"
   ],
   "note": "C46_autofix is the one-step statement for any base classes; C46_hierarchy for single inheritance from LintRule with no explicit AUTOFIX."
  },
  {
   "property": "C47",
   "status": "proved",
   "theorems": [
    "C47_lint",
    "C47_fix",
    "C47_path"
   ],
   "note": ""
  },
  {
   "property": "C48",
   "status": "proved",
   "theorems": [
    "C48_messages",
    "C48_unreadable",
    "C48_accepts_refuted",
    "C48_status",
    "C48_any"
   ],
   "note": "C48_any covers every readable file, also one whose enable/disable/overrides have wrong types (one final 'Invalid config' message, or strings iterated by character). C48_accepts_refuted: only rule names are validated, so that a config every command rejects passes."
  },
  {
   "property": "C49",
   "status": "proved",
   "theorems": [
    "C49_stdin_output",
    "C49_diff_refuted",
    "C49_metrics_refuted"
   ],
   "note": "C49_diff_refuted, C49_metrics_refuted: with --diff or --print-metrics other text precedes the content on standard output."
  },
  {
   "property": "C50",
   "status": "proved",
   "theorems": [
    "C50_rules",
    "C50_rejects",
    "C50_canonical",
    "C50_main",
    "C50_main_fails"
   ],
   "note": ""
  },
  {
   "property": "C51",
   "status": "proved",
   "theorems": [
    "C51_upgrade",
    "C51_output",
    "C51_shortcut"
   ],
   "note": ""
  },
  {
   "property": "C52",
   "status": "proved",
   "theorems": [
    "C52_static",
    "C52_complete_refuted"
   ],
   "note": ""
  },
  {
   "property": "C53",
   "status": "proved",
   "theorems": [
    "C53_by_equal",
    "C53_by_equal_once",
    "C53_by_is",
    "C53_by_is_once",
    "C53_by_is_meaning",
    "C53_true_refuted",
    "C53_cycle_refuted"
   ],
   "note": "C53_by_is_meaning is for singletons that == compares by identity, such as None (C53_none_example); with True the meaning changes (C53_true_refuted)."
  },
  {
   "property": "C54",
   "status": "proved",
   "theorems": [
    "C54_truth",
    "C54_once",
    "C54_value_refuted",
    "C54_failure_refuted"
   ],
   "note": ""
  },
  {
   "property": "C55",
   "status": "proved",
   "theorems": [
    "C55_in",
    "C55_none",
    "C55_comparison",
    "C55_comparison_refuted",
    "C55_deprecated",
    "C55_deprecated_complete",
    "C55_once"
   ],
   "note": ""
  },
  {
   "property": "C56",
   "status": "proved",
   "theorems": [
    "C56_literal",
    "C56_keyword_refuted",
    "C56_starred_pair_refuted",
    "C56_once"
   ],
   "note": ""
  },
  {
   "property": "C57",
   "status": "proved",
   "theorems": [
    "C57_comprehension",
    "C57_triples_refuted",
    "C57_crash_refuted",
    "C57_once"
   ],
   "note": ""
  },
  {
   "property": "C58",
   "status": "proved",
   "theorems": [
    "C58_any_all",
    "C58_failure_refuted",
    "C58_once"
   ],
   "note": ""
  },
  {
   "property": "C59",
   "status": "proved",
   "theorems": [
    "C59_lambda",
    "C59_mention_refuted",
    "C59_definition_refuted",
    "C59_reported"
   ],
   "note": "Uses functional extensionality (Coq.Logic.FunctionalExtensionality)."
  },
  {
   "property": "C60",
   "status": "proved",
   "theorems": [
    "C60_text",
    "C60_same",
    "C60_reported",
    "C60_once"
   ],
   "note": ""
  },
  {
   "property": "C61",
   "status": "proved",
   "theorems": [
    "C61_quotes",
    "C61_contained_refuted",
    "C61_nested_refuted",
    "C61_triple_refuted",
    "C61_tuple",
    "C61_single",
    "C61_extra_refuted",
    "C61_tuple_value_refuted",
    "C61_prefix_refuted",
    "C61_no_crash",
    "C61_brace_refuted",
    "C61_once"
   ],
   "note": "Uses functional extensionality (Coq.Logic.FunctionalExtensionality). LibCST's check of f-string prefixes is part of the model (Rules.v, valid_fprefix)."
  },
  {
   "property": "C62",
   "status": "proved",
   "theorems": [
    "C62_registry",
    "C62_plain",
    "C62_black",
    "C62_none",
    "C62_through",
    "C62_ufmt",
    "C62_black_exact",
    "C62_black_raises",
    "C62_black_lost",
    "C62_black_refuted"
   ],
   "note": "C62_black_refuted: black raises NothingChanged when the fixed code is already formatted; C62_black_lost: then nothing is ever written. C62_through, C62_ufmt and C62_black_exact say exactly what each formatter makes of the fixed code (tightened after two wrong formatters went unnoticed)."
  },
  {
   "property": "C63",
   "status": "proved",
   "theorems": [
    "C63_reported",
    "C63_once",
    "C63_failing",
    "C63_mro"
   ],
   "note": ""
  },
  {
   "property": "C64",
   "status": "proved",
   "theorems": [
    "C64_result",
    "C64_reported",
    "C64_unmarked",
    "C64_once",
    "C64_meaning",
    "C64_meaning_refuted",
    "C64_crash_refuted",
    "C64_raises"
   ],
   "note": "C64_meaning_refuted: without the commutation condition the fix changes meaning; C64_crash_refuted: targets other than names make the rule raise."
  },
  {
   "property": "C65",
   "status": "proved",
   "theorems": [
    "C65_async_sleep",
    "C65_async_missed_refuted",
    "C65_super",
    "C65_super_meaning_refuted"
   ],
   "note": "C65_async_missed_refuted: leaving a nested function clears the flag, so later calls in the async def are missed. C65_super_meaning_refuted: super(A, other) is rewritten although super() means super(A, self)."
  },
  {
   "property": "C66",
   "status": "proved",
   "theorems": [
    "C66_typing",
    "C66_strings",
    "C66_metadata_refuted",
    "C66_union",
    "C66_union_same"
   ],
   "note": "C66_metadata_refuted: strings in Annotated[...] are reported and replaced."
  },
  {
   "property": "C67",
   "status": "proved",
   "theorems": [
    "C67_named",
    "C67_named_once",
    "C67_frozen",
    "C67_frozen_once",
    "C67_together",
    "C67_frozen_keywords",
    "C67_frozen_refuted",
    "C67_undefined_refuted"
   ],
   "note": "Refuted: the name dataclass need not be known; a mapping ** that already holds frozen makes the new decorator fail."
  },
  {
   "property": "C68",
   "status": "proved",
   "theorems": [
    "C68_pure",
    "C68_module",
    "C68_split_same",
    "C68_pure_same",
    "C68_deleted_refuted",
    "C68_alias_refuted",
    "C68_relative_refuted",
    "C68_once_refuted",
    "C68_bases",
    "C68_bases_once",
    "C68_import",
    "C68_import_same"
   ],
   "note": "Refuted: a compound statement that contains a mixed import is deleted as a whole, aliases are lost, relative imports are rewritten, and only the last set of mixed names is fixed."
  },
  {
   "property": "C69",
   "status": "proved",
   "theorems": [
    "C69_alias",
    "C69_imports",
    "C69_name",
    "C69_resolves",
    "C69_resolves_refuted",
    "C69_relative_refuted",
    "C69_suffix",
    "C69_suffix_crash_refuted",
    "C69_suffix_name_refuted",
    "C69_together_refuted",
    "C69_together",
    "C69_bases",
    "C69_keywords",
    "C69_keywords_once"
   ],
   "note": "Refuted: with all upgrade rules in one run the bases of rule classes are not renamed (a rule pops the shared metadata sets), an unresolved base crashes the rule, names such as Rule become empty, 'X as X' breaks the uses."
  },
  {
   "property": "C70",
   "status": "proved",
   "theorems": [
    "C70_reported",
    "C70_no_fix",
    "C70_rename",
    "C70_capture_refuted",
    "C70_import_refuted",
    "C70_posonly_refuted",
    "C70_first_refuted",
    "C70_first",
    "C70_nonlocal_refuted"
   ],
   "note": "Refuted: a nested function with its own cls captures the name; imports and nonlocal declarations of the parameter keep the old name; with positional-only parameters the wrong parameter is renamed or cls is added twice."
  },
  {
   "property": "C71",
   "status": "proved",
   "theorems": [
    "C71_or",
    "C71_or_refuted",
    "C71_noqa",
    "C71_noqa_refuted"
   ],
   "note": "Refuted: 'or' in a try statement with several handlers is overlooked; '#noqa' is."
  },
  {
   "property": "C72",
   "status": "proved",
   "theorems": [
    "C72_same_state",
    "C72_together",
    "C72_succeeds",
    "C72_fails",
    "C72_monotone_refuted",
    "C72_traversal"
   ],
   "note": "Methods are any functions of the rule's own state; shared metadata that a rule changes is not covered (C69 has an example). C72_monotone_refuted: a rule that raises hides the violations of the others."
  },
  {
   "property": "C73",
   "status": "proved",
   "theorems": [
    "C73_durations",
    "C73_same_name_refuted"
   ],
   "note": "C73_same_name_refuted: durations of different classes with the same name are added up."
  },
  {
   "property": "C74",
   "status": "proved",
   "theorems": [
    "C74_shows",
    "C74_every_path",
    "C74_without_rich",
    "C74_fails",
    "C74_succeeds_refuted"
   ],
   "note": "C74_without_rich: the fallback pprint.pprint(\">>> \", path) takes the path as a stream and raises. C74_succeeds_refuted: a disabled rule that cannot be instantiated makes debug fail although linting works."
  },
  {
   "property": "C75",
   "status": "proved",
   "theorems": [
    "C75_static_if",
    "C75_by_equal",
    "C75_by_is",
    "C75_isinstance",
    "C75_isinstance_fix",
    "C75_assert_in",
    "C75_assert_in_fix",
    "C75_assert_none",
    "C75_assert_none_fix",
    "C75_assert_comparison",
    "C75_assert_comparison_fix",
    "C75_deprecated",
    "C75_literal",
    "C75_literal_fix",
    "C75_comprehension",
    "C75_comprehension_crash",
    "C75_comprehension_fix",
    "C75_any_all",
    "C75_fstring_reported",
    "C75_fstring_fix",
    "C75_fstring_text"
   ],
   "note": ""
  },
  {
   "property": "C76",
   "status": "proved",
   "theorems": [
    "C76_stops",
    "C76_crash",
    "C76_progress",
    "C76_cycle_refuted",
    "C76_many_refuted",
    "C76_meaning",
    "C76_safe",
    "C76_run",
    "C76_runs"
   ],
   "note": "C76_meaning, C76_safe, C76_run and C76_runs use functional extensionality. C76_stops needs no axiom. The exception (both comparison rules on) is exact: C76_cycle_refuted. C76_run is one run and C76_runs any number of runs of any of seven rules with conditions on the first program; in C76_runs what dict is called with must not itself be a call that a rule rewrites (`calm`)."
  },
  {
   "property": "C77",
   "status": "proved",
   "theorems": [
    "C77_bounded",
    "C77_responsive",
    "C77_threads",
    "C77_answer",
    "C77_eventually",
    "C77_text"
   ],
   "note": "The bound of nine is exact (C77_example_busy). Threads never wait for each other because lsp.py uses no locks; pygls, which the model replaces by its effects (documents, sending messages), is trusted not to block."
  },
  {
   "property": "C78",
   "status": "proved",
   "theorems": [
    "C78_exactly",
    "C78_sound",
    "C78_written",
    "C78_unselected",
    "C78_silenced",
    "C78_quiet"
   ],
   "note": "A rule is any code that changes its violations through report only and does not catch what report raises; parsing, metadata and code generation by LibCST are arbitrary functions."
  },
  {
   "property": "C79",
   "status": "proved",
   "theorems": [
    "C79_path",
    "C79_alone",
    "C79_project",
    "C79_fails",
    "C79_projects_refuted",
    "C79_leak_refuted"
   ],
   "note": "Files of modules do not change during the session and importing a local module does not depend on what was imported before (Session.v). C79_projects_refuted and C79_leak_refuted show that the provisos are needed: cached modules and a leaked sys.path entry of one project decide which rules another project is linted with."
  },
  {
   "property": "C80",
   "status": "proved",
   "theorems": [
    "C80_exit",
    "C80_readonly",
    "C80_writes",
    "C80_fixed"
   ],
   "note": "One process, files one after the other (--jobs 1, or one file); the pool's part is C33-C37. Simplifications as in C78 and C79."
  },
  {
   "property": "C81",
   "status": "proved",
   "theorems": [
    "C81_diagnostics",
    "C81_as_lint",
    "C81_format",
    "C81_eventually"
   ],
   "note": "The interpreter is in the same state for every request; C79 says when what was linted before makes no difference, C82 what concurrent requests do to sys.path."
  },
  {
   "property": "C82",
   "status": "proved",
   "theorems": [
    "C82_path",
    "C82_removes",
    "C82_restored",
    "C82_sees",
    "C82_alone",
    "C82_same",
    "C82_ends",
    "C82_race_refuted"
   ],
   "note": "C82_race_refuted shows that the condition on directories in C82_same is needed: a real race in the language server (rules silently missing). find_rules is atomic in the model; sys.modules does not influence an import of a global module (Collect.v). Local rules are the subject of C83."
  },
  {
   "property": "C83",
   "status": "proved",
   "theorems": [
    "C83_origin",
    "C83_same_project",
    "C83_clean",
    "C83_ends",
    "C83_alone",
    "C83_mixed_refuted",
    "C83_lost_refuted"
   ],
   "note": "Refutations show that the conditions are needed: the language server can lint a file with the rules of another project. What importlib does is taken from CPython's source (_find_and_load_unlocked), not from /repo."
  },
  {
   "property": "C84",
   "status": "proved",
   "theorems": [
    "C84_exit",
    "C84_readonly",
    "C84_file",
    "C84_all",
    "C84_code",
    "C84_serial",
    "C84_projects_refuted"
   ],
   "note": "Processes are fair to each other in no way: any number of workers share the files in any way, each starts with the interpreter state of the main process (fork), files are done in any order; results of a file arrive together. Same-results claims (C84_file, C84_all, C84_code, C84_serial) are within one project (configurations agree on enable-root-import) while no file changes; across projects refuted (C84_projects_refuted). A killed worker, pickling and metrics printed by workers are not modelled (crashes: C37, C38)."
  },
  {
   "property": "C85",
   "status": "proved",
   "theorems": [
    "C85_interactive",
    "C85_quit",
    "C85_screen",
    "C85_stdin"
   ],
   "note": "Executions that return; for C85_quit any execution in which the user quit. A file with an error is covered by C80_writes (what is written is justified). `fix -` with --diff or metrics also prints these to standard output (C49_*_refuted)."
  },
  {
   "property": "C86",
   "status": "proved",
   "theorems": [
    "C86_fix",
    "C86_others",
    "C86_lint",
    "C86_clean",
    "C86_told"
   ],
   "note": "C86_fix and C86_told: executions that return, the user not quitting; files with errors are covered by C86_others and C80_writes. The disk is the function that the model's looks see; rules and formatters do not write to it. C86_told also needs that the files fixed are neither configuration files nor modules with rules (stated), and C86_clean that fix starts from the interpreter state that lint started from."
  },
  {
   "property": "C87",
   "status": "proved",
   "theorems": [
    "C87_fix",
    "C87_raises",
    "C87_stops",
    "C87_done"
   ],
   "note": "C87_fix, C87_raises: one command. C87_stops, C87_done: command after command; if compare_singleton_primitives_by_is and compare_primitives_by_equal are both selected, no program reached may have a comparison that mixes their operators (C76 shows this is needed). That a rule class does on the nodes of a file what its model does on expressions (`obeys`), that LibCST parses what it prints as the same program (`readable`) and how programs are laid out (`form`) are hypotheses; ProgramExamples meets them with a small language of lists."
  },
  {
   "property": "C88",
   "status": "proved",
   "theorems": [
    "C88_says",
    "C88_obeys",
    "C88_runs",
    "C88_lint",
    "C88_stops"
   ],
   "note": "C88_says: one class on one file. C88_obeys, C88_runs: so the hypotheses of C87 about rule classes hold of the built-in ones. C88_lint: the violations of a file. C88_stops: C87_stops with these classes. Hypotheses: a node can be read as the expression it lays out (`reads_nodes`), LibCST's visit goes through the expressions of the file in the order of the file (`seen`), a rule builds a node that lays out its fix (`writes_fixes`); met in VisitorsExamples by a small language with CollapseIsinstanceChecks itself."
  },
  {
   "property": "C89",
   "status": "proved",
   "theorems": [
    "C89_meaning",
    "C89_seven"
   ],
   "note": "C89_meaning: any of the classes, the single fixes assumed to keep meaning (C53-C61 say when). C89_seven: seven classes, conditions on the first program. Both use functional extensionality (through C76_meaning). The hypotheses about trees and texts are those of C88; MeaningExamples meets all of them with two commands that fix f(tuple(tuple((a, b))))."
  },
  {
   "property": "C90",
   "status": "proved",
   "theorems": [
    "C90_nothing_refuted",
    "C90_valid",
    "C90_invalid",
    "C90_fix",
    "C90_among"
   ],
   "note": "The class run later must have the same code as the class tested, and Python and LibCST must be the same (same_language); the rest of the system may differ. C90_nothing_refuted: exit status 0 does not mean that a rule was tested, a name that cannot be imported is only logged. TestRunExamples meets all hypotheses with RewriteToLiteral."
  },
  {
   "property": "C91",
   "status": "proved",
   "theorems": [
    "C91_says",
    "C91_lint",
    "C91_state",
    "C91_abc"
   ],
   "note": "What a node is, and what LibCST's metadata says about it, are any functions of its identity that fit its type (shows_things, shows_kinds); nodes are different objects (own_ids), also the lines of a class. C91_says/C91_lint: the ten classes without state; C91_state: the four with; C91_abc: DeprecatedABCImport, whose report about the module comes last. Whether what is reported is an improvement is the subject of C63 to C71, with what goes wrong (the _refuted theorems there). StatementsExamples meets all hypotheses with four of the classes."
  },
  {
   "property": "C92",
   "status": "proved",
   "theorems": [
    "C92_base_kept",
    "C92_use_renamed",
    "C92_all_renamed_refuted",
    "C92_lint"
   ],
   "note": "C92_lint has the exact reports of each of the three; C92_base_kept and C92_use_renamed spell out what becomes of references. That every reference to an old name is reported is refuted (C92_all_renamed_refuted: `class Bar(CSTLintRule)`), as in C69_together_refuted for one class. Bases of classes are different nodes, inside their class (well_read). SharedExamples meets all hypotheses, with the three rules and with one."
  },
  {
   "property": "C93",
   "status": "proved",
   "theorems": [
    "C93_config",
    "C93_file",
    "C93_lint",
    "C93_fix",
    "C93_documented"
   ],
   "note": "C93_config is about one configuration, C93_file, C93_lint and C93_fix about whole runs (iff, also interrupted ones); C93_documented about the syntax in docs/guide/configuration.rst 240. The comparison is with a program that reads every configuration file as if its options tables were empty, on the same file systems; rules that read configuration files themselves see the same ones. fixit debug, which prints the whole Config, and the language server are not part of it."
  },
  {
   "property": "C94",
   "status": "proved",
   "theorems": [
    "C94_dedent",
    "C94_blank",
    "C94_indented",
    "C94_kept",
    "C94_again",
    "C94_tests",
    "C94_untestable",
    "C94_code_refuted"
   ],
   "note": "textwrap.dedent is Python's (Dedent.v models it line by line; Conformance4 compares the model with the real one on 644 strings). C94_dedent and C94_blank are the exact result, C94_tests the consequence for tests, C94_untestable and C94_code_refuted the findings. C94_tests and C94_untestable are about any surroundings of a test whose dedent is this one."
  },
  {
   "property": "C95",
   "status": "proved",
   "theorems": [
    "C95_filled",
    "C95_exact",
    "C95_any_text",
    "C95_refused",
    "C95_no_text",
    "C95_effect",
    "C95_builtin",
    "C95_lint_breaks",
    "C95_fix_breaks",
    "C95_unusable",
    "C95_unchecked_refuted"
   ],
   "note": "str.format is Python's: Template.v models its parser character by character and its evaluation for keyword arguments; attributes, items, repr, ascii, non-empty format specs and the object result are arbitrary functions (a record `python`), and C95_exact says which templates give a text whatever those do. Conformance5 compares the model with the real str.format on 2 x 1173 templates. C95_unchecked_refuted, C95_lint_breaks and C95_fix_breaks are findings."
  },
  {
   "property": "C96",
   "status": "proved",
   "theorems": [
    "C96_exact",
    "C96_by_name",
    "C96_one_text",
    "C96_default",
    "C96_option",
    "C96_enable_refuted",
    "C96_disable_refuted",
    "C96_upgrade"
   ],
   "note": "Local rules (leading dot) are excluded: each import makes new classes, see C17. C96_enable_refuted and C96_disable_refuted are findings about the documentation of enable and disable. That a module which cannot be imported is left out is part of what an entry stands for."
  },
  {
   "property": "C97",
   "status": "proved",
   "theorems": [
    "C97_listed",
    "C97_all",
    "C97_either",
    "C97_next_to",
    "C97_elsewhere",
    "C97_possible",
    "C97_file",
    "C97_clean"
   ],
   "note": "In C97_file the rules' calls of report are taken to be about the same code with the same messages in both versions (ranges and replacements may differ), as they are for rules that do not look at comments; the world and the configuration are the same. C97_example_apart: in 'A , B' the second name belongs to the remark."
  },
  {
   "property": "C98",
   "status": "proved",
   "theorems": [
    "C98_asked",
    "C98_one_at_a_time",
    "C98_order",
    "C98_all",
    "C98_default",
    "C98_port",
    "C98_only_refuted",
    "C98_both_refuted",
    "C98_nothing"
   ],
   "note": "The servers of pygls are calls that go on, raise or return. C98_only_refuted and C98_both_refuted are findings about the documented usage [--stdio | --tcp PORT | --ws PORT]."
  },
  {
   "property": "C99",
   "status": "proved",
   "theorems": [
    "C99_file_to_stdin",
    "C99_stdin_to_file",
    "C99_lint",
    "C99_fix"
   ],
   "note": "Storing the output is assumed to succeed. At API level each execution of one has one of the other (both directions); C99_lint is an equivalence; C99_fix is stated for executions that end and a readable configuration."
  },
  {
   "property": "C100",
   "status": "proved",
   "theorems": [
    "C100_each",
    "C100_order",
    "C100_same",
    "C100_success"
   ],
   "note": "For executions that end with an exit code, files read in this process (C37, C84 relate this to the process pool). The summary line itself is C47."
  },
  {
   "property": "C101",
   "status": "proved",
   "theorems": [
    "C101_each"
   ],
   "note": "Assumes that which files are found below a path depends on the names of files and directories only (trailrunner also reads .gitignore files, which fixing does not change) and that all paths can be walked."
  },
  {
   "property": "C102",
   "status": "proved",
   "theorems": [
    "C102_lint",
    "C102_fix",
    "C102_interactive"
   ],
   "note": "Executions that end (with a value or an exception). Printing metrics does not fail. The clock that the durations come from is an opaque function."
  },
  {
   "property": "C103",
   "status": "proved",
   "theorems": [
    "C103_yes",
    "C103_unformatted",
    "C103_formatter_refuted"
   ],
   "note": "Executions in which only the command changes files, no write fails, every file is found once and the answer to every question is yes. C103_formatter_refuted shows that the condition on formatting cannot be dropped."
  },
  {
   "property": "C104",
   "status": "proved",
   "theorems": [
    "C104_lint",
    "C104_lint_jobs",
    "C104_fix",
    "C104_whole_lint",
    "C104_whole_fix",
    "C104_nothing_found"
   ],
   "note": "Condition: whenever the command looks, the paths stand for the same files and trailrunner.walk of each of these gives just that file. The executions may stop at any point."
  },
  {
   "property": "C105",
   "status": "proved",
   "theorems": [
    "C105_refuse",
    "C105_answer",
    "C105_unwritten",
    "C105_whole_refuse",
    "C105_whole_answer"
   ],
   "note": "Files one after another: fixit lint with its process pool delivers the same results, see C84 and C37."
  },
  {
   "property": "C106",
   "status": "proved",
   "theorems": [
    "C106_automatic",
    "C106_by_hand",
    "C106_whole"
   ],
   "note": "Files one after another; with the process pool callers cannot answer (C37)."
  },
  {
   "property": "C107",
   "status": "proved",
   "theorems": [
    "C107_each"
   ],
   "note": "Each command returns 0. The directory listing depends only on which files exist (names_only). fixit fix never uses the process pool (parallel=False)."
  },
  {
   "property": "C108",
   "status": "proved",
   "theorems": [
    "C108_each",
    "C108_as_lint",
    "C108_path",
    "C108_projects_refuted"
   ],
   "note": "For commands that succeed; a class is shown by its module and name, not by which import made it. Files do not change meanwhile, and importing a local module does not depend on earlier imports (Session.v). C108_projects_refuted is a finding: debug shows, and lint uses (C79_projects_refuted), the rule of another project."
  },
  {
   "property": "C109",
   "status": "proved",
   "theorems": [
    "C109_lint"
   ],
   "note": "Files do not change meanwhile. That no file is found twice is needed: a file found twice is counted once, its auto-fixes twice."
  },
  {
   "property": "C110",
   "status": "proved",
   "theorems": [
    "C110_together",
    "C110_apart"
   ],
   "note": "Only the command changes the files, and no write fails. The two theorems are the two directions; which files are below a path depends on names only."
  },
  {
   "property": "C111",
   "status": "proved",
   "theorems": [
    "C111_order"
   ],
   "note": "Files do not change meanwhile; for commands that end normally (after an exception, which lines were printed before it does depend on the order). Paths other than standard input; linting in one process (for the pool see C84)."
  },
  {
   "property": "C112",
   "status": "proved",
   "theorems": [
    "C112_order"
   ],
   "note": "Only the command changes the files, and no write fails. The conditions are those under which it is true: a local rule module that is itself fixed, or a configuration file, may change what is done with the files after it (C101)."
  },
  {
   "property": "C113",
   "status": "proved",
   "theorems": [
    "C113_again"
   ],
   "note": "Files do not change meanwhile; no standard input; linting in one process. The example is a finding of sorts: auto-fixes of a file named twice are counted twice (4 instead of 2), though its violations are there once."
  }
 ]
}