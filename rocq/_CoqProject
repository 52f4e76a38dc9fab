-Q theories Verif
theories/Base.v
theories/PyStr.v
theories/Regex.v
theories/Ftypes.v
theories/RuleNameSpec.v
theories/RuleNameFacts.v
theories/RuleNameProps.v
theories/TagsProps.v
theories/Suppress.v
theories/SuppressSpec.v
theories/SuppressFacts.v
theories/SuppressProps.v
theories/Paths.v
theories/Config.v
theories/ConfigSpec.v
theories/ConfigFacts.v
theories/ConfigMentions.v
theories/ConfigValid.v
theories/ConfigProps.v
theories/ConfigDiscover.v
theories/ConfigErrors.v
theories/ConfigMore.v
theories/Collect.v
theories/CollectSpec.v
theories/CollectFacts.v
theories/CollectSelect.v
theories/CollectProps.v
theories/CollectTotal.v
theories/CollectLocal.v
theories/ValidateProps.v
theories/Cst.v
theories/EngineSpec.v
theories/EditFacts.v
theories/Engine.v
theories/EngineProps.v
theories/CodeProps.v
theories/Api.v
theories/ApiSpec.v
theories/ApiFacts.v
theories/ApiProps.v
theories/ApiPaths.v
theories/Capture.v
theories/CaptureProps.v
theories/Pool.v
theories/PoolProps.v
theories/Cli.v
theories/CliSpec.v
theories/CliFacts.v
theories/CliProps.v
theories/OptionProps.v
theories/Lsp.v
theories/LspSpec.v
theories/LspFacts.v
theories/LspProps.v
theories/LspPublish.v
theories/LspCache.v
theories/LspFormat.v
theories/LspServe.v
theories/PyStrFacts.v
theories/LspExamples.v
theories/Testing.v
theories/TestingSpec.v
theories/TestingProps.v
theories/Py.v
theories/Format.v
theories/FormatProps.v
theories/Rules.v
theories/RulesSpec.v
theories/PyToy.v
theories/PyFacts.v
theories/RulesProps.v
theories/RulesProps2.v
theories/RulesProps3.v
theories/Classes.v
theories/ClassesSpec.v
theories/ClassesProps.v
theories/SortedProps.v
theories/Trees.v
theories/TreesSpec.v
theories/TreesFacts.v
theories/TreesProps.v
theories/AnnotationProps.v
theories/DataclassProps.v
theories/Imports.v
theories/ImportsProps.v
theories/Upgrade.v
theories/UpgradeProps.v
theories/Scopes.v
theories/ScopesProps.v
theories/Batch.v
theories/BatchProps.v
theories/Debug.v
theories/QuoteProps.v
theories/ReportsSpec.v
theories/ReportsProps.v
theories/Whole.v
theories/WholeSpec.v
theories/WholeFacts.v
theories/WholeProps.v
theories/WholeRuns.v
theories/System.v
theories/SystemSpec.v
theories/SystemProps.v
theories/SystemSame.v
theories/Session.v
theories/SessionSpec.v
theories/SessionFacts.v
theories/SessionProps.v
theories/Commands.v
theories/CommandsSpec.v
theories/CommandsProps.v
theories/EditorSpec.v
theories/EditorProps.v
theories/Threads.v
theories/ThreadsProps.v
theories/Local.v
theories/LocalSpec.v
theories/LocalProps.v
theories/Jobs.v
theories/JobsSpec.v
theories/JobsProps.v
theories/FixSpec.v
theories/FixProps.v
theories/DiskSpec.v
theories/DiskProps.v
theories/ProgramSpec.v
theories/ProgramFacts.v
theories/ProgramProps.v
theories/ProgramExamples.v
theories/Visitors.v
theories/VisitorsSpec.v
theories/VisitorsFacts.v
theories/VisitorsProps.v
theories/VisitorsExamples.v
theories/MeaningProps.v
theories/MeaningExamples.v
theories/Conformance.v
theories/Conformance2.v
theories/Conformance3.v
theories/TestRun.v
theories/TestRunSpec.v
theories/TestRunProps.v
theories/TestRunExamples.v
theories/Statements.v
theories/StatementsSpec.v
theories/StatementsFacts.v
theories/StatementsProps.v
theories/StatementsExamples.v
theories/Shared.v
theories/SharedSpec.v
theories/SharedProps.v
theories/SharedExamples.v
theories/OptionsSpec.v
theories/OptionsProps.v
theories/Dedent.v
theories/DedentProps.v
theories/Conformance4.v
theories/Template.v
theories/TemplateProps.v
theories/TemplateRuns.v
theories/Conformance5.v
theories/SelectSpec.v
theories/SelectProps.v
theories/SilenceSpec.v
theories/SilenceProps.v
theories/Serve.v
theories/ServeProps.v
theories/InputProps.v
theories/SeveralProps.v
theories/SeveralFix.v
theories/VerboseProps.v
theories/ConsentProps.v
theories/PathArgProps.v
theories/RefusalProps.v
theories/HeedProps.v
theories/AskProps.v
theories/DebugSession.v
theories/SummaryProps.v
theories/FixSummary.v
theories/PathOrder.v
theories/FixOrder.v
theories/AgainProps.v
