-Q theories Verif
theories/Model/Any.v
theories/Model/Bare.v
theories/Model/Base.v
theories/Model/Capture.v
theories/Model/Cli.v
theories/Model/Comparison.v
theories/Model/Cost.v
theories/Model/Declare.v
theories/Model/Decompose.v
theories/Model/Disabled.v
theories/Model/Expression.v
theories/Model/File.v
theories/Model/Filter.v
theories/Model/Fixed.v
theories/Model/FloatText.v
theories/Model/Function.v
theories/Model/Integer.v
theories/Model/LastWords.v
theories/Model/Macros.v
theories/Model/Nested.v
theories/Model/Print.v
theories/Model/Program.v
theories/Model/Register.v
theories/Model/Reporters.v
theories/Model/Run.v
theories/Model/Serialiser.v
theories/Model/Session.v
theories/Model/SingleHeader.v
theories/Model/Streams.v
theories/Model/StringUtil.v
theories/Model/Throwing.v
theories/Model/Timed.v
theories/Model/Unwinding.v
theories/Model/UserCode.v
theories/Model/Values.v
theories/Model/Vector.v
theories/Spec/AbortSpec.v
theories/Spec/AboutSpec.v
theories/Spec/ActionSpec.v
theories/Spec/AnySpec.v
theories/Spec/AttemptSpec.v
theories/Spec/BareSpec.v
theories/Spec/CapacitySpec.v
theories/Spec/CaptureSpec.v
theories/Spec/CliSpec.v
theories/Spec/ColourSpec.v
theories/Spec/CompareSpec.v
theories/Spec/ConsoleSpec.v
theories/Spec/CostSpec.v
theories/Spec/CutServiceSpec.v
theories/Spec/CutSpec.v
theories/Spec/CutXmlSpec.v
theories/Spec/DeclareSpec.v
theories/Spec/DisabledSpec.v
theories/Spec/EndingClaims.v
theories/Spec/EndingSpec.v
theories/Spec/EquivalenceSpec.v
theories/Spec/EscapeSpec.v
theories/Spec/Events.v
theories/Spec/ExpressionSpec.v
theories/Spec/FailureClaims.v
theories/Spec/FailureSpec.v
theories/Spec/FileSpec.v
theories/Spec/FilterSpec.v
theories/Spec/FloatSpec.v
theories/Spec/FunctionSpec.v
theories/Spec/HelpSpec.v
theories/Spec/HistoryClaims.v
theories/Spec/LastWordsSpec.v
theories/Spec/LimitClaims.v
theories/Spec/LinkClaims.v
theories/Spec/ListingClaims.v
theories/Spec/ListingSpec.v
theories/Spec/MacroSpec.v
theories/Spec/NameSpec.v
theories/Spec/NestedSpec.v
theories/Spec/NumberSpec.v
theories/Spec/OperatorSpec.v
theories/Spec/OrderSpec.v
theories/Spec/PathSpec.v
theories/Spec/PrintSpec.v
theories/Spec/ProgramClaims.v
theories/Spec/ProgramSpec.v
theories/Spec/RegisterSpec.v
theories/Spec/RequestSpec.v
theories/Spec/RunSpec.v
theories/Spec/SerialiserSpec.v
theories/Spec/ServiceSpec.v
theories/Spec/SessionSpec.v
theories/Spec/ShardSpec.v
theories/Spec/SingleHeaderSpec.v
theories/Spec/StopSpec.v
theories/Spec/StreamSpec.v
theories/Spec/TagSpec.v
theories/Spec/TextSpec.v
theories/Spec/ThrowingSpec.v
theories/Spec/TimeSpec.v
theories/Spec/TreeSpec.v
theories/Spec/UnwindingSpec.v
theories/Spec/UserCodeSpec.v
theories/Spec/ValueSpec.v
theories/Spec/VectorSpec.v
theories/Spec/VerdictSpec.v
theories/Spec/WarningSpec.v
theories/Spec/XmlSpec.v
theories/Proofs/AbortProofs.v
theories/Proofs/AboutExamples.v
theories/Proofs/AboutProofs.v
theories/Proofs/ActionExamples.v
theories/Proofs/ActionProofs.v
theories/Proofs/AddExamples.v
theories/Proofs/AddProofs.v
theories/Proofs/AloneProofs.v
theories/Proofs/AnyProofs.v
theories/Proofs/AppendProofs.v
theories/Proofs/ApprovalTests.v
theories/Proofs/AttemptProofs.v
theories/Proofs/BalanceFacts.v
theories/Proofs/BalanceInTry.v
theories/Proofs/BalanceProofs.v
theories/Proofs/BareProofs.v
theories/Proofs/CapacityProofs.v
theories/Proofs/CaptureProofs.v
theories/Proofs/CaseProofs.v
theories/Proofs/ChoiceProofs.v
theories/Proofs/CliFacts.v
theories/Proofs/CliProofs.v
theories/Proofs/ColourExamples.v
theories/Proofs/ColourProgram.v
theories/Proofs/ColourProofs.v
theories/Proofs/ComparisonProofs.v
theories/Proofs/ComplaintProofs.v
theories/Proofs/ConfigProofs.v
theories/Proofs/ConsoleProofs.v
theories/Proofs/ContinuingProofs.v
theories/Proofs/CostProofs.v
theories/Proofs/CutExamples.v
theories/Proofs/CutProgram.v
theories/Proofs/CutProofs.v
theories/Proofs/CutReportExamples.v
theories/Proofs/CutService.v
theories/Proofs/CutXml.v
theories/Proofs/DeclareProofs.v
theories/Proofs/DecomposeProofs.v
theories/Proofs/DepthProofs.v
theories/Proofs/DisabledProofs.v
theories/Proofs/EndToEndProofs.v
theories/Proofs/EndingExamples.v
theories/Proofs/EndingProofs.v
theories/Proofs/EquivalenceFacts.v
theories/Proofs/EquivalenceProofs.v
theories/Proofs/EscapeProofs.v
theories/Proofs/ExpressionProofs.v
theories/Proofs/FailureExamples.v
theories/Proofs/FailureProofs.v
theories/Proofs/FileProofs.v
theories/Proofs/FilterProofs.v
theories/Proofs/FixedProofs.v
theories/Proofs/FloatForms.v
theories/Proofs/FloatProofs.v
theories/Proofs/FloatTextProofs.v
theories/Proofs/FunctionProofs.v
theories/Proofs/HelpProofs.v
theories/Proofs/HistoryExamples.v
theories/Proofs/HistoryProofs.v
theories/Proofs/IntegerProofs.v
theories/Proofs/InvariantProofs.v
theories/Proofs/LargerProofs.v
theories/Proofs/LargerTexts.v
theories/Proofs/LastWordsProofs.v
theories/Proofs/LeastExamples.v
theories/Proofs/LevelProofs.v
theories/Proofs/LibraryHeaders.v
theories/Proofs/LifetimeProofs.v
theories/Proofs/LimitProofs.v
theories/Proofs/LinkExamples.v
theories/Proofs/LinkProofs.v
theories/Proofs/LinkTags.v
theories/Proofs/LinkTexts.v
theories/Proofs/ListingExamples.v
theories/Proofs/ListingProofs.v
theories/Proofs/Lists.v
theories/Proofs/MacroFacts.v
theories/Proofs/MacroProofs.v
theories/Proofs/ManyOptions.v
theories/Proofs/MarkProofs.v
theories/Proofs/MatchProofs.v
theories/Proofs/NameProofs.v
theories/Proofs/NegationProofs.v
theories/Proofs/NestedProofs.v
theories/Proofs/NumberForms.v
theories/Proofs/OptionProofs.v
theories/Proofs/OrderChecks.v
theories/Proofs/OrderProofs.v
theories/Proofs/OrderText.v
theories/Proofs/OutputProofs.v
theories/Proofs/PathEvents.v
theories/Proofs/PathProofs.v
theories/Proofs/PortableProofs.v
theories/Proofs/PrefixProofs.v
theories/Proofs/PrintProofs.v
theories/Proofs/ProgramFacts.v
theories/Proofs/ProgramProofs.v
theories/Proofs/ProtocolProofs.v
theories/Proofs/RegisterProofs.v
theories/Proofs/RegistryProofs.v
theories/Proofs/ReplaceProofs.v
theories/Proofs/ReportExamples.v
theories/Proofs/ReportProofs.v
theories/Proofs/ReporterProofs.v
theories/Proofs/RequestProofs.v
theories/Proofs/RunFacts.v
theories/Proofs/RunProofs.v
theories/Proofs/RuntimeRuns.v
theories/Proofs/SafetyProofs.v
theories/Proofs/ScopeProofs.v
theories/Proofs/SerialiserProofs.v
theories/Proofs/ServiceProofs.v
theories/Proofs/SessionFacts.v
theories/Proofs/SessionProofs.v
theories/Proofs/ShardProofs.v
theories/Proofs/ShortcutProofs.v
theories/Proofs/SingleHeaderProofs.v
theories/Proofs/SoundProofs.v
theories/Proofs/StopProofs.v
theories/Proofs/StreamExamples.v
theories/Proofs/StreamProofs.v
theories/Proofs/StreamReports.v
theories/Proofs/TableProofs.v
theories/Proofs/TagProofs.v
theories/Proofs/ThrowingFacts.v
theories/Proofs/ThrowingProofs.v
theories/Proofs/TimedFacts.v
theories/Proofs/TimedProofs.v
theories/Proofs/TotalProofs.v
theories/Proofs/TreeProofs.v
theories/Proofs/UnwindingFacts.v
theories/Proofs/UnwindingLife.v
theories/Proofs/UnwindingProofs.v
theories/Proofs/UnwindingSafety.v
theories/Proofs/UserCodeProofs.v
theories/Proofs/ValueProofs.v
theories/Proofs/VectorProofs.v
theories/Proofs/VerbosityProofs.v
theories/Proofs/WarningProgram.v
theories/Proofs/WarningProofs.v
theories/Proofs/WholeProofs.v
theories/Proofs/WitnessProofs.v
theories/Proofs/XmlLevel.v
theories/Proofs/XmlProofs.v
theories/Properties/About.v
theories/Properties/Action.v
theories/Properties/Add.v
theories/Properties/Any.v
theories/Properties/Approval.v
theories/Properties/Bare.v
theories/Properties/Capacity.v
theories/Properties/Capture.v
theories/Properties/Cli.v
theories/Properties/ColourReports.v
theories/Properties/Colours.v
theories/Properties/Comparison.v
theories/Properties/Console.v
theories/Properties/Cost.v
theories/Properties/Cut.v
theories/Properties/CutReports.v
theories/Properties/Declare.v
theories/Properties/Decompose.v
theories/Properties/Disabled.v
theories/Properties/Ending.v
theories/Properties/Equivalence.v
theories/Properties/Expressions.v
theories/Properties/Failure.v
theories/Properties/Filters.v
theories/Properties/Floats.v
theories/Properties/Function.v
theories/Properties/Help.v
theories/Properties/History.v
theories/Properties/Larger.v
theories/Properties/LastWords.v
theories/Properties/LeastVerbosity.v
theories/Properties/Link.v
theories/Properties/Listing.v
theories/Properties/Macros.v
theories/Properties/Names.v
theories/Properties/Nested.v
theories/Properties/Numbers.v
theories/Properties/Order.v
theories/Properties/Output.v
theories/Properties/Print.v
theories/Properties/Program.v
theories/Properties/Register.v
theories/Properties/Report.v
theories/Properties/Reporters.v
theories/Properties/Request.v
theories/Properties/Run.v
theories/Properties/RuntimeTests.v
theories/Properties/Serialisers.v
theories/Properties/Service.v
theories/Properties/Session.v
theories/Properties/Shards.v
theories/Properties/SingleHeader.v
theories/Properties/Streams.v
theories/Properties/Tags.v
theories/Properties/Text.v
theories/Properties/Throwing.v
theories/Properties/Time.v
theories/Properties/Unwinding.v
theories/Properties/UserCode.v
theories/Properties/Values.v
theories/Properties/Warning.v
