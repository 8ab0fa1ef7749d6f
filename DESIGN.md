# Formal model of snitch in Rocq (Coq 8.16.1)

The code of `/repo` (snitch-org/snitch, pinned) is modelled function by function as total Gallina
functions. The properties of `properties.jsonl` are theorems about these functions.
`MANIFEST.json` maps each property to its theorems; `tools/manifest.py` generates it from the theorem names and
`tools/notes.json`.

## Layout (`rocq/theories`)

| files | contents |
|---|---|
| `Model/*.v` | the model: definitions only, each citing the lines of `/repo` it models |
| `Spec/*.v` | small independent specifications the theorems are stated against. They never use the model; the model may use their vocabulary (types of events, pieces of text, test bodies). The exceptions are the files `*Claims.v` (`ProgramClaims`, `HistoryClaims`, `LimitClaims`, `LinkClaims`, `FailureClaims`, `ListingClaims`, `EndingClaims`), words about the registry, its tests and its limits used in the statements about whole programs |
| `Proofs/*.v` | lemmas and proofs |
| `Properties/*.v` | the property theorems, each closed by `exact`, each followed by `Print Assumptions` and by an example that meets its hypotheses |

## Modelling conventions

* Characters are `ascii`, strings are `list ascii` (`str`). A `std::string_view` is its content. Lifetimes of views
  are not modelled except where a property is about them (C52, C57).
* `small_vector` and `small_string` are a buffer and a size. The buffer is a list whose length is the capacity. It
  includes stale elements beyond the size, about which nothing is assumed.
* `std::size_t` is `nat`. A subtraction that could wrap around is a checked one, whose failure is the outcome `Wrap`.
  64-bit digit arithmetic (integers, fixed point) is done in `N` and `Z` with range checks.
* Outcomes are distinct constructors of `err`: `Assert` (`assertion_failed`, the documented reaction to a violated
  precondition), `Terminate` (`std::terminate`), `UB` (access out of bounds, signed overflow, use of a destroyed
  object), `Wrap`, and `Fuel` (a loop that did not end within the given number of steps). Theorems say which of them
  can occur.
* Exceptions: a test body returns how it ended (normally, framework abort, `std::exception`, another exception), and
  destructors run with the corresponding value of `std::uncaught_exceptions() > 0`.
* Callbacks (reporters, print callback) are modelled by the list of calls made to them.
* User code (test bodies, comparison operators, matchers, `what()`) is arbitrary: a parameter, or an arbitrary tree of
  statements (`Spec/Events.v`).

## Which code is modelled

| code | model | remarks |
|---|---|---|
| `snitch_vector.hpp`, `snitch_string.hpp` | `Model/Vector.v` | all operations that read or write elements; iterators are positions |
| `snitch_append.hpp`, `src/snitch_append.cpp`: texts | `Model/StringUtil.v` | run-time and compile-time versions |
| same: integers, pointers | `Model/Integer.v` | `std::to_chars` for integers is modelled by the decimal notation, with arbitrary garbage when it fails |
| same: floating-point numbers | `Model/FloatText.v` | compile-time version in full; the text made by `std::to_chars` is a parameter |
| `snitch_fixed_point.hpp` | `Model/Fixed.v` | all of it, both versions of `to_bits`; the tables are copied |
| `snitch_string_utility.hpp/.cpp` | `Model/StringUtil.v`, `Model/Filter.v` | all functions; the cost of `is_match` in `Model/Cost.v` |
| `src/snitch_registry.cpp`: filters, tags, registration, listing | `Model/Filter.v` | |
| same: `run`, `report_*`, `register_assertion`, `set_state` | `Model/Run.v` | time stamps left out |
| same: `run_selected_tests`, `run_tests`, `configure`, `parse_reporter`, `add_reporter` | `Model/Session.v` | |
| `src/snitch_section.cpp`, `src/snitch_test_data.cpp` | `Model/Run.v`, `Model/Nested.v` | |
| the same with time stamps, `snitch_time.cpp` | `Model/Timed.v` | the clock is any function; time passes between steps |
| the same in a build without exceptions | `Model/Bare.v` | the parts selected by `SNITCH_WITH_EXCEPTIONS` |
| the same with a handler of failed assertions that throws, `snitch_error_handling.cpp` | `Model/Throwing.v` | the text printed before the handler is called is left out |
| the same with what is printed and said when a limit is exceeded, `terminate_with` | `Model/LastWords.v` | |
| `src/snitch_capture.cpp`, `snitch_capture.hpp` | `Model/Run.v` (scopes), `Model/Capture.v` (names) | |
| `snitch_macros_check*.hpp`, `snitch_macros_constexpr.hpp`, `snitch_macros_consteval.hpp`, `snitch_macros_misc.hpp`, `snitch_macros_exceptions.hpp` | `Model/Macros.v`, statement by statement; `Model/Run.v` for the abstract checks of `Spec/Events.v` they amount to (C67) | the preprocessor is not modelled; compile-time values are parameters |
| `snitch_expression.hpp`, `snitch_matcher.hpp/.cpp` | `Model/Expression.v` | |
| `snitch_expression.hpp`: overloaded operators | `Model/Decompose.v` | the overloads chosen for the classes of the file; the grammar of C++ operators is assumed (`Spec/OperatorSpec.v`) |
| `snitch_console.hpp`, `cli::print`, `registry::print` | `Model/Print.v` | |
| `src/snitch_cli.cpp` | `Model/Cli.v` | |
| `src/snitch_file.cpp` | `Model/File.v`, `Model/Streams.v` | the C library is a log of calls |
| `src/snitch_console.cpp`, and `main` as calls of the C library | `Model/Streams.v` | buffers of the C library: `Spec/StreamSpec.v` |
| `src/snitch_reporter_*.cpp` | `Model/Reporters.v` | durations and file names are parameters |
| `snitch_registry.cpp`: what failed registrations print and leave | `Model/Register.v` | |
| code of the test in destructors, executed with or without an exception in flight | `Model/Unwinding.v` | destructors are `noexcept` |
| `snitch_expression.hpp`, `snitch_matcher.hpp`, `snitch_capture.hpp`: calls to code of the user, `noexcept` | `Model/UserCode.v` | the user's `append` appends a text |
| `snitch_append.hpp`: the overloads of `append` | `Model/Values.v` | overload resolution is the kind of the value; `long double` left out |
| `snitch_expression.hpp` on values of built-in types, with the comparisons of integers of the language | `Model/Comparison.v` | `int` has 32 bits |
| `snitch_function.hpp` | `Model/Function.v` | addresses are numbers of objects; arguments are values |
| `snitch_any.hpp` | `Model/Any.v` | |
| `snitch_type_name.hpp`, `snitch_macros_test_case.hpp`, `snitch_registry.hpp`: declarations | `Model/Declare.v` | the signatures given by compilers are assumed (`Spec/DeclareSpec.v`) |
| macros and `main` with `SNITCH_ENABLE` set to 0 | `Model/Disabled.v` | only whether operands are evaluated and what may stand outside functions |
| `make_snitch_all.py` | `Model/SingleHeader.v` | files are lines of ASCII characters; regular expressions as functions |
| `src/snitch_main.cpp` | `Model/Session.v` (as events), `Model/Program.v` (as texts) | the reporters of the library with their state, their effect on the registry, and their lifetime |

Not modelled: preprocessor, templates and overload resolution except in `Model/Decompose.v` (`snitch_concepts.hpp`, `snitch_macros_utility.hpp`,
`snitch_macros_warnings.hpp`), data races (the registry and the counters of a
test are plain variables; only the thread-local current test is modelled with threads, C31).

## Properties: specification, theorem, proof

* **C01** `VectorSpec`: a list with a maximum length. Refinement of buffer and size to it, by induction on the sequence
  of operations. `C01_from_list` does the same for the constructor from a braced list.
* **C02, C03** `TextSpec`: the longest prefix that fits. Loop invariants on the buffer.
* **C04, C05** `NumberSpec`: an independent reader of decimal and hexadecimal notation, and canonicity.
* **C06-C09** `TextSpec`: left-to-right replacement as a relation, shown to be a function. Invariants of the loops over
  `find`. C07 and C08 are refuted in general, with the true cases proved.
* **C10, C11** `TextSpec`/`FilterSpec`: tokens of a pattern, inductive matching relation. Induction on the pattern
  and on the text.
* **C12-C16** `FilterSpec`: unique splitting of a filter, boolean meaning; tags written and read back.
* **C17, C18, C30, C33, C55** `SessionSpec`: the events of a run as a function of the tests selected.
* **C19, C20, C21** `VerdictSpec`: verdict as a function of the checks executed, in order. Induction on the body.
* **C22, C23, C56** `TreeSpec`: passes over the tree of sections, one per leaf. Invariant on the stack of levels. `PathSpec`
  (C23, C56): bodies that catch exceptions around their sections; refinement to a body made of the sections only.
* **C24, C25, C26, C27, C28** `TreeSpec`, `RunSpec`: context of each event by recursion on the body. `AbortSpec`: where a
  body can be aborted, and which sections are open there (exact form of C24).
* **C29** `CaptureSpec`: expressions as a grammar. Induction on the grammar.
* **C31** `NestedSpec`: nested runs, exceptions, threads; induction on code and schedules. `C31_threads_record`: each check
  is recorded by the test its own thread runs.
* **C32, C34, C35, C53, C54** `CliSpec`, `SessionSpec`, `ColourSpec`.
* **C36, C52** `FilterSpec`.
* **C37, C38, C51** `PrintSpec`: what a sequence of pieces should look like.
* **C39-C41** `EscapeSpec`: a decoder of escaped texts.
* **C42, C43** `XmlSpec`: element trees and the inductive relation between a text and the tree it denotes.
* **C44, C45** `ExpressionSpec`. **C46** `AnySpec`: histories of constructions and destructions.
* **C47-C49, C58** `FloatSpec`: IEEE-754 fields and values over exact rationals; decimal notation; error bounds in `Q`.
  The error of the binary powers is bounded by an induction over the table entries, each checked by computation.
* **C50, C57** `FileSpec`: the files opened and closed.
* **C59** `ServiceSpec`: TeamCity messages as a list of words; decoding is unique.
* **C60** `ConsoleSpec`: the lines shown for each event, without colours.
* **C61-C64, C66** `ProgramSpec`, `ProgramClaims`: whole programs. The theorems on parser, configuration, runs and
  reporters are composed; an invariant relates the registry to the state of its reporter.
* **C65** `TreeSpec`: numbers of starts and ends. Induction on the body, with the sections open before each pass.
* **C67** `MacroSpec`: each macro is given by the abstract checks it amounts to. The execution of the macro text is shown
  equal to that of its meaning, by induction on the test body; then C22 applies.
* **C68** `DeclareSpec`: the signatures that the compilers give, assumed. First occurrence of a text; a text without
  border has no earlier occurrence that overlaps it.
* **C69** `DeclareSpec`: the instances of a declaration. Induction on declarations and types.
* **C70** `DeclareSpec`: escaping. The tokens of an escaped text are its characters; C13 and C18 give the rest.
* **C71** `StopSpec`: what may follow a failure at a given line. Induction on the body, with no assumption on its form
  beyond "the checks at this line are of the REQUIRE family and not inside code that swallows their exception".
* **C72** `OperatorSpec`: precedence and associativity as a relation between what is written and its tree, shown to be a
  total function. The tree with `extractor <=` in front is the tree without it, with the extractor grafted on the path to
  its first operand; then overload resolution by cases.
* **C73** `SessionSpec`: the calls to the reporter as a function of the options and the events. Invariant on the registry
  through the options of the command line.
* **C74** `BareSpec`: relations between the events of the two builds. The two executions are run in lockstep, by induction on
  the body, then on the passes, then on the tests.
* **C75** `TimeSpec`: histories of entered and left blocks and of reports, with times. The model with times is shown to be the
  model without when the times are erased; an invariant relates the start times kept by the code to the blocks open in the
  history. **C76** `TimeSpec`: bounds on rounded quotients, by linear arithmetic.
* **C77** `ThrowingSpec`: the body with `throw` statements in place of what exceeds the limits. The two executions are run
  in lockstep; once the exception is thrown, the states differ only in what nothing reported depends on, until the end.
* **C78** `RegisterSpec`: what is kept and what is said. Induction on the list of registrations.
* **C79** `FunctionSpec`: the program in which each call is made directly. Invariant: references hold what they were last given.
* **C80** `UnwindingSpec`: the body with the code of the destructors at the end of the blocks. The functions of Model/Run.v are those
  of Model/Unwinding.v without exception in flight; with one, they are the same functions in a state where nothing, or something else,
  is held. Induction on the body for any relation that the steps respect. `AttemptSpec`: destructors with checks of all kinds; each
  concludes as `RunSpec.conclusion` says.
* **C81** `HelpSpec`: the help text, and one message for everything wrong with a command line. The same table of options as in C32;
  induction on the command line.
* **C82** `TagSpec`: cutting a string of any form into tags. Strong induction on the string; C12-C14 again for whatever it is read as.
* **C83** `CapacitySpec`: the arguments that have to be kept. A simulation between two capacities, and induction on the command line for the count; the separate pass for the colours keeps two at most. `Err Assert` stands for the end of the program: `cli::parse_arguments` is `noexcept` (include/snitch/snitch_cli.hpp:51), so an assertion handler that throws ends it too.
* **C84, C85** `UserCodeSpec`: code of the user as functions on the objects of the program, which return or throw; what becomes of a check. `Model/UserCode.v` threads these objects through the functions that build expressions and captures, with the `noexcept` declarations. For C84 also a matcher that records its calls.
* **C86** `EquivalenceSpec`: the documented rules, the least congruence on test bodies that contains a rule, events without the texts of expressions. By C67 the bodies are read as programs of `Model/Run.v`; erasing texts commutes with execution; for REQUIRE and CHECK, a simulation up to the first event that stops.
* **C87** `ValueSpec`: kinds of values, their texts as a relation (`shows`) built on the notations of C04, C05 and C58. `Model/Values.v`: the dispatch of `append` by kind, evaluation mode and configuration; cases, then induction over the list of values.
* **C88** `LastWordsSpec`: limits, messages, explanations. `Model/LastWords.v`: the execution of `Model/Run.v` with the reason of each failed assertion. A homomorphism to `Model/Run.v`; monotony of what is reported; then one induction over the body, in step with the same body under larger limits.
* **C89** `RequestSpec`: when two command lines ask for the same. No new model (`Model/Program.v`, `Model/Cli.v`). C32 gives the values of the options and the filters after parsing; `configure` and `run_tests` are shown to look at nothing else.
* **C90** `HistoryClaims`: histories of configurations and runs. No new model (`Model/Program.v`). The data of the default reporter are only used by listings, which begin by resetting them; what `configure` makes of colours and verbosity is shown to be idempotent for the reporters of the library. Command lines that are not complete do depend on the past (an example shows it for colours; C64 for reporters).
* **C91** `CompareSpec`: numbers of values, relations between them, the case in which the language misreads a negative number. `Model/Comparison.v`: `to_expression` with the overloads of `append`, promotions and conversions. The three appends are those of C87 on a list of three values; conversions by arithmetic modulo 2^w; texts of numbers have no space, so that a message can be read back.
* **C92** `SingleHeaderSpec`: inclusions in lines, the graph of inclusions, how files appear. `Model/SingleHeader.v`: the script. The functions for regular expressions are shown to be the specification of a leftmost match; the dictionary is closed under inclusion; success of the recursion bounds the chains of inclusions, which bounds the loop that orders the headers.
* **C93** `DisabledSpec`: source files with functions, tests and reporters; what remains without snitch. `Model/Disabled.v`: the expansions of the macros as C++ statements and declarations, and their execution. Induction on bodies and files.
* **C94** `NameSpec`: test bodies with objects that hold the names of sections, when an object exists. The model is `Model/Unwinding.v`. Invariant: the sections entered, and those kept for an exception in flight, have names that exist.
* **C95** `SerialiserSpec`: functions `append` of the user as a small language (calls in turn, by hand, other code given by what it does), the contract of the README. `Model/Serialiser.v`: their execution on strings, and the functions of the library that call them. Induction on functions.
* **C96** `StreamSpec`: streams with a device and a buffer, which the C library empties when it likes; processes that die. `Model/Streams.v`: programs of `Model/Program.v` as calls of the C library, with user code in between. Invariant: the buffer of the file is empty except between a write and the flush that follows it; induction over the calls. What each reporter wrote before is C106, C107 and C108, applied to the events before the death.
* **C97** `OrderSpec`: numbers with infinities, what a text is read as. `Model/FloatText.v`. Within one power of two, a larger number has larger digits because neighbours differ by more than the errors of the additions, and the final multiplication and the rounding are monotonic; at each of the 2046 + 254 boundaries, the largest number below and the smallest number above are computed and compared. Checks: `Model/Comparison.v`.
* **C98** `CostSpec`: wildcards of a pattern. `Model/Cost.v`: `is_match` with a count of iterations and the depth of recursive calls. Induction on the pattern; for the lower bound, patterns `*a*a...b` and names `aa...`.
* **C99** `ShardSpec`: exactly one of several selections. No new model. The part of each test in the events of a run (C18) is that of the test run alone; a permutation argument for the outcomes; the success and the exit code depend only on whether one of the tests chosen fails.
* **C100** `ShardSpec`: filters in one piece. No new model. From C13 (the selection is the documented one) and the splitting of filters: what happens to escapes when `~` is put before a filter and when two filters are joined.
* **C101** `LimitClaims`: the order of limits. No new model. Each function that uses a limit either fails an assertion or does the same with a larger one, lifted through the filters, a run of a test, the selection, the options and `main`. Lengths of messages and captures are not included: these texts are cut.
* **C102** No new model or specification. A run of `main` is the run at the highest verbosity of the tests that the filters select, with the events that the verbosity admits: that run does not depend on the other options. Texts of the console reporter by C61.
* **C103** No new model. `Spec/LinkClaims.v` says what it means that two programs differ in the order of the tests, and that two lists of events differ in the order of the tests. Tests are run independently of each other (C18), and totals are sums: permutations. For texts, each reporter of the library is shown to be in the same state after a test as before it, up to what it does not use in a run (a counter of the console reporter); for the XML reporter only if no section is left open. Findings: `--list-tags` and the indentation in XML depend on the order.
* **C104** No new model. `Spec/LinkClaims.v` says what it means that a program has the tests of another and more. The tests of a registry are used only by the loop over them, and each is run independently of the others (C18): the events of the smaller program are those of the larger one, filtered. Texts as for C103: a beginning, a text for each test and an end for each summary are fixed before the tests of the program are. Finding: the indentation in XML, as in C103.
* **C105** No new model. `Spec/FailureSpec.v` says how each reporter shows a failed check, `Spec/FailureClaims.v` what it means that a run shows all of them. A test ends as failed exactly if one of its events says so (C19), such events are visible at every verbosity, and the report is cut into one text for each event, by induction on the events with the state of the reporter as invariant. The texts of C60, C59 and C42 suppose that all names and messages fit in the buffers; here only the beginning of the text and the line with the place are needed, which are printed whole in any case. The console and TeamCity reporters need buffers of 32 characters (the default is 1024) for the word and the number of the line.
* **C106** No new model. `Spec/CutSpec.v` says what is printed of an argument that is too long (`squeezed`), and of an event (`cut_text`, `cut_listing`): the texts of C60 with each coloured text and number cut. Proved for the function that appends to the buffer or flushes it, from any buffer, then by induction on the arguments, for each event, and for whole programs. This is C37, C60 and C62 without the hypothesis that texts fit. The sequence that ends a colour can be cut too, as found for C38.
* **C107** No new model. `Spec/CutServiceSpec.v` says what is printed of a value (`cut_field`: the encoded text, or what C07 says is left of it) and of an event. The buffers in which names and filters are put together are truncated step by step; this is the same as truncating the whole text (`fit_more`). Proved for each event, by induction on the events, and for whole programs. This is C59 without the hypothesis that texts fit.
* **C108** No new model. `Spec/CutXmlSpec.v` gives the lines of an event and how lines are drawn. Each part of the reporter is shown to draw its lines from any number of open elements if it does not fail; these facts are combined along the reporter and the events. This is C42 without the hypothesis that texts fit. Finding: the message of a skipped test is not encoded (C42).
* **C109** No new model. `Spec/ListingSpec.v` says which command lines ask for a list and which tests are in it, `Spec/ListingClaims.v` the same for a registry. The events of such a program are computed from the options that the parser finds; what each reporter makes of them is C106, C107 and C108. That bodies are irrelevant is an equality of whole programs: each step before the choice of what to do ignores the tests, and the listings use only their identities and lines. Completion is C66 for the program with empty bodies.
* **C110** No new model. `Spec/WarningSpec.v` says which warnings there are for what a command line says; `warned` and `report_goes` in `Spec/ProgramClaims.v` say where they and the report go. All the theorems about whole programs (C62, C63, C102-C109) are stated with this `report_goes`, so that they say exactly what precedes the report. The proof follows the steps of the configuration: each prints its warning or nothing, and the parser prints what C81 says. What a user's reporter says when it starts or is given options is not constrained.
* **C111** No new model. `first_asked` in `Spec/ActionSpec.v` says which answer is given if a command line asks for several; the texts are those of C52 and C81. Proved from the inversion of `main_program`, with the warnings of C110. The part on `--list-tags` is about suites whose tags C52 covers (finding 15).
* **C112** No new model. Two runs with the same filters and verbosity have the same events (from the proofs of C102); their texts with and without colours are compared as in C60, and those of the XML and TeamCity reporters are functions of the events alone (C107, C108). Durations, which no two runs share, are the same function of events in both.
* **C113** No new model. The reporter that is started raises the verbosity to high (C61), so the events of two runs with the same filters are the same unless one asks for full; then the texts are the same (C107, C108).
* **C114** `AboutSpec`: which events and which lines may be about a test. No new model: invariant of the run (as for C19-C21), then the texts of C107 and C108.
* **C115** No new model. `Spec/EndingSpec.v` says how a report ends, from what was reported for each test, and `Spec/EndingClaims.v` what this means for a program. The last event has the sums over the tests (C18); the text for it needs only that numbers and the duration fit, whatever the other texts, so the pieces of the report are taken one by one as in C105. Finding 22 (skipped tests are counted as successes in XML) is part of the statement.

Words used for test bodies (`Spec/RunSpec.v`, `Spec/TreeSpec.v`): a body is `regular` if neither the code
evaluated by its checks nor its `try` blocks open sections (they may contain checks, skips and captures), and its
handlers call `notify_exception_handled()`; `plain` if besides it runs to its end;
`nesting`, `capturing` and `scopes` are the numbers of sections, captures and locations open at once.

## Findings

Where the statement a user would expect is false of the code, a theorem `..._refuted` gives the witness and a theorem
`..._partial` the part that holds.

1. `replace_all` that overflows: for patterns of two characters or more, the last characters may be wrong (C07). With
   an empty pattern it never returns (C08).
2. `SKIP` after a failed `CHECK` leaves the test failed, though the documentation says a skip overrides (C21).
3. A section left by an abort may get no end event, or end after its parent (C24).
4. A test whose remaining sections are not reached in a later pass runs for ever (C56). This can happen even if the test does
   exactly the same in every pass: a section that threw is passed over in the next pass, so that code after it is reached
   that was not reached before, and may throw (`C56_steady_refuted`).
5. `CAPTURE` splits its arguments at commas within braces, brackets and template arguments; digit separators count as
   character literals, and an escaped quote ends a literal (C29).
6. Reporter options: with two options or more the first is ignored, the next ones are cut at the length of the option before or read with part of what follows, and the last is read as it is (C34, exact: `C34_any_options_partial`, `C34_right_partial`).
7. `--color` and `--colour-mode`: messages of the command-line parser and the run disagree when both are given (C35). They
   also disagree with `--out` when neither asks for anything and colours are on by default (`C35_agree_partial`).
8. The colour reset sequence can be cut or overwritten by dots, so that the rest of the terminal stays coloured (C38).
9. XML and TeamCity escaping stop at the first overflow: later characters stay raw, earlier entities can be cut (C40).
10. XML: messages of `SKIP` are not escaped; aborted tests may leave elements open (C42).
11. Counters of a section that contains sections are those of its last pass only (C43).
12. `CHECK(nan < 1)` is reported as `nan >= 1` (C44).
13. `unsigned_fixed::operator+` is wrong when the first operand has the larger exponent: 1 + 0.125 is 1.0125. It wraps
    around for digits near 2^64. A product of zero and a number with a negative exponent overflows (C48). None of this
    is reached when printing.
14. A path of `max_path_length + 1` characters is not null-terminated (C50).
15. `--list-tags` reads a destroyed buffer for tests with a tag such as `[.x]`, unless the tag `[x]` itself comes before it (C52).
16. Two reporters of the same name: the second cannot be selected (C54).
17. Printing through the registry after a run with `--out` uses a destroyed object (C57).
18. TeamCity: section names and descriptions are not escaped (C59). The messages start with `##teamCity[` where
    TeamCity documents `##teamcity[`.
19. A storage moved onto itself loses its object (C46). `resize` upwards exposes stale elements (C01).
20. `--list-tests` without a filter lists hidden tests too (C17).
21. A test tagged both `[!mayfail]` and `[!shouldfail]` that passes ends as an allowed failure (C20).
22. `OverallResultsCases` counts skipped tests as successes (C43). The flags of `test_case_ended` that tell whether a
    failure is expected are never set.
23. Without `std::bit_cast`, the sign of -0.0 and the payload of a NaN are lost (C47). By default the double 1 and the
    next one are printed alike (C58).
24. A second run of the same registry with a reporter registered as a type is a failed assertion: the first run has
    destroyed the reporter (C64).
25. A test that catches the exceptions of its own sections may get two ends for one section; with the XML reporter the
    depth of the document then wraps around (C65).
26. `--reporter console::color=always` colours the report but not the messages of the parser (C35).
27. The name of a type is cut at the first `]` (Clang), `; ` (GCC) or `>(void)` (MSVC) in it: with Clang, `int[3]` is
    named `int[3` and so is `int[3][4]` (C68).
28. `TEMPLATE_TEST_CASE_METHOD` and `TEMPLATE_LIST_TEST_CASE_METHOD` contain a lambda `[]() < typename TestType > {...}`,
    which is not valid C++20 (the template parameters come before `()`), and no test uses them. Found by reading. The
    model treats them as intended (C69).
29. A check whose expression itself runs checks is reported with the location type of the inner code ("in check"), not
    as exact (C26).
30. A check inside the expression of a check, inside `max_nested_sections` sections, is a failed assertion: the stack of
    locations has only two more places than that of sections (C25).
31. A failing `REQUIRE` inside a function called in `CHECK_NOTHROW` or `CHECK_THROWS_AS` does not stop the test: its
    exception is caught as any other (C71).
32. A handler around a section without `notify_exception_handled()` makes the section end twice even if nothing is thrown
    afterwards; the README says that leaving it out matters only for a later exception (C65).
33. An expression with a `?:` at its top, or a comma whose first part is neither a single value nor a
    comparison (`CHECK(a && b, c)`), is refused by the compiler although it is a valid condition: `invalid_expression`
    declares no such operator and converts to no `bool` (C72).
34. Without exceptions, each test counts one assertion less, and the location of a failure is always given as exact,
    which is not so with exceptions when the check contains other checks (29) (C74).
35. `small_vector::push_back(ElemType&&)` copies its argument (it assigns the named parameter). Found by reading.
36. The duration of a section is that of its last pass only (`snitch_test_data.hpp:59` says: since it was first entered); if it is
    left by an exception that the test catches, its duration goes on until the next check or section (C75).
37. The TeamCity reporter gives durations in microseconds; TeamCity reads them as milliseconds (C76).
38. With a handler of failed assertions that throws: if a test catches the exception of a section nested too deep, the depth is
    one too small afterwards (`operator bool` throws before it counts the section, the destructor counts it off). Two innermost
    sections then run in one pass, or later sections that are not nested fail as nested too deep (C77).
39. With such a handler, the values of a `CAPTURE` of which only the first fit stay captured until the end of the test: they
    are shown by later checks, and in the report that a test failed as expected (C77).
40. With such a handler, a test whose name is too long stays registered although its registration failed, and uses up a place
    (C78). Two of the messages printed have their final dot after the line feed (`snitch_registry.cpp:324`, `372`).
41. Checks in a destructor executed because of an exception are all reported at the line of the first of them, or at that of the
    `REQUIRE` that failed, with the sections and captures of that place; the exception itself is then reported as thrown in the
    first check of the destructor. A section in such a destructor may be reported as started and never as ended (C80).
42. Mistyped tags are not all refused: any string with both brackets is accepted, and cut only at `][`. `"[a] [b]"` is one tag,
    which the filters `[a]` and `[b]` do not match, `"[.a] [b]"` hides the test, and `"[!mayfail] "` is not `[!mayfail]` (C82).
43. An exception thrown by a matcher in `CHECK_THAT` (or compared with `==`), or by a user-defined `append`, ends the program
    instead of failing the test: `impl::match`, `operator==`, `append_value` and `append_or_truncate` are `noexcept` (C85).
44. `CHECK_THAT(e, m)` and `CHECK(e == m)`, documented as equivalent, have the same verdict but not the same texts: the first shows
    the description of the matcher also on success, and cuts a long one, the second leaves a long one out (C86).
45. An array of characters is shown without its last character, whatever it is, and beyond a terminator inside of it: `char a[2] = {'h', 'i'}`
    is shown as `h`. Characters are shown as numbers, a `char*` (not `const`) as an address, and integers of more than 64 bits, where
    the implementation counts them as integral, modulo 2^64 (C87).
46. A check within checks within sections can exceed the room for locations, which is `SNITCH_MAX_NESTED_SECTIONS` plus 2. The message
    is then only "small vector is full": it does not name the option, unlike the messages for sections and captures (C88).
    These, and some of C78, end with a line feed and a full stop in this order.
47. Checks compare integers as the language does, and show the operator that holds after conversion: `CHECK(-1 < 1u)` fails and shows
    `-1 >= 1` (C91).
48. `make_snitch_all.py` looks up the names of inclusions among full paths, and never finds them: it visits headers as often as they are
    included, and on circular inclusions ends with a RecursionError, never with "Circular include pattern detected" (C92).
49. It finds inclusions anywhere in a line but removes only those that begin a line, and takes each path with `.cpp` in it, directories
    included, for a source (C92).
50. With `SNITCH_ENABLE` set to 0, files with `TEMPLATE_LIST_TEST_CASE`, `TEMPLATE_TEST_CASE_METHOD` or `TEMPLATE_LIST_TEST_CASE_METHOD` do not
    compile: these expand to a statement outside functions (C93). A `main()` of the user as in the README does not link: `snitch::tests` is
    declared but not defined.
51. Sections keep only a view of their names. If an exception or a failed `REQUIRE` leaves the block of a string that names a section, the
    report of the exception, or of the end of the section, reads the string after its destruction. A temporary name,
    `SECTION(std::string("..."))`, is destroyed even before the section is entered (C94).
52. The README says that texts that are too long are indicated by `...`. Not in checks: there, nothing is shown. With a function `append`
    by hand, as in the README, the dots can be in the middle: the description of `is_any_of{a}` for a value that is too long is
    `'...'a'}` (C95).
53. The output file is flushed after each text, `stdout` never. If a test kills the program, or a failed assertion of the library does, and `stdout`
    is buffered (it is when redirected to a file or a pipe, as in most continuous integration), the report may be lost, together with the
    library's own message `terminate called with message: ...`: `std::abort` flushes nothing (C96).
54. If the output file cannot be written (disk full), nothing tells: the results of `std::fwrite` and `std::fflush` are ignored, and the
    exit code is that of the tests (C96).
55. Comparisons of a `float` with a `double` can be shown the wrong way round, because each is shown with the digits of its type:
    `CONSTEVAL_CHECK(0.1f <= 0.1000000005)` fails with `1.000000e-01 > 1.000000005000000e-01` (C97).
56. A filter with many wildcards can take forever: matching `*a*a*a...*ab` (81 characters) with a name of 80 letters `a` takes more than 2^40
    iterations, because `is_match` tries all ways to distribute the name over the wildcards (C98).
57. `~` before several filters negates the first only: `[a][b]` and `~[a][b]` both leave out a test with the tag `[a]` alone, and `a,b` and
    `~a,b` both select the test `b`, which would then run twice if a suite is divided in this way (C100).
58. `--list-tags` writes each tag with two pairs of brackets, `[[tag]]`: the tags already have theirs, and `list_all_tags` adds another (C52,
    C111). The tests of the project look for `[tag]` as a substring, which is there.
59. A command line that is refused prints the help with the path of the program as it was called, `--help` prints it with the bare name (C111).


## Validation of the model

The project cannot be built here, but its tests state what it does. The model is run on them by `vm_compute`; these are
`Example`s on literals, hence tests of the model's faithfulness, not properties.

* `Properties/Approval.v` (generated by `tools/approval.py`; test bodies in `Proofs/ApprovalTests.v`): for each of the 19
  files of `/repo/tests/approval_tests/data/expected` the output of the modelled program (console with and without colour,
  XML, TeamCity; default, full and listing runs) equals the file byte for byte. Line numbers, durations, versions and
  paths are masked as the project does.
* `Properties/RuntimeTests.v` (generated by `tools/runtime.py`): 504 checks of `tests/runtime_tests/string_utility.cpp`.
* `Proofs/RuntimeRuns.v`: checks of `section.cpp`, `capture.cpp`, `registry.cpp`, `cli.cpp`, `matchers.cpp`, `skip.cpp`
  and `check.cpp` of the same directory.

No difference was found. The generators read `/repo` and are not part of the build; the generated files are committed.

## Tests of the theorems against wrong programs

`tools/mutate.py` applies an edit to a scratch copy of the model and rebuilds it. It admits the proofs that break and
lists the property theorems that depend on them. `seeded/LOG.jsonl` has one line per edit.

## Trusted base

* Coq's kernel (8.16.1); `coqc`, `coqchk`.
* The faithfulness of the model to the C++ text, which the line citations are meant to make checkable, and the
  simplifications named in the comments.
* `Print Assumptions` says "Closed under the global context" for every theorem listed in `MANIFEST.json`: no axiom is
  used, not even of the standard library. (`coqchk` lists seven axioms of `Coq.ssr.ssrunder`, a file of the standard
  library that is loaded but on which no theorem depends.)
