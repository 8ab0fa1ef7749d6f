{
 "C07": {
  "note": "False as stated for patterns of two or more characters (witness). Proved: exact for one-character patterns; in general all but the last |pattern|-1 characters are right, returns false, buffer full."
 },
 "C08": {
  "note": "False for the empty pattern (never returns, proved for every input). Proved for every non-empty pattern, with a bound on the number of replacements."
 },
 "C52": {
  "note": "Exact: the list is right if and only if each shortcut '[.x]' comes after the tag '[x]' itself. Otherwise (C52_shortcuts_refuted) no list is printed: a destroyed local buffer is read, or an assertion fails."
 },
 "C21": {
  "status": "partial",
  "note": "Proved: state, counters, silence and no further pass after a skip without earlier failure (all bodies). The documented 'a skip overrides any earlier status' is refuted (CHECK failure then SKIP ends failed)."
 },
 "C24": {
  "status": "partial",
  "note": "Refuted (sections left without end event; sections ended out of order). Proved exactly (C24_events): the events are those of a beginning of the complete depth-first walk, then the ends of the sections the exception leaves; they are well nested if and only if these are all the sections open there. Always so when no section contains two sections side by side."
 },
 "C25": {
  "note": "No failed assertion within the limits and no other error at all: every body. Beyond the limits (sections, captures, or a check inside a check inside the innermost section) the assertion fails: bodies that run to their end."
 },
 "C56": {
  "status": "partial",
  "note": "Refuted for bodies whose remaining sections are not reached in a later pass (endless loop, proved for every number of passes), even if they do the same in every pass (C56_steady_refuted). Proved for all regular bodies, and for bodies with sections inside try blocks and checks when exceptions that leave a section leave the test and all passes go through the same sections (C56_in_try_partial)."
 },
 "C38": {
  "status": "partial",
  "note": "Refuted: the end sequence is cut when the text fits and the sequence does not, and cli::print can overwrite it with dots (every message length >= 12). Proved: the exact result for every buffer, text and sequences."
 },
 "C34": {
  "status": "partial",
  "note": "Refuted for two or more options (witness: a=1::b=2 configures b twice, a never). Proved: what any number of options, well formed or not, amounts to (C34_any_options_partial), and that this is right iff there is at most one option or twice the same (C34_right_partial); unknown names change nothing."
 },
 "C35": {
  "status": "partial",
  "note": "Refuted when --color and --colour-mode are both given and disagree, and with --out. Which colours are used is proved exactly for every accepted command line, for reporters that leave the colours alone."
 },
 "C50": {
  "status": "partial",
  "note": "Handles: proved for every sequence of operations. Path: refuted for the length max_path_length+1 (no terminator), proved for every other length."
 },
 "C54": {
  "status": "partial",
  "note": "Registration fully proved. Selection by exact name proved unless an earlier reporter has the same name (witness)."
 },
 "C57": {
  "status": "proved",
  "note": "Proved for main. Additional finding: printing through the registry after such a run uses a destroyed object (C57_print_after_run_refuted)."
 },
 "C40": {
  "status": "partial",
  "note": "Refuted for every capacity of at least 8 characters (a raw '<' is left; an entity is cut). Proved: the exact result for every text and capacity; safe for texts with one kind of special character."
 },
 "C29": {
  "status": "partial",
  "note": "Refuted for digit separators, escaped quotes and commas in braces or between template arguments. Proved for arguments made of plain text, literals without escaped quotes and balanced parentheses."
 },
 "C42": {
  "status": "partial",
  "note": "Proved: the report of every run of tests whose events are properly nested (C24) is a document for the exact element tree describing the run, and ends at level 0, provided the escaped texts fit and SKIP messages have no special character; same for listings. For all tests and texts the level at the end is the number of sections started and not ended (C42_level). Refuted without these: SKIP messages are printed raw, and aborted tests may leave elements open. The exact output without any condition on texts and nesting is C108."
 },
 "C43": {
  "status": "partial",
  "note": "Proved for every run: no subtraction wraps; summary numbers are the numbers of succeeded assertions and of tests ended with success or skipped. Refuted for sections containing other sections: their counters are those of the last pass only."
 },
 "C44": {
  "status": "partial",
  "note": "Proved: verdict, expanded text (kept iff it fits), unary and opaque expressions, for every operand and expectation. The operator claim is proved for operands that are comparable and refuted otherwise (CHECK(nan < 1) prints 'nan >= 1')."
 },
 "C45": {
  "status": "proved",
  "note": "Every text, pattern, list of alternatives and buffer; == and != of a matcher agree with the verdict."
 },
 "C46": {
  "status": "proved",
  "note": "Every sequence of operations on existing storages, with constructors that may throw. Documents that a storage moved onto itself loses its object."
 },
 "C47": {
  "status": "proved",
  "note": "Every 32- and 64-bit pattern, with std::bit_cast; without it the same fields except for the sign of -0.0 and the sign/payload of a NaN (stated exactly)."
 },
 "C48": {
  "status": "partial",
  "note": "Proved for the operands the library adds and multiplies (normalised digits below 2^64-5, smaller exponent first), with relative errors 6e-18 and 4.5e-17. Refuted in general: operator+ is wrong when the first operand has the larger exponent (1 + 0.125 = 1.0125), digits near 2^64 wrap around, zero times a negative exponent overflows."
 },
 "C49": {
  "status": "proved",
  "note": "Every finite float and double, every precision of at least 1, every remaining capacity; rounding of the digits to nearest even."
 },
 "C58": {
  "status": "proved",
  "note": "Every finite float and double, every precision of at least 1: error at most half a unit of the last digit plus 0.48 units of the 16th digit; exact when 16 digits suffice. With std::to_chars only the copying is modelled, the text is a parameter."
 },
 "C59": {
  "status": "partial",
  "note": "Refuted as stated: names and descriptions of sections (and macro names) are not escaped, so that a section named it's gives a line that is no message (C59_refuted). Proved in full when these have no special character and the escaped texts fit; uniqueness of decoding and totality hold without condition. The exact output without any condition is C107."
 },
 "C60": {
  "status": "proved",
  "note": "Texts in colour and numbers must fit in max_message_length, full names in max_test_name_length; what is printed otherwise is C106."
 },
 "C63": {
  "status": "partial",
  "note": "Proved for XML when tests leave no section open and texts are such that escaping works (see C42), for TeamCity when texts fit and section names need no escape (see C59). The exact output in general is C107 and C108."
 },
 "C64": {
  "status": "partial",
  "note": "Proved for whole programs (one configuration, one run). Refuted for a second run of the same registry with a reporter registered as a type: the object has been destroyed and the report is a failed assertion."
 },
 "C65": {
  "status": "partial",
  "note": "Refuted when a test catches the exceptions of its own sections: a section ends twice, and the depth of the XML report wraps around; also without a later exception if notify_exception_handled is left out. Proved for all regular bodies, and for bodies with sections inside try blocks and checks when no exception leaves a section and handlers notify."
 },
 "C68": {
  "status": "partial",
  "note": "Exact if and only if the spelling does not contain the compiler's end marker; otherwise cut there. Refuted in general, for each compiler (two types with the same wrong name)."
 },
 "C26": {
  "note": "Sections and captures: proved for every plain body, including checks within the code of other checks. The place is exact unless the check contains other checks or sections before its verdict (C26_exact_place_refuted)."
 },
 "C71": {
  "status": "partial",
  "note": "Refuted for a REQUIRE inside code evaluated by a check on exceptions (CHECK_NOTHROW swallows the abort). Proved for every other body: also irregular ones, any configuration, any pass."
 },
 "C75": {
  "status": "partial",
  "note": "Proved for every clock and all test programs as stated. What a user would also expect of the duration of a section is refuted: it covers only the last pass through the section, and, when the section is left by an exception caught in the test, also the time until the next check."
 },
 "C76": {
  "status": "partial",
  "note": "Seconds: proved for every rounding. TeamCity: proved to be microseconds, so refuted as milliseconds."
 },
 "C77": {
  "status": "partial",
  "note": "Proved for every body that does not catch the exception of the handler (and, if tagged [!shouldfail], has one value per CAPTURE). Refuted otherwise: the exception leaves the depth of sections off by one and the values of a CAPTURE that did not fit in place."
 },
 "C78": {
  "status": "partial",
  "note": "Proved for reporters, and for tests whose names fit. Refuted for tests with a name that is too long: they stay registered. What is printed is proved for every failure (when messages may have 40 characters)."
 },
 "C80": {
  "status": "partial",
  "note": "Proved: what is executed, the counters, the final state, the limits and when the program ends, for every body and every exception; everything reported when no exception leaves the blocks of the objects. Refuted for the places reported when one does: the checks of a destructor are then reported at the line of its first check or of the REQUIRE that failed, the exception as thrown in a check, and sections may never end."
 },
 "C82": {
  "status": "proved",
  "note": "That every mistyped string is refused is not claimed, and refuted (C82_mistyped_refuted)."
 },
 "C83": {
  "status": "proved",
  "note": "The library cannot be compiled with a maximum below 32 (its table of options has the same capacity); the theorems cover all maxima from 2. The messages printed before the assertion are not stated."
 },
 "C84": {
  "status": "proved",
  "note": "C84_that and C84_throws: verdict, text and state from one call of match and one of describe_match, in this order, for matchers with any state. C84_*_calls: the calls as recorded by the matcher itself, for the three ways of using it. C84_keeper_*: a matcher that describes only what it saved. The run-time evaluation of CONSTEXPR_CHECK_THAT uses the same functions, with another matcher object for the compile-time one."
 },
 "C85": {
  "status": "proved",
  "note": "C85_condition: what becomes of CHECK and its variants, for code that changes any state and may throw. C85_left: an exception that leaves the check is like one thrown by the operands (C20, C67). C85_quiet: for code that does neither, this is the model of C67. C85_info, C85_capture, C85_full: captures. For CHECK_THAT and CHECK_THROWS_MATCHES see C84_that, C84_throws."
 },
 "C86": {
  "status": "proved",
  "note": "C86_capture: equal runs. C86_check: equal but for the texts of expressions (the examples show that the texts do differ). C86_evaluation: equal but for macro names. C86_until, C86_no_failure: REQUIRE and CHECK. Bodies are `proper` as in C67."
 },
 "C88": {
  "status": "partial",
  "note": "C88_same_outcome ties the model with last words to the one of C19-C28. C88_words_partial: the limit named is exceeded; the explanation is as claimed for sections and captures. Not for the number of sections and checks that are open together: the message is then \"small vector is full\", with no explanation (C88_words_refuted). C88_until: what larger limits give."
 },
 "C91": {
  "status": "partial",
  "note": "Proved: what is shown for all values of built-in types; for booleans, integers and enumerators the verdict, the truth of what is shown, and that it identifies the values, unless a negative number meets an unsigned type that is not narrower. There the exact meaning is given (C91_misread), and the truth of what is shown is refuted: CHECK(-1 < 1u) fails and shows '-1 >= 1'."
 },
 "C92": {
  "status": "partial",
  "note": "Proved for absolute directories: contents, order, completeness, uniqueness; success when files exist and chains of inclusions are not longer than the recursion limit; failure on circular inclusions. Refuted: they are never reported as circular (the recursion limit is hit first); an inclusion that does not begin its line is left in the result; a project directory with '.cpp' in its name has all its headers guarded."
 },
 "C93": {
  "status": "partial",
  "note": "The full claim is false of the code (C93_refuted): three of the macros for templates are not accepted by the compiler when snitch is disabled. Everything else is proved for every file."
 },
 "C94": {
  "status": "partial",
  "note": "The full claim is false of the code (C94_refuted: an exception leaves the block of the name; C94_temporary: a temporary name). Proved where no exception leaves the block of a name, handlers notify, and sections in destructors have literals as names. Covers names of sections only, not those of tests."
 },
 "C95": {
  "status": "partial",
  "note": "The full claim is false of the code: a text too long is not shown at all in checks (C95_check_refuted), and dots can be in the middle of descriptions of alternatives (C95_any_of_refuted). Everything else is proved for every function that meets the contract. Exceptions of such functions are in C85; type checking (which types have such a function) is not modelled."
 },
 "C96": {
  "status": "partial",
  "note": "Proved for the output file at every point of death (with each reporter and texts of any length: C96_reports), for programs that end by themselves, and for what of the console can be relied on. The claims about the console and about reports that cannot be written are false of the code: stdout is never flushed, so nothing may be left of it, not even the message of terminate_with (C96_console_refuted); the results of fwrite and fflush are not looked at (C96_full_disk_refuted)."
 },
 "C97": {
  "status": "proved",
  "note": "Proved for all floats and doubles but NaN, which is not ordered. Operands of different types are printed with different numbers of digits, and can be shown the wrong way round (C97_types_refuted). At run time with std::to_chars the texts are those of the standard library, which is not modelled."
 },
 "C98": {
  "status": "partial",
  "note": "The full claim is false of the code: the cost is exponential in the number of wildcards (C98_cost_refuted). Proved: the bound (1 + |pattern|) * (1 + |name|)^wildcards, hence a product of lengths for patterns with one wildcard, and a depth of at most the number of wildcards, which is reached."
 },
 "C99": {
  "status": "proved",
  "note": "The outcomes are stated for the runs themselves (run_selected_tests) at the highest verbosity, the exit codes for whole programs and any command lines. The model has no time and no data shared between tests other than the registry: tests that change what other tests see are outside."
 },
 "C100": {
  "status": "partial",
  "note": "The full claim is false of the code: ~ applies to the first of several tags or of several comma-separated filters only (C100_negation_refuted), and a filter given as a further argument can select a hidden test that was not selected before (C100_arguments_refuted). Proved: negation of filters in one piece, commas for all filters (without dangling backslash), several arguments for tests that are not hidden."
 },
 "C101": {
  "status": "partial",
  "note": "Events, exit code and all texts (C101_events, C101_texts) for all the limits that are not lengths of cut texts. False for the limits on messages and captures, whose texts are longer with larger limits (C101_lengths_refuted), and for the limit on names of tests with the XML reporter, which cuts names after escaping them (C101_xml_names_refuted)."
 },
 "C102": {
  "status": "proved",
  "note": "Events and exit codes for all reporters (C102_events); completion if the reporters start and the output file can be opened (C102_completes); texts for the console reporter (C102_texts). The XML and TeamCity reporters raise the verbosity to high (C61)."
 },
 "C103": {
  "status": "partial",
  "note": "Registration, events, totals and exit codes for every command line without --list-tags (C103_registered, C103_events). Two parts are false: --list-tags may read a destroyed buffer in one order and not in another (C103_tags_refuted; what holds if both complete: C103_tags_partial), and XML reports are indented differently after an aborted section (C103_xml_refuted; what holds: C103_texts_partial, for all three reporters of the library)."
 },
 "C104": {
  "status": "partial",
  "note": "Proved for all events, totals and exit codes of runs, and for the texts of the console and TeamCity reporters, and of the XML reporter if no section is left open (C104_unselected, C104_added, C104_completes, C104_texts_partial). False for XML after an aborted section: the indentation of the tests after it changes (C104_xml_refuted)."
 }
}