{"id": "C01", "title": "Fixed-capacity vector behaves as a bounded list", "statement": "After any sequence of push_back, pop_back, clear, resize, grow, operator[] and back on a small_vector of capacity N, the visible elements are those of an ordinary list subjected to the same operations, the size never exceeds N, and the library reports a failed assertion exactly when the operation's documented 'Requires' clause is violated (full on push, empty on pop/back, index out of range, resize/grow past capacity). A small_vector made from a braced list holds exactly that list when it has at most N elements, and fails an assertion otherwise.", "quantifier": "every element type, capacity, initial buffer content and finite sequence of operations", "why_tests_cant": "A unit test exercises a few sequences on a few capacities; the claim is about all operation histories and capacities, including stale buffer contents left by earlier elements.", "anchors": ["include/snitch/snitch_vector.hpp: small_vector_span, small_vector", "include/snitch/snitch_string.hpp: small_string"]}
{"id": "C02", "title": "append(string) keeps the longest prefix that fits and says whether all of it fitted", "statement": "append(ss, str) leaves the old content of ss in place, followed by the longest prefix of str that fits in the remaining capacity; it returns true exactly when all of str fitted, never fails an assertion, and the constexpr and run-time implementations agree.", "quantifier": "every capacity, every content of ss, every string", "why_tests_cant": "The boundary is at every remaining length, for every content; tests sample a handful of lengths.", "anchors": ["src/snitch_append.cpp: append_fast(std::string_view)", "include/snitch/snitch_append.hpp: append_constexpr(std::string_view), append"]}
{"id": "C03", "title": "append of several values and append_or_truncate", "statement": "append(ss, a1..an) of strings leaves the longest prefix of old+a1+...+an that fits and returns true iff everything fitted; append_or_truncate leaves the whole text when it fits, and otherwise exactly fills the buffer with the first capacity-3 characters of the full text followed by '...' (only dots when the capacity is below 3).", "quantifier": "every capacity, content and finite list of string arguments", "why_tests_cant": "Truncation interacts with every possible split of the text between arguments.", "anchors": ["include/snitch/snitch_append.hpp: append(small_string_span, Args...)", "include/snitch/snitch_string_utility.hpp: append_or_truncate, truncate_end, resize_or_truncate"]}
{"id": "C04", "title": "Integers are printed in decimal exactly", "statement": "Appending any signed or unsigned 64-bit integer to an empty-enough buffer appends its canonical decimal representation: parsing the text back yields the integer, no superfluous zeros or '+' sign, '-' only for negatives (including the most negative value). When it does not fit, the return value is false and the longest prefix that fits is kept.", "quantifier": "every 64-bit signed and unsigned integer, every remaining capacity", "why_tests_cant": "2^64 values times every remaining capacity; includes INT64_MIN where negation overflows.", "anchors": ["include/snitch/snitch_append.hpp: append_constexpr(integral), num_digits, digits", "src/snitch_append.cpp: append_to"]}
{"id": "C05", "title": "Pointers are printed as fixed-width hexadecimal", "statement": "Appending a non-null pointer appends '0x' followed by exactly 16 lower-case hexadecimal digits that denote the address; a null pointer prints 'nullptr'.", "quantifier": "every 64-bit address and remaining capacity", "why_tests_cant": "All 2^64 addresses; padding depends on the number of digits.", "anchors": ["src/snitch_append.cpp: append_fast(const void*)"]}
{"id": "C06", "title": "replace_all performs the textbook replacement whenever the result fits", "statement": "For a non-empty pattern, if the result of replacing every non-overlapping occurrence (scanning left to right) fits the capacity at every step, replace_all leaves exactly that result in the buffer; for replacements no longer than the pattern it always does and returns true. replace_all returns true exactly when the replaced text fitted.", "quantifier": "every capacity, content, non-empty pattern and replacement", "why_tests_cant": "Quantifies over all texts, patterns and overlaps between the replacement and the following text.", "anchors": ["src/snitch_string_utility.cpp: replace_all, replace_same_size, replace_smaller, replace_larger"]}
{"id": "C07", "title": "replace_all on overflow keeps a prefix of the fully replaced text", "statement": "When the fully replaced text does not fit, replace_all returns false and leaves the longest prefix of the fully replaced text that fits.", "quantifier": "every capacity, content, pattern and replacement longer than the pattern", "why_tests_cant": "Depends on where the capacity boundary falls inside each occurrence.", "anchors": ["src/snitch_string_utility.cpp: replace_all, replace_larger"]}
{"id": "C08", "title": "replace_all terminates", "statement": "replace_all terminates for every input.", "quantifier": "every capacity, content, pattern and replacement (empty pattern included)", "why_tests_cant": "Termination on all inputs is not observable by a finite set of terminating tests.", "anchors": ["src/snitch_string_utility.cpp: replace_all"]}
{"id": "C09", "title": "Escaping a single character never emits a half-written escape", "statement": "escape_all_or_truncate with a one-character pattern: if the escaped text fits, the result is exactly the escaped text and the call returns true; otherwise it returns false and the result is the escape of some prefix of the original text followed by '...', never containing part of an escape sequence, and never longer than the capacity.", "quantifier": "every capacity >= 3, content, one-character pattern and longer replacement", "why_tests_cant": "The cut position depends on the exact layout of all occurrences.", "anchors": ["src/snitch_string_utility.cpp: escape_all_or_truncate"]}
{"id": "C10", "title": "find_first_not_escaped finds the first unescaped occurrence", "statement": "find_first_not_escaped(str, c) returns the smallest index holding c that is not preceded by an unpaired backslash when the string is read left to right as escape pairs, and npos when there is none.", "quantifier": "every string and every character other than backslash", "why_tests_cant": "Parity of backslash runs before every position.", "anchors": ["src/snitch_string_utility.cpp: find_first_not_escaped"]}
{"id": "C11", "title": "is_match is exactly glob matching", "statement": "is_match(s, re) is true iff re is empty, or re is a well-formed pattern (no dangling backslash reached) that matches the whole of s, where '*' stands for any sequence of characters (including none), '\\x' stands for the literal x and any other character for itself.", "quantifier": "every string and every pattern", "why_tests_cant": "Universal over all pairs; the implementation discards state at each wildcard and backtracks, and treats the end of the string specially.", "anchors": ["src/snitch_string_utility.cpp: is_match"]}
{"id": "C12", "title": "Filter strings have the documented boolean meaning", "statement": "For a name filter, tag filter list, or comma-separated filter string, the test is included iff the documented boolean formula holds: a name/tag pattern holds if the name/some tag matches, '~' negates it, adjacent tag filters are AND-ed, comma-separated filters are OR-ed. Short-circuiting and evaluation order never change inclusion.", "quantifier": "every test name, well-formed tag list and filter string", "why_tests_cant": "Short-circuit evaluation and the explicit/implicit bookkeeping interact over arbitrary long filters.", "anchors": ["src/snitch_registry.cpp: is_filter_match_name, is_filter_match_tags_single, is_filter_match_tags, is_filter_match_id_single, is_filter_match_id, filter_result_and, filter_result_or"]}
{"id": "C13", "title": "Several command-line filters are AND-ed", "statement": "A non-hidden test is selected by a list of command-line filters iff every one of them includes it; the selection does not depend on the order of the filters.", "quantifier": "every list of filters, test name and tag list", "why_tests_cant": "All lists, all orders.", "anchors": ["src/snitch_registry.cpp: run_tests_impl (filter lambda)"]}
{"id": "C14", "title": "Hidden tests only run when explicitly selected", "statement": "A test with a hidden tag ('[.]' or '[.x]') is selected by command-line filters iff no filter excludes it and at least one filter is satisfied through a non-negated (positive) filter; without filters exactly the non-hidden tests are selected; a hidden test is never selected by filters that are all negations.", "quantifier": "every registry, filter list and tag list", "why_tests_cant": "All filter combinations; the explicit/implicit flag is threaded through AND/OR combinators.", "anchors": ["src/snitch_registry.cpp: run_tests_impl, run_tests, has_hidden_tag, is_filter_match_id"]}
{"id": "C15", "title": "filter_result_and/or form the expected algebra", "statement": "filter_result_and and filter_result_or are associative, commutative and idempotent, AND-ing/OR-ing the inclusion flags, so that any bracketing and order of a filter list gives the same result.", "quantifier": "every finite list of filter results and every permutation and bracketing", "why_tests_cant": "All lists and permutations.", "anchors": ["src/snitch_registry.cpp: filter_result_and, filter_result_or"]}
{"id": "C16", "title": "Tag lists are parsed into exactly the written tags", "statement": "For a tag string '[t1][t2]...[tn]' whose tags contain no brackets, the visible tags are exactly [t1]..[tn] in order, where a tag '[.x]' (x non-empty) contributes '[.]' and '[x]' and makes the test hidden, and '[.]' makes it hidden; '[!mayfail]'/'[!shouldfail]' (also written '[.!mayfail]') set the corresponding behaviour, and nothing else does. A tag string without '[' or ']' is rejected.", "quantifier": "every list of tags of admissible length", "why_tests_cant": "All lists of tag names of all lengths.", "anchors": ["src/snitch_registry.cpp: for_each_raw_tag, for_each_tag, has_hidden_tag, run"]}
{"id": "C17", "title": "Listing tests agrees with running them", "statement": "With filters, --list-tests lists exactly the tests that the same command line without --list-tests would run, in the same (registration) order, each once; without filters it lists every registered test, in registration order.", "quantifier": "every registry and filter list", "why_tests_cant": "All registries and filters.", "anchors": ["src/snitch_registry.cpp: list_tests, run_selected_tests, run_tests_impl, list_all_tests"]}
{"id": "C18", "title": "Run summary counts are exact and determine the result", "statement": "The test_run_ended counters are the sums over the selected tests (each run exactly once, in registration order): run_count is the number selected, fail/allowed_fail/skip counts partition the non-successful tests, assertion counters are the sums of the per-test counters, and the run reports success iff no selected test failed.", "quantifier": "every list of tests with arbitrary per-test outcomes and every predicate", "why_tests_cant": "Sums over arbitrary registries.", "anchors": ["src/snitch_registry.cpp: run_selected_tests"]}
{"id": "C19", "title": "Assertion counters of a test case are exact", "statement": "For a test case, assertion_count equals the number of executed checks (before any skip) plus the bookkeeping 'no exception'/'expected to fail' assertions documented in the tests; failure counters count exactly the failed ones, allowed or not according to the may-fail/should-fail tags; failures+allowed_failures <= assertion_count always.", "quantifier": "every test body (tree of sections, checks, aborting checks, exceptions, skips), every outcome of each check on every pass", "why_tests_cant": "All programs and all outcomes.", "anchors": ["src/snitch_registry.cpp: register_assertion, report_assertion_impl, run"]}
{"id": "C20", "title": "Final state of a test case is determined by its assertions and tags", "statement": "Without skip: an untagged test fails iff some assertion failed or an exception escaped; a [!mayfail] test never fails (allowed_fail iff something failed); a [!shouldfail] test is allowed_fail iff something failed and failed otherwise.", "quantifier": "every test body and outcome", "why_tests_cant": "All bodies and outcomes, including the interplay of both tags.", "anchors": ["src/snitch_registry.cpp: set_state, register_assertion, run"]}
{"id": "C21", "title": "Skipping a test case", "statement": "Once SKIP/SKIP_CHECK has been executed in a test with no earlier failure, the test ends in state skipped, no later assertion is counted or reported, and no further pass over the sections is made. The documentation further says a skip overrides any earlier status.", "quantifier": "every test body, every skip position", "why_tests_cant": "All positions and prior histories.", "anchors": ["src/snitch_registry.cpp: report_skipped, report_assertion_impl, run", "README.md: SKIP"]}
{"id": "C22", "title": "Every leaf section runs exactly once, in source order", "statement": "For a test case whose sections are nested in any finite tree of depth at most max_nested_sections, running the test executes the body once per leaf section (once if there is none), the i-th pass entering exactly the sections on the path to the i-th leaf in depth-first source order, and then stops; check outcomes do not influence this.", "quantifier": "every finite section tree and every outcome of the checks on every pass", "why_tests_cant": "Unbounded trees and outcome histories; tests try a dozen trees.", "anchors": ["src/snitch_section.cpp: section_entry_checker", "src/snitch_registry.cpp: run"]}
{"id": "C23", "title": "Section start/end events are well nested and emitted once per section", "statement": "Under the conditions of C22 the section_started/section_ended events form a balanced, properly nested sequence in which every section of the tree is started once (at its first entry) and ended once (at its last exit).", "quantifier": "every finite section tree without aborts", "why_tests_cant": "All trees.", "anchors": ["src/snitch_section.cpp", "src/snitch_registry.cpp: report_section_started, report_section_ended"]}
{"id": "C24", "title": "Section events stay well nested when a test aborts or is skipped", "statement": "Even if a pass is aborted (REQUIRE failure, exception) or the test is skipped, every started section gets exactly one matching end event before the test case ends.", "quantifier": "every test body and every abort/skip point", "why_tests_cant": "All crash points in all programs.", "anchors": ["src/snitch_section.cpp", "src/snitch_test_data.cpp: notify_exception_handled"]}
{"id": "C25", "title": "Exceeding the section nesting limit is reported, never silently mis-run", "statement": "If the tree is deeper than max_nested_sections the run stops with a failed assertion at the first section that would exceed it; if it is not deeper, no internal assertion (vector full, pop on empty, bad index) can fail during the run.", "quantifier": "every section tree and every value of the limit", "why_tests_cant": "All trees and limits.", "anchors": ["src/snitch_section.cpp", "src/snitch_test_data.hpp: section_state, location_state"]}
{"id": "C26", "title": "Failures are reported with the sections and captures in scope", "statement": "Every assertion event carries the names of exactly the enclosing sections (outermost first) and exactly the captures currently in scope (in order of declaration).", "quantifier": "every test body, position and pass", "why_tests_cant": "All nestings and passes.", "anchors": ["src/snitch_registry.cpp: report_assertion_impl", "src/snitch_capture.cpp", "src/snitch_section.cpp"]}
{"id": "C27", "title": "An escaping exception is reported with the context at the throw point", "statement": "If an exception (other than the framework's abort) escapes the test body, exactly one failure is reported for it and it carries the sections and captures that were active where it was thrown; after it the run of this test stops.", "quantifier": "every test body and every throw point", "why_tests_cant": "All throw points in all programs.", "anchors": ["src/snitch_capture.cpp: ~scoped_capture", "src/snitch_section.cpp: ~section_entry_checker", "src/snitch_registry.cpp: run, report_assertion_impl"]}
{"id": "C28", "title": "Captures are scoped", "statement": "Captures form a stack: leaving a scope removes exactly the captures declared in it, whatever happened inside; a capture text is the expression name, ' := ' and the value, truncated to max_capture_length; adding more than max_captures at once fails an assertion.", "quantifier": "every nesting of scopes and number of captures", "why_tests_cant": "All scope nestings.", "anchors": ["src/snitch_capture.cpp", "include/snitch/snitch_capture.hpp"]}
{"id": "C29", "title": "CAPTURE(a, b, ...) splits its argument list at top-level commas", "statement": "Each captured expression is labelled with its own source text (trimmed): the comma-separated source text is split exactly at commas outside parentheses and quotes, so joining the labels with commas gives back the argument list up to surrounding blanks, and commas inside calls or string literals do not split.", "quantifier": "every source text made of plain text, balanced parentheses and quoted strings", "why_tests_cant": "All texts and nestings.", "anchors": ["src/snitch_capture.cpp: extract_next_name, trim"]}
{"id": "C30", "title": "Verbosity only filters events", "statement": "Running the same tests at a lower verbosity yields exactly the sub-sequence of the events obtained at full verbosity: quiet drops run, case, section and success events; normal drops case, section and success events; high drops success events; failures and skips are always delivered; results and counters do not depend on verbosity.", "quantifier": "every registry, test bodies and pair of verbosities", "why_tests_cant": "All programs and traces.", "anchors": ["src/snitch_registry.cpp: run, run_selected_tests, report_assertion_impl, report_section_started, report_section_ended"]}
{"id": "C31", "title": "Nested test runs restore the current test", "statement": "After a test case finishes, the thread's current test is the one that was current before it started, for any nesting of runs; using a check when no test is running terminates.", "quantifier": "every nesting of runs", "why_tests_cant": "All nestings.", "anchors": ["src/snitch_registry.cpp: run", "src/snitch_test_data.cpp: get_current_test, set_current_test"]}
{"id": "C32", "title": "Command lines are parsed as documented", "statement": "For every argument vector: a recognised option is recorded under its long name with the following argument as its value if it takes one; arguments not starting with '-' are test filters, in order; unknown options are ignored (with a warning) together with the value of known Catch2-only options; parsing fails iff a value is missing at the end or a non-repeatable option is repeated.", "quantifier": "every argument vector (up to the capacity)", "why_tests_cant": "All argument vectors.", "anchors": ["src/snitch_cli.cpp: parse_arguments, expected_args, get_option, for_each_positional_argument"]}
{"id": "C33", "title": "The program acts on options in a fixed priority order", "statement": "--help, then --list-tests-with-tag, --list-tags, --list-reporters take precedence in this order over listing or running tests, whatever their position on the command line, and none of them runs a test.", "quantifier": "every parsed command line", "why_tests_cant": "All combinations and positions.", "anchors": ["src/snitch_registry.cpp: run_tests_impl"]}
{"id": "C34", "title": "Reporter options are each applied once", "statement": "--reporter name::k1=v1::...::kn=vn selects the registered reporter called name and calls its configure function once for each option, in order, with the given keys and values.", "quantifier": "every reporter name, number of options, keys and values free of '::'", "why_tests_cant": "All option lists.", "anchors": ["src/snitch_registry.cpp: parse_reporter", "README.md / doc: custom reporters"]}
{"id": "C35", "title": "Colour settings are resolved consistently", "statement": "The colour setting used for messages during command-line parsing and the one used for the run are the same for every command line.", "quantifier": "every command line", "why_tests_cant": "All combinations of --color and --colour-mode values.", "anchors": ["src/snitch_cli.cpp: parse_color_options", "src/snitch_registry.cpp: configure, parse_colour_mode_option, parse_color_option"]}
{"id": "C36", "title": "Registration limits", "statement": "Registering tests keeps them in order; registration fails an assertion exactly when the registry is full or the full test name ('name' or 'name <type>') is empty or does not fit max_test_name_length, and never otherwise.", "quantifier": "every sequence of registrations", "why_tests_cant": "All sequences and lengths.", "anchors": ["src/snitch_registry.cpp: add_impl, make_full_name"]}
{"id": "C37", "title": "registry::print delivers the concatenation of its string arguments", "statement": "For string arguments of any number and length, the concatenation of the chunks passed to the print callback is exactly the concatenation of the arguments, and no chunk is larger than the buffer unless it is one whole argument.", "quantifier": "every list of strings", "why_tests_cant": "All splits against the buffer boundary.", "anchors": ["include/snitch/snitch_registry.hpp: print, append_or_print"]}
{"id": "C38", "title": "Colour sequences are always terminated", "statement": "Appending a coloured value either writes nothing and reports failure, or writes the colour start sequence, as much of the value as fits and the colour end sequence; a truncated text never leaves the colour on.", "quantifier": "every capacity, content, value", "why_tests_cant": "All boundary positions.", "anchors": ["include/snitch/snitch_console.hpp: colored, append"]}
{"id": "C39", "title": "XML escaping is faithful", "statement": "When the escaped text fits, the XML reporter's escaping contains no raw '<', '>', '\"', or apostrophe, every '&' starts one of the five entities, and decoding the entities gives back the original text.", "quantifier": "every text", "why_tests_cant": "All texts, order of the five replacement stages.", "anchors": ["src/snitch_reporter_catch2_xml.cpp: escape"]}
{"id": "C40", "title": "XML escaping stays safe when truncating", "statement": "Whatever the text and capacity, the escaped text contains no raw special character and no truncated entity.", "quantifier": "every text and capacity", "why_tests_cant": "All boundary positions.", "anchors": ["src/snitch_reporter_catch2_xml.cpp: escape, make_escaped", "src/snitch_string_utility.cpp: escape_all_or_truncate"]}
{"id": "C41", "title": "TeamCity escaping is faithful", "statement": "When it fits, the TeamCity reporter's escaping leaves no unescaped quote, newline, carriage return or bracket, and un-escaping gives back the original text.", "quantifier": "every text", "why_tests_cant": "All texts.", "anchors": ["src/snitch_reporter_teamcity.cpp: escape"]}
{"id": "C42", "title": "XML report is a balanced element tree", "statement": "For every event sequence of a run without aborts, the opening and closing tags printed by the XML reporter are balanced and properly nested, and end with the indentation level at which they started.", "quantifier": "every event trace of a run", "why_tests_cant": "All traces.", "anchors": ["src/snitch_reporter_catch2_xml.cpp: report, open, close, node"]}
{"id": "C43", "title": "Summary arithmetic never wraps", "statement": "The 'successes' numbers computed by subtraction by the reporters never underflow and equal the number of successful assertions (resp. non-failed tests).", "quantifier": "every run", "why_tests_cant": "All runs.", "anchors": ["src/snitch_reporter_catch2_xml.cpp: report", "src/snitch_reporter_console.cpp: report"]}
{"id": "C44", "title": "Expressions report the true outcome and the matching operator", "statement": "CHECK(a op b) succeeds iff a op b; CHECK_FALSE iff not; on failure the printed operator is the one that actually holds between the printed operands; the expanded text is dropped only when it does not fit max_expr_length.", "quantifier": "every pair of operands, operator and expectation", "why_tests_cant": "All operand values and text lengths.", "anchors": ["include/snitch/snitch_expression.hpp"]}
{"id": "C45", "title": "Matchers decide their documented relation", "statement": "contains_substring matches iff the pattern occurs in the text; is_any_of matches iff the value equals one of the alternatives; a matcher used with == or != reports matched/failed consistently with the verdict.", "quantifier": "every text, pattern and list of alternatives", "why_tests_cant": "All strings and lists.", "anchors": ["src/snitch_matcher.cpp", "include/snitch/snitch_matcher.hpp"]}
{"id": "C46", "title": "Type-erased storage destroys each object exactly once", "statement": "Over any sequence of emplace, reset, move and get on inplace_any objects, every stored object is destroyed exactly once, at most one object lives in a storage, and get on an empty or differently typed storage fails an assertion.", "quantifier": "every operation sequence", "why_tests_cant": "All histories.", "anchors": ["include/snitch/snitch_any.hpp"]}
{"id": "C47", "title": "Floating-point decoding is exact", "statement": "Decomposing a float/double bit pattern and recombining sign, significand and exponent gives the exact value; zero, infinity and NaN are classified correctly.", "quantifier": "every 32- and 64-bit pattern", "why_tests_cant": "2^64 patterns.", "anchors": ["include/snitch/snitch_fixed_point.hpp: to_bits, to_fixed"]}
{"id": "C48", "title": "Fixed-point normalisation and arithmetic never overflow and lose at most a bounded relative precision", "statement": "Every operation on the unsigned decimal fixed-point numbers keeps the digits below the documented bound, performs no wrapping arithmetic, and its result deviates from the exact product/sum by a bounded relative error.", "quantifier": "every pair of representable numbers", "why_tests_cant": "2^128 pairs.", "anchors": ["include/snitch/snitch_fixed_point.hpp: unsigned_fixed"]}
{"id": "C49", "title": "Printed floating-point numbers have the scientific shape", "statement": "The constexpr float printer outputs [-]d.ddd..de(+|-)dd with exactly the requested number of digits and an exponent of at least two digits, for every finite value.", "quantifier": "every finite value", "why_tests_cant": "All values.", "anchors": ["include/snitch/snitch_append.hpp: append_constexpr(signed_fixed), set_precision, round_half_to_even"]}
{"id": "C50", "title": "Output file path and handle", "statement": "The output file path is passed NUL-terminated to the C library for every accepted length; every opened handle is closed exactly once whatever the sequence of moves.", "quantifier": "every path length and sequence of moves", "why_tests_cant": "All lengths/histories.", "anchors": ["src/snitch_file.cpp"]}
{"id": "C51", "title": "cli::print truncates visibly", "statement": "cli::print of string arguments prints the whole text if it fits max_message_length and otherwise exactly max_message_length characters ending in '...'.", "quantifier": "every list of strings", "why_tests_cant": "All lengths.", "anchors": ["include/snitch/snitch_cli.hpp: print"]}
{"id": "C52", "title": "List of unique tags", "statement": "--list-tags prints each distinct visible tag of all registered tests exactly once, in sorted order.", "quantifier": "every registry", "why_tests_cant": "All registries.", "anchors": ["src/snitch_registry.cpp: list_all_tags"]}
{"id": "C53", "title": "Executable name extraction", "statement": "The reported run name is the file name of argv[0] without directory and without its last extension.", "quantifier": "every argv[0]", "why_tests_cant": "All paths.", "anchors": ["src/snitch_cli.cpp: extract_executable"]}
{"id": "C54", "title": "Reporter registration", "statement": "add_reporter keeps reporters in order, rejects names containing '::' and registrations beyond the limit with a failed assertion, and every reporter accepted can be selected by --reporter with its exact name (unless its name is empty or starts with ':').", "quantifier": "every sequence of registrations", "why_tests_cant": "All sequences of names.", "anchors": ["src/snitch_registry.cpp: add_reporter, parse_reporter"]}
{"id": "C55", "title": "Exit status", "statement": "main returns 0 iff the run succeeded (or a listing/help was requested) and 1 iff the command line was invalid or a test failed.", "quantifier": "every command line and registry", "why_tests_cant": "All runs.", "anchors": ["src/snitch_main.cpp"]}
{"id": "C56", "title": "Running a test case terminates", "statement": "Running a test case whose body always terminates makes finitely many passes over the body (as many as it has leaf sections, at least one) and then ends.", "quantifier": "all finite test bodies (sections, checks, captures, exceptions, conditional code), all passes", "why_tests_cant": "a test can only observe that particular bodies end; termination of the replay loop is a claim about every body and every history of passes", "anchors": ["src/snitch_registry.cpp: registry::run", "src/snitch_section.cpp: section_entry_checker"]}
{"id": "C57", "title": "Life of the output file", "statement": "With --out the output file is opened before any event is reported, nothing else is opened, and it is closed exactly once, after everything else; without --out no file is touched.", "quantifier": "every accepted command line, registry and run that completes", "why_tests_cant": "All command lines and runs.", "anchors": ["src/snitch_registry.cpp: configure, run_tests", "src/snitch_file.cpp", "src/snitch_main.cpp"]}
{"id": "C58", "title": "Printed floating-point numbers are accurate", "statement": "The text of a finite float or double printed with p digits denotes a number that differs from it by at most half a unit of the last digit printed plus half a unit of the 16th digit; a number that can be written with p digits (p at most 16) is printed exactly. Infinities, NaN and zeros print as inf, -inf, nan, 0.0..e+00. What does not fit is cut, and the return value says so.", "quantifier": "every 32- and 64-bit pattern, every precision, every remaining capacity", "why_tests_cant": "2^64 patterns; the conversion accumulates rounding errors over up to 53 additions and 11 multiplications.", "anchors": ["include/snitch/snitch_fixed_point.hpp: to_fixed, unsigned_fixed, apply_binary_exponent", "include/snitch/snitch_append.hpp: append_constexpr(floating_point), set_precision"]}
{"id": "C59", "title": "TeamCity service messages say what happened", "statement": "The TeamCity reporter prints one well-formed service message per event (suite started/finished, test started/finished with duration, section opened/closed, test ignored, test failed, output), in order, each on a line of its own; a listener that decodes the lines gets exactly the names, places, captured values, messages and expressions of the events, and can read them in one way only. Printing never fails, whatever the events and the limits.", "quantifier": "every list of events, every text (with any special characters), all capacities", "why_tests_cant": "All texts with all placements of special characters at all capacities; uniqueness of decoding is a claim about every pair of message lists.", "anchors": ["src/snitch_reporter_teamcity.cpp: escape, make_escaped, print_assertion, send_message, make_suite_name, make_full_name, report"]}
{"id": "C60", "title": "The console shows every event in full, and colours only add colour", "statement": "The console reporter prints, for each event in order, its documented text: the verdict, the test, all enclosing sections, the place, the type, all captured values, and the message or expression; at the end of the run the verdict and the counters; a listing has every test and their number. With colours disabled no escape sequence is printed; with colours enabled the output without its colour sequences is the output with colours disabled. Printing never fails.", "quantifier": "every list of events, every text, with and without colours, all capacities of at least 32", "why_tests_cant": "All events, texts and lengths relative to the message buffer.", "anchors": ["src/snitch_reporter_console.cpp: print_location, print_message, report", "include/snitch/snitch_console.hpp: make_colored, append(colored)", "include/snitch/snitch_registry.hpp: registry::print"]}
{"id": "C61", "title": "The command line chooses the reporter and the verbosity", "statement": "After configuring, the verbosity is the one asked for by --verbosity (or the previous one if none or an unknown one is asked for); the reporter is the first registered one with the name given to --reporter, or the previous one if there is none; the XML and TeamCity reporters raise the verbosity to at least high, and are therefore told of the start and end of every selected test whatever --verbosity says. Registered tests and reporters are unchanged.", "quantifier": "every command line, registry, list of reporters, limits", "why_tests_cant": "All combinations of options, reporter lists and reporter options; the raise must hold whatever the order of options.", "anchors": ["src/snitch_registry.cpp: configure, parse_reporter", "src/snitch_reporter_catch2_xml.cpp: reporter::reporter", "src/snitch_reporter_teamcity.cpp: initialize", "src/snitch_reporter_console.cpp: configure"]}
{"id": "C62", "title": "What a program prints by default", "statement": "A program that runs its tests with the console reporter (asked for or by default) prints, after the warnings about the command line, the documented text of every event in order; with --out the report alone is in the file. Unless the verbosity is quiet the report ends with the summary, which announces success exactly if the exit code is 0. Reports in files have no colours unless colours are asked for.", "quantifier": "every program (tests, reporters, limits) and command line that asks for a run", "why_tests_cant": "The composition of parser, configuration, filters, runs, reporter and printing for every test body and command line.", "anchors": ["src/snitch_main.cpp: main", "src/snitch_registry.cpp: configure, run_tests, report_default, print", "src/snitch_reporter_console.cpp"]}
{"id": "C63", "title": "What a program prints with the XML and TeamCity reporters", "statement": "With --reporter xml the report is one well-formed XML document that tells the events of the run, and with --reporter teamcity it is one service message per event; its place and the exit code are as with the console reporter.", "quantifier": "every program and command line that asks for a run with that reporter", "why_tests_cant": "As C62; well-formedness must hold for all test bodies and texts.", "anchors": ["src/snitch_main.cpp: main", "src/snitch_registry.cpp: run_tests", "src/snitch_reporter_catch2_xml.cpp", "src/snitch_reporter_teamcity.cpp"]}
{"id": "C64", "title": "Reporter objects live as long as they are used", "statement": "No event is ever reported to a reporter object that does not exist any more or yet; a program whose tests work never fails because of its reports.", "quantifier": "every program, command line and reporter", "why_tests_cant": "Object lifetime over every history of configure and run.", "anchors": ["include/snitch/snitch_registry.hpp: add_reporter<T>, finish_callback", "src/snitch_registry.cpp: destroy_reporter, run_tests"]}
{"id": "C65", "title": "Sections start before they end", "statement": "At any time during a test case, each section has been reported as ended at most as often as it has been reported as started.", "quantifier": "every test body: nesting, exceptions, aborts, skips, passes", "why_tests_cant": "All trees of sections with all exceptions at all places and passes.", "anchors": ["src/snitch_section.cpp: section_entry_checker", "src/snitch_test_data.cpp: notify_exception_handled", "src/snitch_registry.cpp: run"]}
{"id": "C66", "title": "Programs do not fail", "statement": "A program whose tests are well formed and within the limits, with the reporters of the library, ends with exit code 0 or 1 for every command line: it is never terminated, does nothing undefined, and does not loop.", "quantifier": "every set of well-formed tests, every command line within the limit on its length", "why_tests_cant": "All command lines and all well-formed tests.", "anchors": ["src/snitch_main.cpp: main", "src/snitch_registry.cpp", "src/snitch_cli.cpp", "src/snitch_reporter_*.cpp"]}
{"id": "C67", "title": "Check macros", "statement": "A test written with the check macros makes exactly the assertions that are documented for them: each of CHECK, REQUIRE, their _FALSE, _THAT, _THROWS_AS, _THROWS_MATCHES and _NOTHROW forms, their CONSTEXPR_ and CONSTEVAL_ forms, SUCCEED, FAIL, FAIL_CHECK, SKIP and SKIP_CHECK reports one assertion (two for CONSTEXPR_ forms: one for the compiler's evaluation, then one for the program's), with the name of the macro, its source text, its evaluated operands and the verdict; the test goes on after it, unless it is of the REQUIRE family (or FAIL, SKIP) and the assertion failed, in which case nothing more of the test is executed.", "quantifier": "every test body made of these macros, SECTION, CAPTURE, INFO, try blocks and exceptions, with arbitrary operands, operators, matchers and messages that may change from one pass to the next (descriptions of matchers not longer than a message; arguments of CAPTURE as in C29), in every pass, every state of the framework, every configuration of sizes", "why_tests_cant": "Arbitrary combinations of macros, operands and states; a unit test sees a few of them.", "anchors": ["include/snitch/snitch_macros_check.hpp", "include/snitch/snitch_macros_check_base.hpp", "include/snitch/snitch_macros_constexpr.hpp", "include/snitch/snitch_macros_consteval.hpp", "include/snitch/snitch_macros_exceptions.hpp", "include/snitch/snitch_macros_misc.hpp"]}
{"id": "C68", "title": "Names of types", "statement": "The name given to a type (used in the full name of templated tests) is the compiler's spelling of the type.", "quantifier": "every type (every spelling) and each of the three supported compilers", "why_tests_cant": "Unboundedly many types; the tests look at a dozen.", "anchors": ["include/snitch/snitch_type_name.hpp: type_name"]}
{"id": "C69", "title": "Declarations of test cases", "statement": "The test cases of a program are exactly those declared with the TEST_CASE macros: one per declaration, or one per type for the templated macros, in the order of the declarations and of the types, each with its name, tags, type, fixture, location and body. If there are too many, or a full name is empty or too long, the program stops when it starts.", "quantifier": "every list of declarations of every kind, every list of types, every configuration of sizes", "why_tests_cant": "All lists of declarations and types.", "anchors": ["include/snitch/snitch_macros_test_case.hpp", "include/snitch/snitch_registry.hpp: add_with_types, add_with_type_list, add_fixture_with_types, add_fixture_with_type_list", "src/snitch_registry.cpp: add_impl, add, add_fixture"]}
{"id": "C70", "title": "Every test can be run alone", "statement": "The full name of a test, with a backslash before each special character, given as the only filter on the command line, selects and runs exactly the tests that have this full name, even if they are hidden.", "quantifier": "every full name (any characters), every set of tests and tags, every command line with this as only filter", "why_tests_cant": "All names made of arbitrary characters, including those special in filters.", "anchors": ["src/snitch_registry.cpp: run_tests, is_filter_match_id, make_full_name", "src/snitch_string_utility.cpp: is_match, find_first_not_escaped", "README.md:942"]}
{"id": "C71", "title": "REQUIRE, FAIL and SKIP stop the test case", "statement": "After a failed check of the REQUIRE family, a FAIL or a SKIP, nothing more of the test case is executed: no code of the test, no check and no section follows in the events, only the ends of sections and of the test (and the conclusion on a test that was expected to fail).", "quantifier": "every test body (nesting of sections, captures, checks, handlers, passes), every place of the stopping check, every configuration", "why_tests_cant": "All bodies, places and passes.", "anchors": ["include/snitch/snitch_macros_check_base.hpp", "include/snitch/snitch_macros_misc.hpp", "src/snitch_registry.cpp: run", "include/snitch/snitch_macros_exceptions.hpp"]}
{"id": "C72", "title": "CHECK decides any expression as C++ would", "statement": "CHECK(EXPR) and its variants succeed exactly when EXPR, read and evaluated as C++ does without the macro, is true (false for the _FALSE variants), whatever binary operators, comparisons, conditionals and commas EXPR contains. The operands shown are those of its outermost comparison, if that is its outermost operator; otherwise the whole is shown as one value or not at all. Expressions that cannot be decided are refused by the compiler, never decided wrongly.", "quantifier": "every sequence of operands and binary operators (any length, any precedence), every meaning of the operators on user types", "why_tests_cant": "The macro puts an overloaded operator in front of the expression, which changes how it is parsed; all combinations of operators must be considered.", "anchors": ["include/snitch/snitch_expression.hpp: expression_extractor, extracted_unary_expression, extracted_binary_expression, invalid_expression", "include/snitch/snitch_macros_check.hpp: SNITCH_REQUIRE_IMPL", "include/snitch/snitch_macros_check_base.hpp: SNITCH_EXPR, SNITCH_IS_DECOMPOSABLE"]}
{"id": "C73", "title": "Calls to a reporter", "statement": "In one run of the program, exactly one reporter is used: it is initialised once, then configured with each of its options in order, then given all the events in order, then finished once. If the command line is refused, no reporter is called.", "quantifier": "every command line, every set of registered reporters and tests", "why_tests_cant": "All command lines (several --reporter options, invalid options, listing, help) and all runs.", "anchors": ["src/snitch_registry.cpp: parse_reporter, configure, run_tests, set_reporter", "include/snitch/snitch_registry.hpp: registered_reporter", "README.md: Reporters"]}
{"id": "C74", "title": "Tests behave the same without exceptions", "statement": "A program built without exceptions reports the same events as one built with exceptions, apart from the additional passed assertion 'no exception caught' of each test (and its count), as long as no REQUIRE, FAIL or SKIP aborts a test; at that point the program terminates, having reported exactly the events up to the one that aborts. If only the macros that do not abort are used, the program runs to its end and has the same result.", "quantifier": "every list of tests whose bodies can be compiled without exceptions (sections, captures, nested checks, passes), every filter, every verbosity", "why_tests_cant": "A relation between two builds, for all test programs.", "anchors": ["README.md:1002-1012", "src/snitch_registry.cpp: register_assertion, report_assertion_impl, run, run_selected_tests", "src/snitch_section.cpp", "src/snitch_test_data.cpp", "src/snitch_capture.cpp", "include/snitch/snitch_macros_check_base.hpp: SNITCH_TESTING_ABORT"]}
{"id": "C75", "title": "Durations", "statement": "The duration given at the end of a section, a test case or a run is not negative, is given exactly there, and is the time since the block of the section was last entered, since the test case was started, or since the run was started: that of a test case covers everything reported between its start and its end, that of a run everything reported in it, and is at least the sum of those of its test cases. Times change nothing else in what is reported.", "quantifier": "every clock that does not go back, every list of tests (sections, passes, nested checks, exceptions caught or not), every filter, every verbosity", "why_tests_cant": "All clocks and all test programs; tests can only check that some time has passed.", "anchors": ["src/snitch_time.cpp", "src/snitch_section.cpp: section_entry_checker", "src/snitch_registry.cpp: report_section_ended, run, run_selected_tests", "src/snitch_test_data.cpp: notify_exception_handled", "include/snitch/snitch_test_data.hpp: section, event"]}
{"id": "C76", "title": "Units of durations", "statement": "Durations are given in seconds, up to the accuracy of float (a relative error of about one part in eight millions); the TeamCity reporter gives them in the unit TeamCity expects, milliseconds.", "quantifier": "every duration, every rounding to float", "why_tests_cant": "All durations and all rounding modes.", "anchors": ["src/snitch_time.cpp: get_duration_in_seconds", "src/snitch_reporter_teamcity.cpp: make_duration", "include/snitch/snitch_test_data.hpp: duration"]}
{"id": "C77", "title": "Handlers of failed assertions that throw", "statement": "If the handler called on failed assertions of the library throws, a test that exceeds a limit on nested sections or captures has the events, counts and outcome of a test with a throw statement in that place: it fails with the message of the handler, in the sections and with the captures then open, and the other tests are not affected. Tests that stay within the limits do not depend on the handler.", "quantifier": "every handler that throws, every test body, every limit on sections, captures and lengths, every verbosity", "why_tests_cant": "The exception can leave from any section or capture of any body, in any pass, and what it leaves behind shows only in what follows.", "anchors": ["src/snitch_error_handling.cpp: assertion_failed", "src/snitch_section.cpp: section_entry_checker", "src/snitch_capture.cpp: add_capture", "include/snitch/snitch_capture.hpp: add_captures", "src/snitch_registry.cpp: registry::run"]}
{"id": "C78", "title": "Registrations that fail", "statement": "A registration of a test or reporter that fails prints which limit is exceeded and its value, calls the handler of failed assertions with a message, and if the handler throws leaves the registry as it was. With the default handler the program ends after printing both.", "quantifier": "every sequence of registrations, every limit, every name", "why_tests_cant": "All sequences of registrations, with failures anywhere among them.", "anchors": ["src/snitch_registry.cpp: add_impl, add_reporter", "src/snitch_error_handling.cpp: assertion_failed, terminate_with"]}
{"id": "C79", "title": "References to functions", "statement": "A call through a function_ref calls, once and with these arguments, the function or the object it was last constructed from or assigned; copies refer to the same object, never to a copy of it; the result or exception is that of the function, except that a noexcept signature terminates the program on exceptions. Calls are valid exactly as long as the object exists.", "quantifier": "every program that creates, destroys and changes objects, makes, copies, assigns and calls references, with any functions", "why_tests_cant": "All interleavings of assignments, copies, calls and lifetimes.", "anchors": ["include/snitch/snitch_function.hpp: function_ref, function_traits"]}
{"id": "C80", "title": "Code of the test in destructors", "statement": "Checks, sections and captures in the destructor of an object of a test (a fixture, a guard) are executed once when the object is destroyed, whether its block is left normally, by a failed REQUIRE or by an exception; they count like any other for the counters and the final state of the test, and no limit is exceeded that would not be by the same code at the end of the block. If no exception is involved, everything reported is as if the code were written there, at its own place. An exception that leaves the destructor ends the program, and nothing else does.", "quantifier": "every test body with any nesting of objects with any destructors, exceptions thrown anywhere, every number of passes, every configuration of limits and tags", "why_tests_cant": "All combinations of nested scopes, destructors and exceptions in flight; the library decides what to report from global counts of exceptions in flight.", "anchors": ["src/snitch_registry.cpp: report_assertion_impl, registry::run", "src/snitch_test_data.cpp: scoped_test_check, notify_exception_handled", "src/snitch_section.cpp: section_entry_checker", "src/snitch_capture.cpp: add_capture, scoped_capture", "include/snitch/snitch_macros_test_case.hpp: TEST_CASE_METHOD"]}
{"id": "C81", "title": "Help and messages about the command line", "statement": "--help and refused command lines print a fixed text that lists exactly the options the parser takes without a warning, with their values. For any command line there is one message for each unknown option, repeated option and missing value, in order, and a command line is refused if and only if at least one of these messages is an error.", "quantifier": "every command line up to the capacity, every program name, version and colour setting", "why_tests_cant": "All command lines; the help and the parser can disagree about any option.", "anchors": ["src/snitch_cli.cpp: print_help, parse_arguments, expected_args"]}
{"id": "C82", "title": "Tag strings of any form", "statement": "Every string given as the tags of a test is either refused with a failed assertion, or read in exactly one way: it is cut wherever a closing bracket is directly followed by an opening one, and each piece is a tag as it stands, except that a piece '[.x' stands for '[.]' and '[x'. Filters, hidden tests and the tags [!mayfail] and [!shouldfail] then work on these tags as documented. It is refused if and only if it is not empty and lacks one of the two brackets, or contains a hidden tag that is too long.", "quantifier": "every string, every list of filters, every maximum tag length", "why_tests_cant": "All strings, including mistyped ones.", "anchors": ["src/snitch_registry.cpp: for_each_raw_tag, for_each_tag, has_hidden_tag, is_filter_match_tags, run"]}
{"id": "C83", "title": "Command lines of any length", "statement": "One argument is kept for each option with its value and each filter. If no more have to be kept than the configured maximum, the command line is read exactly as with any larger maximum, whatever its number of words; if more have to be kept, the program ends with a failed assertion before it configures or runs anything. It never goes on with a part of the arguments.", "quantifier": "every command line of any length, every maximum of at least two", "why_tests_cant": "All command lines; where the maximum is reached depends on which words are options, values, repetitions or filters.", "anchors": ["src/snitch_cli.cpp: parse_arguments, parse_color_options", "include/snitch/snitch_vector.hpp: small_vector_span::push_back", "src/snitch_main.cpp: main"]}
{"id": "C84", "title": "match() is called before describe_match()", "statement": "Whenever a check consults a matcher (CHECK_THAT, == or != in a condition, CHECK_THROWS_MATCHES), match() is called exactly once, with the value, and describe_match() is called after it, at most once, on the same matcher, with the same value and the status that match() gave; nothing else of the matcher is called. The verdict is the answer of match(). So a matcher may save what it computes in match() and use it in describe_match(), as documented.", "quantifier": "every matcher, reading and changing any state, every value, every macro", "why_tests_cant": "All matchers with side effects.", "anchors": ["include/snitch/snitch_matcher.hpp: impl::match, operator==", "include/snitch/snitch_expression.hpp: to_expression", "include/snitch/snitch_macros_exceptions.hpp: SNITCH_REQUIRE_THROWS_MATCHES_IMPL"]}
{"id": "C85", "title": "Exceptions thrown by code of the user that a check calls", "statement": "A comparison or a conversion to bool that is not noexcept, and the matcher of CHECK_THROWS_MATCHES, may throw: the check is left as if its operands had thrown, which is reported as a failure of the test, and the other tests are run. An exception thrown by a matcher in CHECK_THAT, by a matcher compared with the operators of snitch::matchers, or by the function that writes a value in a check, in CAPTURE or in INFO, ends the program. Values are written in order, and only when they are needed and there is room for them.", "quantifier": "every comparison, conversion, matcher and function that writes values, reading and changing any state and throwing any exception", "why_tests_cant": "All such code; when it is called depends on verdicts and lengths.", "anchors": ["include/snitch/snitch_expression.hpp: to_expression, append_value", "include/snitch/snitch_matcher.hpp: impl::match, operator==", "include/snitch/snitch_capture.hpp: add_capture, add_info", "include/snitch/snitch_string_utility.hpp: append_or_truncate", "include/snitch/snitch_append.hpp: append"]}
{"id": "C86", "title": "Documented equivalences between ways of writing a test", "statement": "Rewriting a test, anywhere in its body, with an equivalence given in the documentation does not change its run. One CAPTURE of several values and one CAPTURE for each give the same run. CHECK_FALSE(e) and CHECK(!(e)), CHECK_THAT(e, m) and CHECK(e == m), also with REQUIRE, CONSTEXPR_ and CONSTEVAL_, give the same verdicts, effects, captures, locations, counters and outcome; only the texts reported for these expressions differ. CONSTEVAL_CHECK is CHECK of constants, and CONSTEXPR_CHECK is both in turn, but for the names of the macros. A test written with REQUIRE and the same test written with CHECK do the same, but for the names of the macros, up to the first failure or skip, and hence altogether if there is none.", "quantifier": "every test body, every place and number of rewritings, every build configuration, every verdict", "why_tests_cant": "All test bodies with all their sections, captures and exceptions.", "anchors": ["README.md: Test check macros, Capture", "include/snitch/snitch_macros_check.hpp", "include/snitch/snitch_macros_constexpr.hpp", "include/snitch/snitch_macros_consteval.hpp", "include/snitch/snitch_capture.hpp: add_captures", "src/snitch_capture.cpp: scoped_capture"]}
{"id": "C87", "title": "The text of a value of a built-in type", "statement": "Appending a value to a string (which is how checks, CAPTURE and INFO show values) appends its text: true or false for bool; the decimal notation for every integer, character and enumeration type of at most 64 bits; scientific notation for float and double; the characters of a string view; the characters of a char array but the last one; the characters up to the terminator for const char*; nullptr for null pointers; 0x and 16 hexadecimal digits for other pointers to objects, 0x and question marks for functions and, during constant evaluation, for objects. The longest prefix of the text that fits is appended, and the result is true exactly when all of it fitted; the same for the texts in a row of several values in one call. The text is the same during constant evaluation and at run time, with and without std::to_chars, but for floating-point numbers and pointers to objects. Two different values of the same type among bool, integers and enumerations never have the same text.", "quantifier": "every value of every built-in type, every list of values, every string and capacity, constant evaluation or run time, every behaviour of std::to_chars that the standard allows", "why_tests_cant": "All values of all types, all capacities and all configurations.", "anchors": ["include/snitch/snitch_append.hpp: append", "include/snitch/snitch_concepts.hpp", "src/snitch_append.cpp: append_fast, append_to"]}
{"id": "C88", "title": "A test that exceeds a limit says which one", "statement": "When a test exceeds a limit and the library calls the handler of failed assertions, the test does exceed the limit named in the message, everything reported before stays reported, and what is printed says which limit it is, its present value and the option that changes it. What was reported until then is the beginning of what the same test reports with larger limits.", "quantifier": "every test body (throwing or not, regular or not), every number of passes, all limits, every larger limits", "why_tests_cant": "All test bodies, all places where a limit can be exceeded, all limits; a test can only observe the limits it was built with.", "anchors": ["src/snitch_section.cpp: section_entry_checker::operator bool", "src/snitch_capture.cpp: add_capture", "src/snitch_test_data.cpp: push_location, scoped_test_check", "src/snitch_error_handling.cpp: terminate_with", "include/snitch/snitch_vector.hpp: push_back"]}
{"id": "C89", "title": "Command lines that ask for the same thing", "statement": "What a test program prints and its exit status depend only on the values of the options and on the filters: not on the order of the options, on their place among the filters, nor on whether they are written in short or long form. Options that are not supported change nothing but the warnings at the start, one for each. --colour-mode ansi|default|none does the same as --color always|default|never.", "quantifier": "every pair of acceptable command lines that fit, every program (tests, reporters, limits), every output file", "why_tests_cant": "All pairs of command lines and all programs.", "anchors": ["src/snitch_cli.cpp: parse_arguments, get_option", "src/snitch_registry.cpp: registry::configure, run_tests_impl, parse_color_option, parse_colour_mode_option", "src/snitch_main.cpp: main"]}
{"id": "C90", "title": "Earlier runs do not change later ones", "statement": "A program may run its tests several times. With the default reporter on the console, each run prints and returns the same as if it were the first, whatever the arguments of the runs before. With any reporter of the library, with or without an output file, the same arguments give the same again if the registry is configured with them before each run. And whatever has been configured and run before does not matter if the command line tells the colours, the verbosity, the reporter and the output file.", "quantifier": "every history of configurations and runs (any number, any arguments), every later command line, every program (tests, limits)", "why_tests_cant": "Unboundedly many histories, and all command lines after each.", "anchors": ["src/snitch_registry.cpp: registry::run_tests, configure, report_default, destroy_reporter, parse_reporter", "src/snitch_reporter_console.cpp: reporter::report", "src/snitch_reporter_catch2_xml.cpp: reporter", "src/snitch_reporter_teamcity.cpp: initialize"]}
{"id": "C91", "title": "Checks that compare built-in values show both values, and tell the truth", "statement": "CHECK(a op b) and its variants on values of built-in types (booleans, integers, enumerators, floating-point numbers, texts, pointers), if they fail, show the texts of both values with the operator or its opposite between them, or nothing when that does not fit. For booleans, integers and enumerators the check passes exactly when the comparison of the numbers has the expected result, what is shown is a true statement about the numbers, and it tells which numbers were compared. CHECK(a) passes exactly when the number is not zero, and shows it otherwise.", "quantifier": "every pair of values of built-in types of any widths and signs, every operator, both expectations, every capacity of the text, at compile time and at run time", "why_tests_cant": "All pairs of 64-bit numbers of all types, with all operators and lengths.", "anchors": ["include/snitch/snitch_expression.hpp: extracted_binary_expression::to_expression, extracted_unary_expression::to_expression, DEFINE_OPERATOR, expression::append_value", "include/snitch/snitch_append.hpp: append"]}
{"id": "C92", "title": "The single header is complete and in order", "statement": "The header generated by make_snitch_all.py contains every header that snitch.hpp includes, directly or not, exactly once and after all the headers it includes, then every source of snitch.cpp in its order; of each file all the lines but the inclusions of files of the library, sources (and only they) within #if defined(SNITCH_IMPLEMENTATION). It is generated whenever the inclusions are not circular; circular ones are reported.", "quantifier": "every set of files, every graph of inclusions, every pair of directories", "why_tests_cant": "All graphs of inclusions; the build only runs the script on the current one.", "anchors": ["make_snitch_all.py: add_headers, header_map, input_filenames", "CMakeLists.txt: snitch-header-only", "src/snitch.cpp"]}
{"id": "C93", "title": "Tests can be disabled at build time", "statement": "With snitch disabled (SNITCH_ENABLE=0), a source file that mixes code and tests compiles, its functions behave as if the macros of snitch were not there (no operand of a macro is evaluated, sections are left out, REQUIRE, FAIL and SKIP do not stop), no test or reporter is registered, and main() executes nothing and returns 0 whatever its arguments are.", "quantifier": "every source file, every body of functions and tests (with any effects and exceptions in the operands of macros), every command line, every state of the program", "why_tests_cant": "All uses of the macros in all files; the tests of the library are not built when it is disabled.", "anchors": ["include/snitch/snitch_macros_test_case.hpp: #else branch", "include/snitch/snitch_macros_check.hpp", "include/snitch/snitch_macros_exceptions.hpp", "include/snitch/snitch_macros_constexpr.hpp", "include/snitch/snitch_macros_consteval.hpp", "include/snitch/snitch_macros_misc.hpp", "include/snitch/snitch_macros_reporter.hpp", "include/snitch/snitch_macros_utility.hpp: SNITCH_DISCARD_ARGS", "src/snitch_main.cpp: main"]}
{"id": "C94", "title": "Names of sections exist whenever they are reported", "statement": "Whenever a report mentions a section (the start and end of sections, checks and skips within them), the objects of the test that hold the name and the description of the section still exist.", "quantifier": "every test body with objects that hold names of sections (in any blocks, sections, checks, captures, handlers), every pass, exception and verbosity", "why_tests_cant": "Reading a destroyed object usually gives the expected characters; the claim is about every body and every place an exception leaves.", "anchors": ["include/snitch/snitch_macros_misc.hpp: SNITCH_SECTION", "include/snitch/snitch_section.hpp: section_entry_checker", "include/snitch/snitch_test_data.hpp: section_id, test_state", "src/snitch_section.cpp", "src/snitch_test_data.cpp: notify_exception_handled", "src/snitch_registry.cpp: report_assertion_impl, run"]}
{"id": "C95", "title": "Values written by functions of the user", "statement": "If the functions append() of the user are written as the README says (calls of append in turn, by hand with available()/grow()/resize(), or other code that returns true exactly if its whole text fitted and was added), then values of these types are shown like any text wherever snitch shows values: as the whole text if there is room, and otherwise truncated, with `...` at the end; no failed assertion occurs, and nothing is written beyond the string.", "quantifier": "every such function, value and text, every string and capacity, every combination of values in messages, captures, infos, checks and matchers", "why_tests_cant": "All functions of users, and all lengths relative to the room left.", "anchors": ["README.md: Custom string serialization", "include/snitch/snitch_append.hpp: append", "include/snitch/snitch_string_utility.hpp: append_or_truncate, truncate_end", "include/snitch/snitch_expression.hpp: expression::append_value", "include/snitch/snitch_capture.hpp: add_capture, add_info", "include/snitch/snitch_matcher.hpp: is_any_of"]}
{"id": "C96", "title": "Reports survive a crash", "statement": "If a test program dies in the middle of a test (abort, signal, std::terminate, a failed assertion of the library), what was reported before is in the output file, completely, and on the console; at any other moment at most the last text written is incomplete. If the program ends by itself, everything is in the file and on the console; if the report cannot be written, the program does not end with success.", "quantifier": "every program, command line, reporter and point of death (between and within calls of the C library), every buffering of the streams", "why_tests_cant": "Crash points and the behaviour of the C library's buffers cannot be enumerated; a test that dies cannot report.", "anchors": ["src/snitch_file.cpp: file_writer::write", "src/snitch_console.cpp: stdout_print", "src/snitch_error_handling.cpp: terminate_with", "src/snitch_main.cpp: main", "src/snitch_registry.cpp: run_tests, configure"]}
{"id": "C97", "title": "Printed floating-point numbers are in order", "statement": "The library's own conversion of floating-point numbers to text keeps their order: of two numbers of the same type printed with the same number of digits, the one read as the smaller number is the smaller one, and equal ones are read as equal numbers. So the numbers shown by a failed comparison of two numbers of the same type are never the wrong way round for the operator shown.", "quantifier": "every pair of numbers (zeros, subnormal numbers, infinities) of type float or double, every number of digits, every capacity of the string, every comparison operator and every check evaluated by the compiler or without std::to_chars", "why_tests_cant": "There are 2^128 pairs of doubles. Rounding errors of the conversion to decimal digits change with each power of two, and may put neighbours in the wrong order at any of their boundaries.", "anchors": ["include/snitch/snitch_append.hpp: append_constexpr (floating point), to_fixed", "include/snitch/snitch_fixed_point.hpp: signed_fixed_data, set_precision", "include/snitch/snitch_expression.hpp: extracted_binary_expression::to_expression"]}
{"id": "C98", "title": "Matching test names is cheap", "statement": "Deciding whether a test name or a tag matches a pattern given on the command line takes a time bounded by a polynomial in the lengths of the name and of the pattern, and a bounded depth of recursive calls.", "quantifier": "every pattern and every name", "why_tests_cant": "A bound on the cost is a statement about all lengths; tests only ever measure some inputs, and bad ones are rare.", "anchors": ["src/snitch_string_utility.cpp: is_match"]}
{"id": "C99", "title": "Tests can be divided among several runs", "statement": "What is reported about a test is the same whatever other tests are registered and selected. If the tests selected by one run are divided among several runs, the outcomes of the tests are the same altogether, and the one run succeeds (exit code 0) if and only if all the others do.", "quantifier": "every set of tests, every selection, every way to divide it, every verbosity", "why_tests_cant": "It compares all ways to split all test suites; a test compares one.", "anchors": ["src/snitch_registry.cpp:run_selected_tests", "src/snitch_registry.cpp:run_tests", "src/snitch_main.cpp"]}
{"id": "C100", "title": "Filters combine as logical operations", "statement": "Putting ~ before a filter selects the tests that the filter does not select (hidden tests aside); separating two filters by a comma selects the tests selected by one or the other; giving two filters as separate arguments selects the tests selected by both. So a run with a filter and a run with its negation are together the run without the filter.", "quantifier": "every filter, test name and list of tags", "why_tests_cant": "An algebraic law over all texts.", "anchors": ["src/snitch_registry.cpp:is_filter_match_id", "src/snitch_registry.cpp:is_filter_match_tags_single", "README.md"]}
{"id": "C101", "title": "Larger limits change nothing for programs that work", "statement": "If a test program completes with some configured limits (number of nested sections, captures, tags, command-line arguments, reporters and tests, lengths of tags, names and paths), then it does exactly the same with larger limits: the same events, printed texts and exit code. So raising a limit never breaks or changes a program.", "quantifier": "every pair of configurations, every registered tests and reporters, every command line", "why_tests_cant": "The limits are fixed when a program is compiled; tests exercise one or two configurations.", "anchors": ["include/snitch/snitch_config.hpp.config", "include/snitch/snitch_vector.hpp", "src/snitch_registry.cpp", "src/snitch_cli.cpp", "src/snitch_file.cpp"]}
{"id": "C102", "title": "Options about the output do not change what is tested", "statement": "Two command lines for the same program that ask for a run with the same filters run the same user code in the same order, report the same failures and skipped tests in the same order, and give the same exit code, whatever the verbosity, reporter, colours, output file, and order of the options. A lower verbosity leaves out some kinds of events and changes nothing else. If one completes, so does the other, if its file can be opened.", "quantifier": "every program, every pair of command lines with the same filters", "why_tests_cant": "Tests compare a few command lines on a few programs; the verbosity is consulted at every place where an event is reported, next to the bookkeeping of the run.", "anchors": ["src/snitch_main.cpp.main", "src/snitch_registry.cpp.registry::configure", "src/snitch_registry.cpp.registry::run_tests", "src/snitch_registry.cpp.registry::run"]}
{"id": "C103", "title": "The order in which the files of a program are linked does not change the results", "statement": "Two programs that differ only in the order in which their test cases are registered (the order of initialisation of static objects of different files, which the language does not specify) register the same tests, give the same exit code, and report the same about each test and the same totals; only the order of what is about different tests differs. The texts of their reports are a beginning, one text for each test, and an end, all the same but for the order.", "quantifier": "every pair of programs with the same tests in different orders, every command line", "why_tests_cant": "A test suite is linked in one order; a dependence on the order (a counter, an indentation or a buffer carried from one test to the next) shows only in others.", "anchors": ["include/snitch/snitch_registry.hpp.registry::add", "src/snitch_registry.cpp.registry::add_impl", "src/snitch_registry.cpp.registry::run_selected_tests", "src/snitch_registry.cpp.registry::list_all_tags", "src/snitch_reporter_xml.cpp.impl::xml::reporter::report"]}
{"id": "C104", "title": "Adding tests to a program changes nothing for the others", "statement": "If tests are added to a program (or removed from it), a run reports the same about each of the other tests: the events of the smaller program are those of the larger one without the added tests, and the totals are those of the tests that remain. If the filters do not choose the added tests, the whole run, its text and its exit code are the same. The text about a test in a report does not depend on the other tests, and the smaller program succeeds if the larger one does.", "quantifier": "every pair of programs where one has the tests of the other and more, in any position, every command line that runs tests", "why_tests_cant": "A test suite is one program; state carried from one test to the next (a level of indentation, a counter, a section left open) shows only when the set of tests changes, and there are unboundedly many sets.", "anchors": ["src/snitch_registry.cpp:run_selected_tests", "src/snitch_registry.cpp:run_tests", "src/snitch_reporter_console.cpp:report", "src/snitch_reporter_teamcity.cpp:report", "src/snitch_reporter_catch2_xml.cpp:report"]}
{"id": "C105", "title": "A failed check is never silent", "statement": "If a check fails while a test that the filters choose is run, and this is neither expected nor allowed by the tags of the test, then the failure is reported at every verbosity, the report shows it with the file and the line whatever the lengths of the names and messages (a text that begins with failed on the console, a message testFailed for TeamCity, an element Failure or an Expression with success=\"false\" in XML), and the program returns 1. If no check fails so, the program returns 0.", "quantifier": "every program, command line that runs tests, verbosity, colour mode, reporter of the library and length of the names and messages", "why_tests_cant": "A test suite shows that certain failures are printed. That none is ever lost concerns all programs and all texts, in particular those too long for the buffers of the reporters.", "anchors": ["src/snitch_registry.cpp:run_selected_tests", "src/snitch_registry.cpp:report_assertion", "src/snitch_main.cpp:main", "src/snitch_reporter_console.cpp:report", "src/snitch_reporter_teamcity.cpp:report", "src/snitch_reporter_catch2_xml.cpp:report"]}
{"id": "C106", "title": "What is too long is cut where it is, visibly, and nothing else is lost", "statement": "The print function used by reporters prints each of its arguments in turn. Texts are never cut. A number or a coloured text that is longer than the maximum message length is cut at this length in its place and followed by dots, and how it is printed depends on nothing else. So the text of the console reporter is known exactly for every event, listing and run, whatever the lengths of names, messages and values: that of short texts, where each of those too long is cut (full names at the maximum length of a name, the left-hand side of a check truncated), and all the rest is as usual.", "quantifier": "every list of arguments, event, list of tests, program, command line that runs tests with the console reporter, and limit", "why_tests_cant": "A test tries a few lengths. Whether a long text loses, duplicates or displaces something after it depends on the lengths of all the texts in the same message.", "anchors": ["include/snitch/snitch_registry.hpp:registry::print", "include/snitch/snitch_registry.hpp:registry::append_or_print", "include/snitch/snitch_console.hpp:append", "src/snitch_reporter_console.cpp:report"]}
{"id": "C107", "title": "What the TeamCity reporter prints, whatever the lengths of the texts", "statement": "The TeamCity report of any events is exactly one service message for each event, with the values in the documented order, whatever the lengths of names, filters, captures, expressions and messages. Each value is printed encoded, and cut with dots where there is no room; how it is printed depends on the limit and on this value only, so a text that is too long never changes or hides another value or message.", "quantifier": "every list of events, program, command line that runs tests with this reporter, and limits on names and messages", "why_tests_cant": "Encoding makes texts grow, so where a text is cut depends on all its characters. A test tries a few lengths and characters.", "anchors": ["src/snitch_reporter_teamcity.cpp:report", "src/snitch_reporter_teamcity.cpp:escape", "src/snitch_reporter_teamcity.cpp:make_full_name", "src/snitch_reporter_teamcity.cpp:make_escaped"]}
{"id": "C108", "title": "What the XML reporter prints, whatever the lengths of the texts and the nesting", "statement": "The XML report of any events is exactly the documented lines for each event, in order, each indented by two spaces for each open element and by sixteen at most. Attributes and contents are printed encoded, and cut with dots where there is no room; how a text is printed depends on the limit and on this text only, so a text that is too long never changes or hides another. The message of a skipped test, the name of the macro and the version are printed as they are.", "quantifier": "every list of events, number of open elements, program, command line that runs tests with this reporter, and limits on names and messages", "why_tests_cant": "Where a text is cut depends on how its characters are encoded, and the indentation on all the events before. A test tries a few of them.", "anchors": ["src/snitch_reporter_catch2_xml.cpp:report", "src/snitch_reporter_catch2_xml.cpp:escape", "src/snitch_reporter_catch2_xml.cpp:get_indent", "src/snitch_reporter_catch2_xml.cpp:open"]}
{"id": "C109", "title": "What a program prints when it lists its tests", "statement": "A program called with --list-tests, with or without filters, or with --list-tests-with-tag, prints exactly the list of the tests asked for, each once, in the order of registration, and nothing else but warnings about the command line: with the console reporter each name and its tags and then the number of tests, with the TeamCity reporter each name on a line, with the XML reporter one element for each test; names and texts that are too long are cut and do not change the rest. The list goes to the output file if there is one, and the exit code is 0. A program that is not asked to run its tests executes none of their code: what it prints depends only on their names, tags, types and lines, and it completes even if the tests would crash or never end.", "quantifier": "every program, command line that asks for a list of tests (for the last part: for anything but a run), limits and texts", "why_tests_cant": "There are infinitely many sets of tests, names, tags and filters; and a test that lists a program cannot show that no other body of a test would have changed what is printed.", "anchors": ["src/snitch_registry.cpp:list_tests", "src/snitch_registry.cpp:list_all_tests", "src/snitch_registry.cpp:list_tests_with_tag", "src/snitch_registry.cpp:run_tests_impl", "src/snitch_reporter_console.cpp:report", "src/snitch_reporter_teamcity.cpp:report", "src/snitch_reporter_catch2_xml.cpp:report"]}
{"id": "C110", "title": "What a program prints before its report", "statement": "A program called with a command line that it can use prints on the console, before anything else, one warning for each unknown option and one for each unknown value of --colour-mode, --color and --verbosity, in this order, each once, with the colours in force at that point, and then what there is to say about the reporter asked for, which is nothing if there is none or if it is one of the library's asked for by its name alone. There are no other warnings: in a run or a listing of tests all the rest is the report, on the console or in the output file; and if nothing in the command line is unknown then nothing but the report is printed, so the console stays empty when there is an output file. Warnings never go to the output file.", "quantifier": "every program, command line, set of reporters, limits and texts; warnings that are longer than the longest message are cut", "why_tests_cant": "There are infinitely many command lines and reporters; a test shows that some warnings are printed, not that there are never others.", "anchors": ["src/snitch_cli.cpp:parse_arguments", "src/snitch_registry.cpp:configure", "src/snitch_registry.cpp:parse_colour_mode_option", "src/snitch_registry.cpp:parse_color_option", "src/snitch_registry.cpp:parse_reporter"]}
{"id": "C111", "title": "What a program prints when it is asked for its help, tags or reporters, or cannot use its command line", "statement": "Asked for its help, the list of its tags or the list of its reporters, a program prints, on the console, the warnings of C110 and then exactly this answer and nothing else: the help text with the name of the program without its folder and extension; each tag of a test, hidden or not, once, in the order of the dictionary, one per line; the names of the reporters in the order of their registration, one per line. If several are asked for, the answer is that of the first in the order help, tests with a tag, tags, reporters. Nothing is written to an output file even if one is given, no test is run, and the exit code is 0. With a command line that it cannot use, a program prints all that is wrong with it, an empty line and the help, and nothing else, and the exit code is 1.", "quantifier": "every program, command line, set of reporters, limits and texts; lines that are longer than the longest message are cut; for the tags, every suite with well-formed tags in which a tag such as [.x] comes after [x]", "why_tests_cant": "There are infinitely many command lines, suites and sets of reporters; a test shows that some lines are printed, not that there are never others.", "anchors": ["src/snitch_registry.cpp:run_tests_impl", "src/snitch_registry.cpp:list_all_tags", "src/snitch_registry.cpp:list_all_reporters", "src/snitch_cli.cpp:print_help", "src/snitch_cli.cpp:parse_arguments", "src/snitch_main.cpp:main"]}
{"id": "C112", "title": "Colours change nothing but colours in reports", "statement": "Two runs of the same program, with the same filters and verbosity, of which only one asks for colours, whether on the console or in an output file, have the same exit code. With the console reporter, what one reports is what the other reports once the sequences that change the colour are taken out, and in the report without colours there are none. With the XML and TeamCity reporters the two reports are the same.", "quantifier": "every program, pair of command lines (with the console reporter without options), limits and texts; for the console, texts that contain no such sequences and are not too long to be displayed", "why_tests_cant": "Tests compare the two reports for some programs; colours could still be added at a place, or change what is shown, in a program or an event that no test has.", "anchors": ["include/snitch/snitch_console.hpp:make_colored", "src/snitch_reporter_console.cpp:report", "src/snitch_registry.cpp:configure"]}
{"id": "C113", "title": "Reports for other programs are complete whatever the verbosity", "statement": "With the XML or the TeamCity reporter, two command lines with the same filters, neither of which asks for the full verbosity (or both), give the same exit code and exactly the same report, whatever verbosity, colours and output file they ask for: quiet and normal take nothing away. If only one asks for the full verbosity, its report has the same events and the checks that pass, and nothing else.", "quantifier": "every program, pair of command lines with the same filters, limits, clock, and texts of any length", "why_tests_cant": "All programs and command lines; the verbosity is raised as a side effect of starting the reporter, which options before or after might undo.", "anchors": ["src/snitch_reporter_catch2_xml.cpp: reporter::reporter", "src/snitch_reporter_teamcity.cpp: initialize", "src/snitch_registry.cpp: registry::configure, parse_reporter", "README.md: verbosity of reporters"]}
{"id": "C114", "title": "Reports name the test that they are about", "statement": "Whatever a test does, every check, failure and skip reported between its start and its end is reported with the name and tags of this test, and each failure is reported as expected or allowed exactly as the tags of this test say. In a run the tests chosen follow one another in registration order. In the TeamCity report there is one suite, in which each test has its testStarted, then only messages with the same name or about sections, then its testFinished with the same name, whatever the lengths of names; a testFailed is among them exactly if a check failed unexpectedly, and a testIgnored exactly if the test was skipped. In the XML report there is one TestCase element for each, with its name, that has elements about sections, checks and skips only, and says that the test did not succeed exactly if a check failed unexpectedly.", "quantifier": "every test, program, command line, limits, and texts of any length", "why_tests_cant": "All bodies of tests, with any nesting of sections, checks, exceptions and skips, and all names.", "anchors": ["src/snitch_registry.cpp: report_assertion_impl, report_skipped, registry::run, registry::run_selected_tests", "src/snitch_reporter_teamcity.cpp: report, send_message", "src/snitch_reporter_catch2_xml.cpp: report", "include/snitch/snitch_test_data.hpp: event::data"]}
{"id": "C115", "title": "The end of a report agrees with what happened and with the exit code", "statement": "With the console reporter, unless the verbosity is quiet, a report ends with a line that says success and that all tests passed if the exit code is 0, and error if it is 1; it has the number of tests run, the number of those that failed (all or some), the number of checks made and of tests skipped, and these are the numbers of what was reported for each test. With the XML reporter the last elements have the numbers of checks and of tests that passed, failed, failed as allowed or expected, and were skipped, and the document is closed; tests that were skipped are counted as successes. The exit code is 1 exactly if the number of tests that failed is not 0.", "quantifier": "every program, command line, limits, and texts of any length (fewer than 2^64 tests and checks)", "why_tests_cant": "All bodies of tests and all numbers of tests and checks; the numbers are added up over the run while texts that are too long are cut.", "anchors": ["src/snitch_registry.cpp: registry::run_selected_tests", "src/snitch_reporter_console.cpp: report (test_run_ended)", "src/snitch_reporter_catch2_xml.cpp: report (test_run_ended)", "src/snitch_main.cpp: main"]}
