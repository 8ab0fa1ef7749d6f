{
 "claims": [
  {
   "property": "C01",
   "status": "proved",
   "theorems": [
    "C01_vector_is_bounded_list",
    "C01_list_effects_deterministic",
    "C01_from_list"
   ],
   "note": ""
  },
  {
   "property": "C02",
   "status": "proved",
   "theorems": [
    "C02_append_string",
    "C02_constexpr_agrees"
   ],
   "note": ""
  },
  {
   "property": "C03",
   "status": "proved",
   "theorems": [
    "C03_append_several",
    "C03_append_or_truncate",
    "C03_resize_or_truncate",
    "C03_string_from"
   ],
   "note": ""
  },
  {
   "property": "C04",
   "status": "proved",
   "theorems": [
    "C04_append_int",
    "C04_append_uint",
    "C04_append_int_constexpr",
    "C04_append_uint_constexpr",
    "C04_notation_unique"
   ],
   "note": ""
  },
  {
   "property": "C05",
   "status": "proved",
   "theorems": [
    "C05_append_pointer",
    "C05_append_null_pointer"
   ],
   "note": ""
  },
  {
   "property": "C06",
   "status": "proved",
   "theorems": [
    "C06_replace_all_exact",
    "C06_replacement_exists_unique",
    "C06_shorter_always_fits"
   ],
   "note": ""
  },
  {
   "property": "C07",
   "status": "partial",
   "theorems": [
    "C07_overflow_prefix_refuted",
    "C07_overflow_prefix_partial",
    "C07_overflow_prefix_char_partial"
   ],
   "note": "False as stated for patterns of two or more characters (witness). Proved: exact for one-character patterns; in general all but the last |pattern|-1 characters are right, returns false, buffer full."
  },
  {
   "property": "C08",
   "status": "partial",
   "theorems": [
    "C08_terminates_refuted",
    "C08_terminates_partial"
   ],
   "note": "False for the empty pattern (never returns, proved for every input). Proved for every non-empty pattern, with a bound on the number of replacements."
  },
  {
   "property": "C09",
   "status": "proved",
   "theorems": [
    "C09_escape_all_or_truncate",
    "C09_escape_longest",
    "C09_escape_requires_longer"
   ],
   "note": ""
  },
  {
   "property": "C10",
   "status": "proved",
   "theorems": [
    "C10_find_first_not_escaped"
   ],
   "note": ""
  },
  {
   "property": "C11",
   "status": "proved",
   "theorems": [
    "C11_is_match_is_glob"
   ],
   "note": ""
  },
  {
   "property": "C12",
   "status": "proved",
   "theorems": [
    "C12_name_filter",
    "C12_tags_filter",
    "C12_filter",
    "C12_split_commas_unique",
    "C12_split_tags_unique",
    "C12_order_irrelevant"
   ],
   "note": ""
  },
  {
   "property": "C13",
   "status": "proved",
   "theorems": [
    "C13_cli_selection",
    "C13_order_irrelevant"
   ],
   "note": ""
  },
  {
   "property": "C14",
   "status": "proved",
   "theorems": [
    "C14_default_selection",
    "C14_hidden_needs_positive_filter",
    "C14_hidden_selection",
    "C14_dot_filter"
   ],
   "note": ""
  },
  {
   "property": "C15",
   "status": "proved",
   "theorems": [
    "C15_and_algebra",
    "C15_or_algebra",
    "C15_explicit_wins",
    "C15_any_order_and_bracketing"
   ],
   "note": ""
  },
  {
   "property": "C16",
   "status": "proved",
   "theorems": [
    "C16_tags_read_back",
    "C16_unbracketed_rejected"
   ],
   "note": ""
  },
  {
   "property": "C17",
   "status": "proved",
   "theorems": [
    "C17_listing_agrees",
    "C17_listing_selected",
    "C17_listing_all"
   ],
   "note": ""
  },
  {
   "property": "C18",
   "status": "proved",
   "theorems": [
    "C18_summary",
    "C18_command"
   ],
   "note": ""
  },
  {
   "property": "C19",
   "status": "proved",
   "theorems": [
    "C19_counters",
    "C19_number_of_checks"
   ],
   "note": ""
  },
  {
   "property": "C20",
   "status": "proved",
   "theorems": [
    "C20_final_state"
   ],
   "note": ""
  },
  {
   "property": "C21",
   "status": "partial",
   "theorems": [
    "C21_skip_partial",
    "C21_no_further_pass",
    "C21_skip_overrides_refuted"
   ],
   "note": "Proved: state, counters, silence and no further pass after a skip without earlier failure (all bodies). The documented 'a skip overrides any earlier status' is refuted (CHECK failure then SKIP ends failed)."
  },
  {
   "property": "C22",
   "status": "proved",
   "theorems": [
    "C22_passes",
    "C22_specification"
   ],
   "note": ""
  },
  {
   "property": "C23",
   "status": "proved",
   "theorems": [
    "C23_section_events",
    "C23_in_try"
   ],
   "note": ""
  },
  {
   "property": "C24",
   "status": "partial",
   "theorems": [
    "C24_nesting_refuted",
    "C24_witnesses_refuted",
    "C24_aborted_partial",
    "C24_events"
   ],
   "note": "Refuted (sections left without end event; sections ended out of order). Proved exactly (C24_events): the events are those of a beginning of the complete depth-first walk, then the ends of the sections the exception leaves; they are well nested if and only if these are all the sections open there. Always so when no section contains two sections side by side."
  },
  {
   "property": "C25",
   "status": "proved",
   "theorems": [
    "C25_within_limits",
    "C25_beyond_limits",
    "C25_no_other_error"
   ],
   "note": "No failed assertion within the limits and no other error at all: every body. Beyond the limits (sections, captures, or a check inside a check inside the innermost section) the assertion fails: bodies that run to their end."
  },
  {
   "property": "C26",
   "status": "partial",
   "theorems": [
    "C26_context",
    "C26_exact_place_refuted"
   ],
   "note": "Sections and captures: proved for every plain body, including checks within the code of other checks. The place is exact unless the check contains other checks or sections before its verdict (C26_exact_place_refuted)."
  },
  {
   "property": "C27",
   "status": "proved",
   "theorems": [
    "C27_escaping_exception"
   ],
   "note": ""
  },
  {
   "property": "C28",
   "status": "proved",
   "theorems": [
    "C28_scoped",
    "C28_added",
    "C28_too_many"
   ],
   "note": ""
  },
  {
   "property": "C29",
   "status": "partial",
   "theorems": [
    "C29_labels_partial",
    "C29_trimmed_unique",
    "C29_digit_separator_refuted",
    "C29_braces_refuted",
    "C29_escaped_quote_refuted",
    "C29_template_refuted"
   ],
   "note": "Refuted for digit separators, escaped quotes and commas in braces or between template arguments. Proved for arguments made of plain text, literals without escaped quotes and balanced parentheses."
  },
  {
   "property": "C30",
   "status": "proved",
   "theorems": [
    "C30_verbosity_filters",
    "C30_run"
   ],
   "note": ""
  },
  {
   "property": "C31",
   "status": "proved",
   "theorems": [
    "C31_restores",
    "C31_terminates",
    "C31_inside",
    "C31_threads",
    "C31_threads_record"
   ],
   "note": ""
  },
  {
   "property": "C32",
   "status": "proved",
   "theorems": [
    "C32_fails",
    "C32_recorded",
    "C32_options"
   ],
   "note": ""
  },
  {
   "property": "C33",
   "status": "proved",
   "theorems": [
    "C33_priority",
    "C33_help",
    "C33_list_tests_with_tag",
    "C33_list_tags",
    "C33_list_reporters",
    "C33_no_test_run",
    "C33_position_irrelevant"
   ],
   "note": ""
  },
  {
   "property": "C34",
   "status": "partial",
   "theorems": [
    "C34_console_partial",
    "C34_others_partial",
    "C34_refuted",
    "C34_one_option_partial",
    "C34_unknown_partial",
    "C34_cut_partial",
    "C34_any_options_partial",
    "C34_right_partial"
   ],
   "note": "Refuted for two or more options (witness: a=1::b=2 configures b twice, a never). Proved: what any number of options, well formed or not, amounts to (C34_any_options_partial), and that this is right iff there is at most one option or twice the same (C34_right_partial); unknown names change nothing."
  },
  {
   "property": "C35",
   "status": "partial",
   "theorems": [
    "C35_run_partial",
    "C35_messages_partial",
    "C35_agree_partial",
    "C35_refuted",
    "C35_single_option_partial"
   ],
   "note": "Refuted when --color and --colour-mode are both given and disagree, and with --out. Which colours are used is proved exactly for every accepted command line, for reporters that leave the colours alone."
  },
  {
   "property": "C36",
   "status": "proved",
   "theorems": [
    "C36_registration"
   ],
   "note": ""
  },
  {
   "property": "C37",
   "status": "proved",
   "theorems": [
    "C37_print_texts",
    "C37_print_pieces",
    "C37_print_never_fails"
   ],
   "note": ""
  },
  {
   "property": "C38",
   "status": "partial",
   "theorems": [
    "C38_colour_partial",
    "C38_append_refuted",
    "C38_print_refuted"
   ],
   "note": "Refuted: the end sequence is cut when the text fits and the sequence does not, and cli::print can overwrite it with dots (every message length >= 12). Proved: the exact result for every buffer, text and sequences."
  },
  {
   "property": "C39",
   "status": "proved",
   "theorems": [
    "C39_xml_escaped",
    "C39_xml_escape_buffer",
    "C39_no_raw",
    "C39_decoding",
    "C39_encodable"
   ],
   "note": ""
  },
  {
   "property": "C40",
   "status": "partial",
   "theorems": [
    "C40_refuted_raw",
    "C40_refuted_cut",
    "C40_one_kind_partial",
    "C40_result_partial"
   ],
   "note": "Refuted for every capacity of at least 8 characters (a raw '<' is left; an entity is cut). Proved: the exact result for every text and capacity; safe for texts with one kind of special character."
  },
  {
   "property": "C41",
   "status": "proved",
   "theorems": [
    "C41_teamcity_escaped",
    "C41_teamcity_escape_buffer",
    "C41_no_raw",
    "C41_decoding",
    "C41_encodable"
   ],
   "note": ""
  },
  {
   "property": "C42",
   "status": "partial",
   "theorems": [
    "C42_run_partial",
    "C42_nested_partial",
    "C42_level",
    "C42_document_partial",
    "C42_listing",
    "C42_refuted_skip",
    "C42_refuted_abort"
   ],
   "note": "Proved: the report of every run of tests whose events are properly nested (C24) is a document for the exact element tree describing the run, and ends at level 0, provided the escaped texts fit and SKIP messages have no special character; same for listings. For all tests and texts the level at the end is the number of sections started and not ended (C42_level). Refuted without these: SKIP messages are printed raw, and aborted tests may leave elements open. The exact output without any condition on texts and nesting is C108."
  },
  {
   "property": "C43",
   "status": "partial",
   "theorems": [
    "C43_bounds",
    "C43_no_wrap",
    "C43_totals",
    "C43_sections_refuted"
   ],
   "note": "Proved for every run: no subtraction wraps; summary numbers are the numbers of succeeded assertions and of tests ended with success or skipped. Refuted for sections containing other sections: their counters are those of the last pass only."
  },
  {
   "property": "C44",
   "status": "partial",
   "theorems": [
    "C44_comparison",
    "C44_operator_partial",
    "C44_operator_refuted",
    "C44_unary",
    "C44_opaque"
   ],
   "note": "Proved: verdict, expanded text (kept iff it fits), unary and opaque expressions, for every operand and expectation. The operator claim is proved for operands that are comparable and refuted otherwise (CHECK(nan < 1) prints 'nan >= 1')."
  },
  {
   "property": "C45",
   "status": "proved",
   "theorems": [
    "C45_contains_substring",
    "C45_with_what_contains",
    "C45_is_any_of",
    "C45_substring_description",
    "C45_any_of_description",
    "C45_equal",
    "C45_that"
   ],
   "note": "Every text, pattern, list of alternatives and buffer; == and != of a matcher agree with the verdict."
  },
  {
   "property": "C46",
   "status": "proved",
   "theorems": [
    "C46_once",
    "C46_order",
    "C46_all_destroyed",
    "C46_get",
    "C46_self_assignment"
   ],
   "note": "Every sequence of operations on existing storages, with constructors that may throw. Documents that a storage moved onto itself loses its object."
  },
  {
   "property": "C47",
   "status": "proved",
   "theorems": [
    "C47_fields",
    "C47_values",
    "C47_without_bit_cast"
   ],
   "note": "Every 32- and 64-bit pattern, with std::bit_cast; without it the same fields except for the sign of -0.0 and the sign/payload of a NaN (stated exactly)."
  },
  {
   "property": "C48",
   "status": "partial",
   "theorems": [
    "C48_make",
    "C48_add_partial",
    "C48_mul_partial",
    "C48_add_refuted",
    "C48_wrap_refuted",
    "C48_mul_refuted"
   ],
   "note": "Proved for the operands the library adds and multiplies (normalised digits below 2^64-5, smaller exponent first), with relative errors 6e-18 and 4.5e-17. Refuted in general: operator+ is wrong when the first operand has the larger exponent (1 + 0.125 = 1.0125), digits near 2^64 wrap around, zero times a negative exponent overflows."
  },
  {
   "property": "C49",
   "status": "proved",
   "theorems": [
    "C49_shape",
    "C49_rounding"
   ],
   "note": "Every finite float and double, every precision of at least 1, every remaining capacity; rounding of the digits to nearest even."
  },
  {
   "property": "C50",
   "status": "partial",
   "theorems": [
    "C50_path_partial",
    "C50_path_refuted",
    "C50_handles",
    "C50_all_closed",
    "C50_defined"
   ],
   "note": "Handles: proved for every sequence of operations. Path: refuted for the length max_path_length+1 (no terminator), proved for every other length."
  },
  {
   "property": "C51",
   "status": "proved",
   "theorems": [
    "C51_print",
    "C51_length",
    "C51_pieces"
   ],
   "note": ""
  },
  {
   "property": "C52",
   "status": "partial",
   "theorems": [
    "C52_list_tags_refuted",
    "C52_list_tags_partial",
    "C52_shortcuts_refuted"
   ],
   "note": "Exact: the list is right if and only if each shortcut '[.x]' comes after the tag '[x]' itself. Otherwise (C52_shortcuts_refuted) no list is printed: a destroyed local buffer is read, or an assertion fails."
  },
  {
   "property": "C53",
   "status": "proved",
   "theorems": [
    "C53_executable",
    "C53_unique"
   ],
   "note": ""
  },
  {
   "property": "C54",
   "status": "partial",
   "theorems": [
    "C54_registration",
    "C54_selection_partial",
    "C54_same_name_refuted"
   ],
   "note": "Registration fully proved. Selection by exact name proved unless an earlier reporter has the same name (witness)."
  },
  {
   "property": "C55",
   "status": "proved",
   "theorems": [
    "C55_exit_status"
   ],
   "note": ""
  },
  {
   "property": "C56",
   "status": "partial",
   "theorems": [
    "C56_terminates_partial",
    "C56_terminates_refuted",
    "C56_in_try_partial",
    "C56_steady_refuted"
   ],
   "note": "Refuted for bodies whose remaining sections are not reached in a later pass (endless loop, proved for every number of passes), even if they do the same in every pass (C56_steady_refuted). Proved for all regular bodies, and for bodies with sections inside try blocks and checks when exceptions that leave a section leave the test and all passes go through the same sections (C56_in_try_partial)."
  },
  {
   "property": "C57",
   "status": "proved",
   "theorems": [
    "C57_output_file",
    "C57_print_after_run_refuted"
   ],
   "note": "Proved for main. Additional finding: printing through the registry after such a run uses a destroyed object (C57_print_after_run_refuted)."
  },
  {
   "property": "C58",
   "status": "proved",
   "theorems": [
    "C58_accurate",
    "C58_default",
    "C58_without_bit_cast",
    "C58_to_chars",
    "C58_tables"
   ],
   "note": "Every finite float and double, every precision of at least 1: error at most half a unit of the last digit plus 0.48 units of the 16th digit; exact when 16 digits suffice. With std::to_chars only the copying is modelled, the text is a parameter."
  },
  {
   "property": "C59",
   "status": "partial",
   "theorems": [
    "C59_messages_partial",
    "C59_unambiguous",
    "C59_listing",
    "C59_total",
    "C59_refuted"
   ],
   "note": "Refuted as stated: names and descriptions of sections (and macro names) are not escaped, so that a section named it's gives a line that is no message (C59_refuted). Proved in full when these have no special character and the escaped texts fit; uniqueness of decoding and totality hold without condition. The exact output without any condition is C107."
  },
  {
   "property": "C60",
   "status": "proved",
   "theorems": [
    "C60_text",
    "C60_colours",
    "C60_total"
   ],
   "note": "Texts in colour and numbers must fit in max_message_length, full names in max_test_name_length; what is printed otherwise is C106."
  },
  {
   "property": "C61",
   "status": "proved",
   "theorems": [
    "C61_choice",
    "C61_every_test"
   ],
   "note": ""
  },
  {
   "property": "C62",
   "status": "proved",
   "theorems": [
    "C62_console"
   ],
   "note": ""
  },
  {
   "property": "C63",
   "status": "partial",
   "theorems": [
    "C63_xml_partial",
    "C63_teamcity_partial"
   ],
   "note": "Proved for XML when tests leave no section open and texts are such that escaping works (see C42), for TeamCity when texts fit and section names need no escape (see C59). The exact output in general is C107 and C108."
  },
  {
   "property": "C64",
   "status": "partial",
   "theorems": [
    "C64_alive",
    "C64_refuted"
   ],
   "note": "Proved for whole programs (one configuration, one run). Refuted for a second run of the same registry with a reporter registered as a type: the object has been destroyed and the report is a failed assertion."
  },
  {
   "property": "C65",
   "status": "partial",
   "theorems": [
    "C65_partial",
    "C65_in_try_partial",
    "C65_refuted",
    "C65_unnotified_refuted"
   ],
   "note": "Refuted when a test catches the exceptions of its own sections: a section ends twice, and the depth of the XML report wraps around; also without a later exception if notify_exception_handled is left out. Proved for all regular bodies, and for bodies with sections inside try blocks and checks when no exception leaves a section and handlers notify."
  },
  {
   "property": "C66",
   "status": "proved",
   "theorems": [
    "C66_never_fails",
    "C66_reporters"
   ],
   "note": ""
  },
  {
   "property": "C67",
   "status": "proved",
   "theorems": [
    "C67_macros",
    "C67_events",
    "C67_condition",
    "C67_that"
   ],
   "note": ""
  },
  {
   "property": "C68",
   "status": "partial",
   "theorems": [
    "C68_partial",
    "C68_refuted"
   ],
   "note": "Exact if and only if the spelling does not contain the compiler's end marker; otherwise cut there. Refuted in general, for each compiler (two types with the same wrong name)."
  },
  {
   "property": "C69",
   "status": "proved",
   "theorems": [
    "C69_declarations"
   ],
   "note": ""
  },
  {
   "property": "C70",
   "status": "proved",
   "theorems": [
    "C70_filter",
    "C70_argument",
    "C70_runs"
   ],
   "note": ""
  },
  {
   "property": "C71",
   "status": "partial",
   "theorems": [
    "C71_partial",
    "C71_refuted"
   ],
   "note": "Refuted for a REQUIRE inside code evaluated by a check on exceptions (CHECK_NOTHROW swallows the abort). Proved for every other body: also irregular ones, any configuration, any pass."
  },
  {
   "property": "C72",
   "status": "proved",
   "theorems": [
    "C72_reading",
    "C72_check",
    "C72_refused"
   ],
   "note": ""
  },
  {
   "property": "C73",
   "status": "proved",
   "theorems": [
    "C73_calls"
   ],
   "note": ""
  },
  {
   "property": "C74",
   "status": "proved",
   "theorems": [
    "C74_case",
    "C74_run"
   ],
   "note": ""
  },
  {
   "property": "C75",
   "status": "partial",
   "theorems": [
    "C75_same_run",
    "C75_sections",
    "C75_cases",
    "C75_run",
    "C75_timed",
    "C75_section_total_refuted",
    "C75_section_late_refuted"
   ],
   "note": "Proved for every clock and all test programs as stated. What a user would also expect of the duration of a section is refuted: it covers only the last pass through the section, and, when the section is left by an exception caught in the test, also the time until the next check."
  },
  {
   "property": "C76",
   "status": "partial",
   "theorems": [
    "C76_seconds",
    "C76_teamcity_microseconds",
    "C76_teamcity_milliseconds_refuted"
   ],
   "note": "Seconds: proved for every rounding. TeamCity: proved to be microseconds, so refuted as milliseconds."
  },
  {
   "property": "C77",
   "status": "partial",
   "theorems": [
    "C77_same",
    "C77_throw_partial",
    "C77_specification_partial",
    "C77_sections_refuted",
    "C77_passes_refuted",
    "C77_captures_refuted",
    "C77_shouldfail_refuted"
   ],
   "note": "Proved for every body that does not catch the exception of the handler (and, if tagged [!shouldfail], has one value per CAPTURE). Refuted otherwise: the exception leaves the depth of sections off by one and the values of a CAPTURE that did not fit in place."
  },
  {
   "property": "C78",
   "status": "partial",
   "theorems": [
    "C78_reporters",
    "C78_reporter",
    "C78_tests_partial",
    "C78_test_partial",
    "C78_tests_refuted",
    "C78_terminates"
   ],
   "note": "Proved for reporters, and for tests whose names fit. Refuted for tests with a name that is too long: they stay registered. What is printed is proved for every failure (when messages may have 40 characters)."
  },
  {
   "property": "C79",
   "status": "proved",
   "theorems": [
    "C79_direct",
    "C79_lifetime",
    "C79_undefined"
   ],
   "note": ""
  },
  {
   "property": "C80",
   "status": "partial",
   "theorems": [
    "C80_inline",
    "C80_counters",
    "C80_final_state",
    "C80_skip",
    "C80_fixture",
    "C80_conclusions",
    "C80_within_limits",
    "C80_required_in_destructor",
    "C80_place_refuted",
    "C80_required_place_refuted",
    "C80_section_refuted"
   ],
   "note": "Proved: what is executed, the counters, the final state, the limits and when the program ends, for every body and every exception; everything reported when no exception leaves the blocks of the objects. Refuted for the places reported when one does: the checks of a destructor are then reported at the line of its first check or of the REQUIRE that failed, the exception as thrown in a check, and sections may never end."
  },
  {
   "property": "C81",
   "status": "proved",
   "theorems": [
    "C81_help",
    "C81_agree",
    "C81_messages",
    "C81_explained"
   ],
   "note": ""
  },
  {
   "property": "C82",
   "status": "proved",
   "theorems": [
    "C82_one_reading",
    "C82_tags",
    "C82_selection",
    "C82_failures",
    "C82_refused",
    "C82_well_formed",
    "C82_one_tag",
    "C82_mistyped_refuted"
   ],
   "note": "That every mistyped string is refused is not claimed, and refuted (C82_mistyped_refuted)."
  },
  {
   "property": "C83",
   "status": "proved",
   "theorems": [
    "C83_capacity",
    "C83_kept",
    "C83_main",
    "C83_room"
   ],
   "note": "The library cannot be compiled with a maximum below 32 (its table of options has the same capacity); the theorems cover all maxima from 2. The messages printed before the assertion are not stated."
  },
  {
   "property": "C84",
   "status": "proved",
   "theorems": [
    "C84_that",
    "C84_throws",
    "C84_that_calls",
    "C84_equal_calls",
    "C84_throws_calls",
    "C84_keeper_that",
    "C84_keeper_equal"
   ],
   "note": "C84_that and C84_throws: verdict, text and state from one call of match and one of describe_match, in this order, for matchers with any state. C84_*_calls: the calls as recorded by the matcher itself, for the three ways of using it. C84_keeper_*: a matcher that describes only what it saved. The run-time evaluation of CONSTEXPR_CHECK_THAT uses the same functions, with another matcher object for the compile-time one."
  },
  {
   "property": "C85",
   "status": "proved",
   "theorems": [
    "C85_condition",
    "C85_left",
    "C85_quiet",
    "C85_info",
    "C85_capture",
    "C85_full"
   ],
   "note": "C85_condition: what becomes of CHECK and its variants, for code that changes any state and may throw. C85_left: an exception that leaves the check is like one thrown by the operands (C20, C67). C85_quiet: for code that does neither, this is the model of C67. C85_info, C85_capture, C85_full: captures. For CHECK_THAT and CHECK_THROWS_MATCHES see C84_that, C84_throws."
  },
  {
   "property": "C86",
   "status": "proved",
   "theorems": [
    "C86_capture",
    "C86_check",
    "C86_evaluation",
    "C86_until",
    "C86_no_failure"
   ],
   "note": "C86_capture: equal runs. C86_check: equal but for the texts of expressions (the examples show that the texts do differ). C86_evaluation: equal but for macro names. C86_until, C86_no_failure: REQUIRE and CHECK. Bodies are `proper` as in C67."
  },
  {
   "property": "C87",
   "status": "proved",
   "theorems": [
    "C87_value",
    "C87_values",
    "C87_unique",
    "C87_configuration",
    "C87_distinct"
   ],
   "note": ""
  },
  {
   "property": "C88",
   "status": "partial",
   "theorems": [
    "C88_same_outcome",
    "C88_words_partial",
    "C88_until",
    "C88_words_refuted"
   ],
   "note": "C88_same_outcome ties the model with last words to the one of C19-C28. C88_words_partial: the limit named is exceeded; the explanation is as claimed for sections and captures. Not for the number of sections and checks that are open together: the message is then \"small vector is full\", with no explanation (C88_words_refuted). C88_until: what larger limits give."
  },
  {
   "property": "C89",
   "status": "proved",
   "theorems": [
    "C89_same",
    "C89_unknown",
    "C89_order",
    "C89_colour_mode"
   ],
   "note": ""
  },
  {
   "property": "C90",
   "status": "proved",
   "theorems": [
    "C90_default",
    "C90_repeated",
    "C90_complete"
   ],
   "note": ""
  },
  {
   "property": "C91",
   "status": "partial",
   "theorems": [
    "C91_shown",
    "C91_truth",
    "C91_misread",
    "C91_misread_right",
    "C91_always_true_refuted",
    "C91_identified",
    "C91_single"
   ],
   "note": "Proved: what is shown for all values of built-in types; for booleans, integers and enumerators the verdict, the truth of what is shown, and that it identifies the values, unless a negative number meets an unsigned type that is not narrower. There the exact meaning is given (C91_misread), and the truth of what is shown is refuted: CHECK(-1 < 1u) fails and shows '-1 >= 1'."
  },
  {
   "property": "C92",
   "status": "partial",
   "theorems": [
    "C92_made",
    "C92_succeeds",
    "C92_circular",
    "C92_reported_refuted",
    "C92_unguarded",
    "C92_directory_refuted",
    "C92_alone_refuted"
   ],
   "note": "Proved for absolute directories: contents, order, completeness, uniqueness; success when files exist and chains of inclusions are not longer than the recursion limit; failure on circular inclusions. Refuted: they are never reported as circular (the recursion limit is hit first); an inclusion that does not begin its line is left in the result; a project directory with '.cpp' in its name has all its headers guarded."
  },
  {
   "property": "C93",
   "status": "partial",
   "theorems": [
    "C93_partial",
    "C93_refuted"
   ],
   "note": "The full claim is false of the code (C93_refuted): three of the macros for templates are not accepted by the compiler when snitch is disabled. Everything else is proved for every file."
  },
  {
   "property": "C94",
   "status": "partial",
   "theorems": [
    "C94_partial",
    "C94_refuted",
    "C94_temporary"
   ],
   "note": "The full claim is false of the code (C94_refuted: an exception leaves the block of the name; C94_temporary: a temporary name). Proved where no exception leaves the block of a name, handlers notify, and sections in destructors have literals as names. Covers names of sections only, not those of tests."
  },
  {
   "property": "C95",
   "status": "partial",
   "theorems": [
    "C95_contract",
    "C95_as_text",
    "C95_truncation",
    "C95_info",
    "C95_capture",
    "C95_comparison",
    "C95_unary",
    "C95_any_of_partial",
    "C95_check_refuted",
    "C95_any_of_refuted"
   ],
   "note": "The full claim is false of the code: a text too long is not shown at all in checks (C95_check_refuted), and dots can be in the middle of descriptions of alternatives (C95_any_of_refuted). Everything else is proved for every function that meets the contract. Exceptions of such functions are in C85; type checking (which types have such a function) is not modelled."
  },
  {
   "property": "C96",
   "status": "partial",
   "theorems": [
    "C96_same_program",
    "C96_same_codes",
    "C96_file",
    "C96_anywhere",
    "C96_report",
    "C96_reports",
    "C96_end",
    "C96_console_partial",
    "C96_console_refuted",
    "C96_full_disk_refuted"
   ],
   "note": "Proved for the output file at every point of death (with each reporter and texts of any length: C96_reports), for programs that end by themselves, and for what of the console can be relied on. The claims about the console and about reports that cannot be written are false of the code: stdout is never flushed, so nothing may be left of it, not even the message of terminate_with (C96_console_refuted); the results of fwrite and fflush are not looked at (C96_full_disk_refuted)."
  },
  {
   "property": "C97",
   "status": "proved",
   "theorems": [
    "C97_order",
    "C97_reading",
    "C97_checks",
    "C97_types_refuted"
   ],
   "note": "Proved for all floats and doubles but NaN, which is not ordered. Operands of different types are printed with different numbers of digits, and can be shown the wrong way round (C97_types_refuted). At run time with std::to_chars the texts are those of the standard library, which is not modelled."
  },
  {
   "property": "C98",
   "status": "partial",
   "theorems": [
    "C98_outcome",
    "C98_cost_partial",
    "C98_cost_refuted"
   ],
   "note": "The full claim is false of the code: the cost is exponential in the number of wildcards (C98_cost_refuted). Proved: the bound (1 + |pattern|) * (1 + |name|)^wildcards, hence a product of lengths for patterns with one wildcard, and a depth of at most the number of wildcards, which is reached."
  },
  {
   "property": "C99",
   "status": "proved",
   "theorems": [
    "C99_same_events",
    "C99_divided",
    "C99_exit_codes"
   ],
   "note": "The outcomes are stated for the runs themselves (run_selected_tests) at the highest verbosity, the exit codes for whole programs and any command lines. The model has no time and no data shared between tests other than the registry: tests that change what other tests see are outside."
  },
  {
   "property": "C100",
   "status": "partial",
   "theorems": [
    "C100_negation_partial",
    "C100_negation_refuted",
    "C100_commas",
    "C100_arguments_partial",
    "C100_hidden_partial",
    "C100_arguments_refuted",
    "C100_exit_codes_partial"
   ],
   "note": "The full claim is false of the code: ~ applies to the first of several tags or of several comma-separated filters only (C100_negation_refuted), and a filter given as a further argument can select a hidden test that was not selected before (C100_arguments_refuted). Proved: negation of filters in one piece, commas for all filters (without dangling backslash), several arguments for tests that are not hidden."
  },
  {
   "property": "C101",
   "status": "partial",
   "theorems": [
    "C101_events",
    "C101_texts",
    "C101_registration",
    "C101_lengths_refuted",
    "C101_xml_names_refuted"
   ],
   "note": "Events, exit code and all texts (C101_events, C101_texts) for all the limits that are not lengths of cut texts. False for the limits on messages and captures, whose texts are longer with larger limits (C101_lengths_refuted), and for the limit on names of tests with the XML reporter, which cuts names after escaping them (C101_xml_names_refuted)."
  },
  {
   "property": "C102",
   "status": "proved",
   "theorems": [
    "C102_events",
    "C102_completes",
    "C102_texts"
   ],
   "note": "Events and exit codes for all reporters (C102_events); completion if the reporters start and the output file can be opened (C102_completes); texts for the console reporter (C102_texts). The XML and TeamCity reporters raise the verbosity to high (C61)."
  },
  {
   "property": "C103",
   "status": "partial",
   "theorems": [
    "C103_registered",
    "C103_events",
    "C103_tags_partial",
    "C103_tags_refuted",
    "C103_texts_partial",
    "C103_xml_refuted"
   ],
   "note": "Registration, events, totals and exit codes for every command line without --list-tags (C103_registered, C103_events). Two parts are false: --list-tags may read a destroyed buffer in one order and not in another (C103_tags_refuted; what holds if both complete: C103_tags_partial), and XML reports are indented differently after an aborted section (C103_xml_refuted; what holds: C103_texts_partial, for all three reporters of the library)."
  },
  {
   "property": "C104",
   "status": "partial",
   "theorems": [
    "C104_unselected",
    "C104_added",
    "C104_completes",
    "C104_texts_partial",
    "C104_xml_refuted"
   ],
   "note": "Proved for all events, totals and exit codes of runs, and for the texts of the console and TeamCity reporters, and of the XML reporter if no section is left open (C104_unselected, C104_added, C104_completes, C104_texts_partial). False for XML after an aborted section: the indentation of the tests after it changes (C104_xml_refuted)."
  },
  {
   "property": "C105",
   "status": "proved",
   "theorems": [
    "C105_exit",
    "C105_console",
    "C105_teamcity",
    "C105_xml"
   ],
   "note": ""
  },
  {
   "property": "C106",
   "status": "proved",
   "theorems": [
    "C106_print",
    "C106_visible",
    "C106_console",
    "C106_program"
   ],
   "note": ""
  },
  {
   "property": "C107",
   "status": "proved",
   "theorems": [
    "C107_teamcity"
   ],
   "note": ""
  },
  {
   "property": "C108",
   "status": "proved",
   "theorems": [
    "C108_xml"
   ],
   "note": ""
  },
  {
   "property": "C109",
   "status": "proved",
   "theorems": [
    "C109_console",
    "C109_teamcity",
    "C109_xml",
    "C109_bodies",
    "C109_completes"
   ],
   "note": ""
  },
  {
   "property": "C110",
   "status": "proved",
   "theorems": [
    "C110_first",
    "C110_report",
    "C110_silence",
    "C110_library"
   ],
   "note": ""
  },
  {
   "property": "C111",
   "status": "proved",
   "theorems": [
    "C111_reporters",
    "C111_tags",
    "C111_help",
    "C111_refused"
   ],
   "note": ""
  },
  {
   "property": "C112",
   "status": "proved",
   "theorems": [
    "C112_console",
    "C112_services"
   ],
   "note": ""
  },
  {
   "property": "C113",
   "status": "proved",
   "theorems": [
    "C113_services",
    "C113_full"
   ],
   "note": ""
  },
  {
   "property": "C114",
   "status": "proved",
   "theorems": [
    "C114_test",
    "C114_program",
    "C114_teamcity",
    "C114_xml"
   ],
   "note": ""
  },
  {
   "property": "C115",
   "status": "proved",
   "theorems": [
    "C115_console",
    "C115_xml"
   ],
   "note": ""
  }
 ]
}