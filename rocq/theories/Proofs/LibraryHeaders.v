(** The inclusions in the headers of /repo/include/snitch and in /repo/src/snitch.cpp, as they are; other lines are left
    out. Used by the example of C92. *)
From Verif.Spec Require Import TextSpec FilterSpec SingleHeaderSpec.
From Verif.Model Require Import Base SingleHeader.

Definition inclusion (hash name : string) : text := quote hash ++ quote "include " ++ [double_quote] ++ quote name ++ [double_quote] ++ line_end.

Definition library_files : list (text * list text) := [
  (quote "/r/include/snitch/snitch.hpp", [inclusion "#" "snitch/snitch_any.hpp"; inclusion "#" "snitch/snitch_append.hpp"; inclusion "#" "snitch/snitch_capture.hpp"; inclusion "#" "snitch/snitch_cli.hpp"; inclusion "#" "snitch/snitch_concepts.hpp"; inclusion "#" "snitch/snitch_config.hpp"; inclusion "#" "snitch/snitch_console.hpp"; inclusion "#" "snitch/snitch_error_handling.hpp"; inclusion "#" "snitch/snitch_expression.hpp"; inclusion "#" "snitch/snitch_file.hpp"; inclusion "#" "snitch/snitch_fixed_point.hpp"; inclusion "#" "snitch/snitch_function.hpp"; inclusion "#" "snitch/snitch_macros_check.hpp"; inclusion "#" "snitch/snitch_macros_check_base.hpp"; inclusion "#" "snitch/snitch_macros_consteval.hpp"; inclusion "#" "snitch/snitch_macros_constexpr.hpp"; inclusion "#" "snitch/snitch_macros_exceptions.hpp"; inclusion "#" "snitch/snitch_macros_misc.hpp"; inclusion "#" "snitch/snitch_macros_reporter.hpp"; inclusion "#" "snitch/snitch_macros_test_case.hpp"; inclusion "#" "snitch/snitch_macros_utility.hpp"; inclusion "#" "snitch/snitch_macros_warnings.hpp"; inclusion "#" "snitch/snitch_main.hpp"; inclusion "#" "snitch/snitch_matcher.hpp"; inclusion "#" "snitch/snitch_registry.hpp"; inclusion "#" "snitch/snitch_reporter_catch2_xml.hpp"; inclusion "#" "snitch/snitch_reporter_console.hpp"; inclusion "#" "snitch/snitch_reporter_teamcity.hpp"; inclusion "#" "snitch/snitch_section.hpp"; inclusion "#" "snitch/snitch_string.hpp"; inclusion "#" "snitch/snitch_string_utility.hpp"; inclusion "#" "snitch/snitch_test_data.hpp"; inclusion "#" "snitch/snitch_type_id.hpp"; inclusion "#" "snitch/snitch_type_name.hpp"; inclusion "#" "snitch/snitch_vector.hpp"]);
  (quote "/r/include/snitch/snitch_any.hpp", [inclusion "#" "snitch/snitch_config.hpp"; inclusion "#" "snitch/snitch_error_handling.hpp"; inclusion "#" "snitch/snitch_function.hpp"; inclusion "#" "snitch/snitch_type_id.hpp"]);
  (quote "/r/include/snitch/snitch_append.hpp", [inclusion "#" "snitch/snitch_concepts.hpp"; inclusion "#" "snitch/snitch_config.hpp"; inclusion "#" "snitch/snitch_fixed_point.hpp"; inclusion "#" "snitch/snitch_string.hpp"]);
  (quote "/r/include/snitch/snitch_capture.hpp", [inclusion "#" "snitch/snitch_config.hpp"; inclusion "#" "snitch/snitch_string.hpp"; inclusion "#" "snitch/snitch_string_utility.hpp"; inclusion "#" "snitch/snitch_test_data.hpp"]);
  (quote "/r/include/snitch/snitch_cli.hpp", [inclusion "#" "snitch/snitch_config.hpp"; inclusion "#" "snitch/snitch_function.hpp"; inclusion "#" "snitch/snitch_string.hpp"; inclusion "#" "snitch/snitch_string_utility.hpp"; inclusion "#" "snitch/snitch_vector.hpp"]);
  (quote "/r/include/snitch/snitch_concepts.hpp", [inclusion "#" "snitch/snitch_config.hpp"]);
  (quote "/b/snitch/snitch_config.hpp", []);
  (quote "/r/include/snitch/snitch_console.hpp", [inclusion "#" "snitch/snitch_string.hpp"; inclusion "#" "snitch/snitch_string_utility.hpp"]);
  (quote "/r/include/snitch/snitch_error_handling.hpp", [inclusion "#" "snitch/snitch_config.hpp"; inclusion "#" "snitch/snitch_function.hpp"]);
  (quote "/r/include/snitch/snitch_expression.hpp", [inclusion "#" "snitch/snitch_append.hpp"; inclusion "#" "snitch/snitch_config.hpp"; inclusion "#" "snitch/snitch_matcher.hpp"; inclusion "#" "snitch/snitch_string.hpp"]);
  (quote "/r/include/snitch/snitch_file.hpp", [inclusion "#" "snitch/snitch_config.hpp"]);
  (quote "/r/include/snitch/snitch_fixed_point.hpp", [inclusion "#" "snitch/snitch_config.hpp"]);
  (quote "/r/include/snitch/snitch_function.hpp", [inclusion "#" "snitch/snitch_concepts.hpp"; inclusion "#" "snitch/snitch_config.hpp"]);
  (quote "/r/include/snitch/snitch_macros_check.hpp", [inclusion "#" "snitch/snitch_config.hpp"; inclusion "#" "snitch/snitch_expression.hpp"; inclusion "#" "snitch/snitch_macros_check_base.hpp"; inclusion "#" "snitch/snitch_macros_utility.hpp"; inclusion "#" "snitch/snitch_macros_warnings.hpp"; inclusion "#" "snitch/snitch_matcher.hpp"; inclusion "#" "snitch/snitch_registry.hpp"; inclusion "#" "snitch/snitch_test_data.hpp"]);
  (quote "/r/include/snitch/snitch_macros_check_base.hpp", [inclusion "#" "snitch/snitch_config.hpp"; inclusion "#" "snitch/snitch_expression.hpp"; inclusion "#" "snitch/snitch_registry.hpp"]);
  (quote "/r/include/snitch/snitch_macros_consteval.hpp", [inclusion "#" "snitch/snitch_config.hpp"; inclusion "#" "snitch/snitch_expression.hpp"; inclusion "#" "snitch/snitch_macros_check_base.hpp"; inclusion "#" "snitch/snitch_macros_utility.hpp"; inclusion "#" "snitch/snitch_macros_warnings.hpp"; inclusion "#" "snitch/snitch_matcher.hpp"; inclusion "#" "snitch/snitch_registry.hpp"; inclusion "#" "snitch/snitch_test_data.hpp"]);
  (quote "/r/include/snitch/snitch_macros_constexpr.hpp", [inclusion "#" "snitch/snitch_config.hpp"; inclusion "#" "snitch/snitch_expression.hpp"; inclusion "#" "snitch/snitch_macros_check_base.hpp"; inclusion "#" "snitch/snitch_macros_utility.hpp"; inclusion "#" "snitch/snitch_macros_warnings.hpp"; inclusion "#" "snitch/snitch_matcher.hpp"; inclusion "#" "snitch/snitch_registry.hpp"; inclusion "#" "snitch/snitch_test_data.hpp"]);
  (quote "/r/include/snitch/snitch_macros_exceptions.hpp", [inclusion "#    " "snitch/snitch_config.hpp"; inclusion "#    " "snitch/snitch_macros_utility.hpp"; inclusion "#    " "snitch/snitch_matcher.hpp"; inclusion "#    " "snitch/snitch_registry.hpp"]);
  (quote "/r/include/snitch/snitch_macros_misc.hpp", [inclusion "#" "snitch/snitch_capture.hpp"; inclusion "#" "snitch/snitch_config.hpp"; inclusion "#" "snitch/snitch_macros_utility.hpp"; inclusion "#" "snitch/snitch_section.hpp"; inclusion "#" "snitch/snitch_test_data.hpp"]);
  (quote "/r/include/snitch/snitch_macros_reporter.hpp", [inclusion "#" "snitch/snitch_config.hpp"; inclusion "#" "snitch/snitch_macros_utility.hpp"; inclusion "#" "snitch/snitch_registry.hpp"]);
  (quote "/r/include/snitch/snitch_macros_test_case.hpp", [inclusion "#" "snitch/snitch_config.hpp"; inclusion "#" "snitch/snitch_macros_utility.hpp"; inclusion "#" "snitch/snitch_registry.hpp"]);
  (quote "/r/include/snitch/snitch_macros_utility.hpp", [inclusion "#" "snitch/snitch_config.hpp"; inclusion "#" "snitch/snitch_macros_warnings.hpp"]);
  (quote "/r/include/snitch/snitch_macros_warnings.hpp", [inclusion "#" "snitch/snitch_config.hpp"]);
  (quote "/r/include/snitch/snitch_main.hpp", [inclusion "#" "snitch/snitch_config.hpp"]);
  (quote "/r/include/snitch/snitch_matcher.hpp", [inclusion "#" "snitch/snitch_append.hpp"; inclusion "#" "snitch/snitch_config.hpp"; inclusion "#" "snitch/snitch_error_handling.hpp"; inclusion "#" "snitch/snitch_string.hpp"; inclusion "#" "snitch/snitch_string_utility.hpp"]);
  (quote "/r/include/snitch/snitch_registry.hpp", [inclusion "#" "snitch/snitch_any.hpp"; inclusion "#" "snitch/snitch_append.hpp"; inclusion "#" "snitch/snitch_cli.hpp"; inclusion "#" "snitch/snitch_config.hpp"; inclusion "#" "snitch/snitch_console.hpp"; inclusion "#" "snitch/snitch_error_handling.hpp"; inclusion "#" "snitch/snitch_expression.hpp"; inclusion "#" "snitch/snitch_file.hpp"; inclusion "#" "snitch/snitch_function.hpp"; inclusion "#" "snitch/snitch_reporter_console.hpp"; inclusion "#" "snitch/snitch_string.hpp"; inclusion "#" "snitch/snitch_string_utility.hpp"; inclusion "#" "snitch/snitch_test_data.hpp"; inclusion "#" "snitch/snitch_type_name.hpp"; inclusion "#" "snitch/snitch_vector.hpp"]);
  (quote "/r/include/snitch/snitch_reporter_catch2_xml.hpp", [inclusion "#" "snitch/snitch_config.hpp"; inclusion "#    " "snitch/snitch_test_data.hpp"]);
  (quote "/r/include/snitch/snitch_reporter_console.hpp", [inclusion "#" "snitch/snitch_config.hpp"; inclusion "#" "snitch/snitch_test_data.hpp"]);
  (quote "/r/include/snitch/snitch_reporter_teamcity.hpp", [inclusion "#" "snitch/snitch_config.hpp"; inclusion "#    " "snitch/snitch_test_data.hpp"]);
  (quote "/r/include/snitch/snitch_section.hpp", [inclusion "#" "snitch/snitch_config.hpp"; inclusion "#" "snitch/snitch_test_data.hpp"]);
  (quote "/r/include/snitch/snitch_string.hpp", [inclusion "#" "snitch/snitch_config.hpp"; inclusion "#" "snitch/snitch_vector.hpp"]);
  (quote "/r/include/snitch/snitch_string_utility.hpp", [inclusion "#" "snitch/snitch_append.hpp"; inclusion "#" "snitch/snitch_config.hpp"; inclusion "#" "snitch/snitch_string.hpp"]);
  (quote "/r/include/snitch/snitch_test_data.hpp", [inclusion "#" "snitch/snitch_config.hpp"; inclusion "#" "snitch/snitch_string.hpp"; inclusion "#" "snitch/snitch_time.hpp"; inclusion "#" "snitch/snitch_vector.hpp"]);
  (quote "/r/include/snitch/snitch_time.hpp", [inclusion "#" "snitch/snitch_config.hpp"]);
  (quote "/r/include/snitch/snitch_type_id.hpp", [inclusion "#" "snitch/snitch_config.hpp"]);
  (quote "/r/include/snitch/snitch_type_name.hpp", [inclusion "#" "snitch/snitch_config.hpp"]);
  (quote "/r/include/snitch/snitch_vector.hpp", [inclusion "#" "snitch/snitch_config.hpp"; inclusion "#" "snitch/snitch_error_handling.hpp"]);
  (quote "/r/src/snitch.cpp", [inclusion "#" "snitch_append.cpp"; inclusion "#" "snitch_capture.cpp"; inclusion "#" "snitch_cli.cpp"; inclusion "#" "snitch_console.cpp"; inclusion "#" "snitch_error_handling.cpp"; inclusion "#" "snitch_file.cpp"; inclusion "#" "snitch_main.cpp"; inclusion "#" "snitch_matcher.cpp"; inclusion "#" "snitch_registry.cpp"; inclusion "#" "snitch_reporter_catch2_xml.cpp"; inclusion "#" "snitch_reporter_console.cpp"; inclusion "#" "snitch_reporter_teamcity.cpp"; inclusion "#" "snitch_section.cpp"; inclusion "#" "snitch_string_utility.cpp"; inclusion "#" "snitch_test_data.cpp"; inclusion "#" "snitch_time.cpp"]);
  (quote "/r/src/snitch_append.cpp", [inclusion "#" "snitch/snitch_append.hpp"; inclusion "#" "snitch/snitch_concepts.hpp"; inclusion "#" "snitch/snitch_string.hpp"]);
  (quote "/r/src/snitch_capture.cpp", [inclusion "#" "snitch/snitch_capture.hpp"; inclusion "#" "snitch/snitch_console.hpp"; inclusion "#" "snitch/snitch_registry.hpp"]);
  (quote "/r/src/snitch_cli.cpp", [inclusion "#" "snitch/snitch_cli.hpp"; inclusion "#" "snitch/snitch_console.hpp"; inclusion "#" "snitch/snitch_error_handling.hpp"; inclusion "#" "snitch/snitch_string_utility.hpp"]);
  (quote "/r/src/snitch_console.cpp", [inclusion "#" "snitch/snitch_console.hpp"]);
  (quote "/r/src/snitch_error_handling.cpp", [inclusion "#" "snitch/snitch_error_handling.hpp"; inclusion "#" "snitch/snitch_cli.hpp"]);
  (quote "/r/src/snitch_file.cpp", [inclusion "#" "snitch/snitch_file.hpp"; inclusion "#" "snitch/snitch_append.hpp"; inclusion "#" "snitch/snitch_error_handling.hpp"]);
  (quote "/r/src/snitch_main.cpp", [inclusion "#" "snitch/snitch_main.hpp"; inclusion "#" "snitch/snitch_cli.hpp"; inclusion "#" "snitch/snitch_registry.hpp"]);
  (quote "/r/src/snitch_matcher.cpp", [inclusion "#" "snitch/snitch_matcher.hpp"]);
  (quote "/r/src/snitch_registry.cpp", [inclusion "#" "snitch/snitch_registry.hpp"; inclusion "#" "snitch/snitch_time.hpp"]);
  (quote "/r/src/snitch_reporter_catch2_xml.cpp", [inclusion "#" "snitch/snitch_config.hpp"; inclusion "#    " "snitch/snitch_macros_reporter.hpp"; inclusion "#    " "snitch/snitch_registry.hpp"; inclusion "#    " "snitch/snitch_reporter_catch2_xml.hpp"; inclusion "#    " "snitch/snitch_string.hpp"; inclusion "#    " "snitch/snitch_string_utility.hpp"; inclusion "#    " "snitch/snitch_test_data.hpp"]);
  (quote "/r/src/snitch_reporter_console.cpp", [inclusion "#" "snitch/snitch_reporter_console.hpp"; inclusion "#" "snitch/snitch_config.hpp"; inclusion "#" "snitch/snitch_console.hpp"; inclusion "#" "snitch/snitch_macros_reporter.hpp"; inclusion "#" "snitch/snitch_registry.hpp"; inclusion "#" "snitch/snitch_string.hpp"; inclusion "#" "snitch/snitch_string_utility.hpp"; inclusion "#" "snitch/snitch_test_data.hpp"]);
  (quote "/r/src/snitch_reporter_teamcity.cpp", [inclusion "#" "snitch/snitch_config.hpp"; inclusion "#    " "snitch/snitch_macros_reporter.hpp"; inclusion "#    " "snitch/snitch_registry.hpp"; inclusion "#    " "snitch/snitch_reporter_teamcity.hpp"; inclusion "#    " "snitch/snitch_string.hpp"; inclusion "#    " "snitch/snitch_string_utility.hpp"; inclusion "#    " "snitch/snitch_test_data.hpp"]);
  (quote "/r/src/snitch_section.cpp", [inclusion "#" "snitch/snitch_section.hpp"; inclusion "#" "snitch/snitch_console.hpp"; inclusion "#" "snitch/snitch_registry.hpp"; inclusion "#" "snitch/snitch_test_data.hpp"; inclusion "#" "snitch/snitch_time.hpp"]);
  (quote "/r/src/snitch_string_utility.cpp", [inclusion "#" "snitch/snitch_string_utility.hpp"; inclusion "#" "snitch/snitch_error_handling.hpp"]);
  (quote "/r/src/snitch_test_data.cpp", [inclusion "#" "snitch/snitch_test_data.hpp"; inclusion "#" "snitch/snitch_registry.hpp"]);
  (quote "/r/src/snitch_time.cpp", [inclusion "#" "snitch/snitch_time.hpp"])].

Definition library_disk (f : text) : option (list text) := option_map snd (List.find (fun e => seqb f (fst e)) library_files).
