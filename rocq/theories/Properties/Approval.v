(** Validation of the model against the project's own expected outputs: /repo/tests/approval_tests/data/expected, compared by
    /repo/tests/approval_tests with what the library prints for the test cases of Proofs/ApprovalTests.v. These are
    tests of the model, not properties. Written by tools/approval.py. *)
From Coq Require Import String List.
From Verif.Spec Require Import TextSpec DeclareSpec.
From Verif.Proofs Require Import ApprovalTests.
Import ListNotations.
Local Open Scope string_scope.
Local Open Scope list_scope.

(** approval_tests/data/expected/reporter_console_default *)
Example approval_console_default :
  console_approval Gcc ["--reporter"; "console"] = Some (lines [
    "starting test with snitch v*";
    "==========================================";
    "failed: running test case ""test fail""";
    "          at *testing_reporters.cpp:7";
    "          CHECK(1 == 2), got: 1 != 2";
    "allowed failure: running test case ""test mayfail bad pass""";
    "          at *testing_reporters.cpp:7";
    "          CHECK(1 == 2), got: 1 != 2";
    "failed: running test case ""test shouldfail good fail""";
    "          at *testing_reporters.cpp:7";
    "          expected test to fail";
    "expected failure: running test case ""test shouldfail bad pass""";
    "          at *testing_reporters.cpp:7";
    "          CHECK(1 == 2), got: 1 != 2";
    "failed: running test case ""test no tags fail""";
    "          at *testing_reporters.cpp:7";
    "          CHECK(1 == 2), got: 1 != 2";
    "failed: running test case ""typed test no tags fail""";
    "          at *testing_reporters.cpp:7";
    "          for type int";
    "          CHECK(1 == 2), got: 1 != 2";
    "failed: running test case ""typed test no tags fail""";
    "          at *testing_reporters.cpp:7";
    "          for type float";
    "          CHECK(1 == 2), got: 1 != 2";
    "failed: running test case ""typed test with tags fail""";
    "          at *testing_reporters.cpp:7";
    "          for type int";
    "          CHECK(1 == 2), got: 1 != 2";
    "failed: running test case ""typed test with tags fail""";
    "          at *testing_reporters.cpp:7";
    "          for type float";
    "          CHECK(1 == 2), got: 1 != 2";
    "failed: running test case ""test fixture fail""";
    "          at *testing_reporters.cpp:7";
    "          CHECK(1 == 2), got: 1 != 2";
    "failed: running test case ""test FAIL fail""";
    "          at *testing_reporters.cpp:7";
    "          something bad";
    "failed: running test case ""test expression fail""";
    "          at *testing_reporters.cpp:7";
    "          CHECK(1 == 2), got: 1 != 2";
    "failed: running test case ""test long expression fail""";
    "          at *testing_reporters.cpp:7";
    "          CHECK(some_very_long_name_that_forces_lines_to_wrap != some_very_long_name_that_forces_lines_to_wrap)";
    "          got: 1 == 1";
    "failed: running test case ""test too long expression fail""";
    "          at *testing_reporters.cpp:7";
    "          CHECK(super_long_string != super_long_string)";
    "failed: running test case ""test too long message pass""";
    "          at *testing_reporters.cpp:7";
    "          aaaaaaaaaaaaaaaaaaaaaaaaaaaaaaaaaaaaaaaaaaaaaaaaaaaaaaaaaaaaaaaaaaaaaaaaaaaaaaaaaaaaaaaaaaaaaaaaaaaaaaaaaaaaaaaaaaaaaaaaaaaaaaaaa...";
    "failed: running test case ""test too long message fail""";
    "          at *testing_reporters.cpp:7";
    "          aaaaaaaaaaaaaaaaaaaaaaaaaaaaaaaaaaaaaaaaaaaaaaaaaaaaaaaaaaaaaaaaaaaaaaaaaaaaaaaaaaaaaaaaaaaaaaaaaaaaaaaaaaaaaaaaaaaaaaaaaaaaaaaaa...";
    "failed: running test case ""test NOTHROW fail""";
    "          at *testing_reporters.cpp:7";
    "          expected throw_something(true) not to throw but it threw a std::exception; message: I threw";
    "failed: running test case ""test THROW fail""";
    "          at *testing_reporters.cpp:7";
    "          std::runtime_error expected but no exception thrown";
    "failed: running test case ""test THROW fail""";
    "          at *testing_reporters.cpp:7";
    "          std::system_error expected but other std::exception thrown; message: I threw";
    "failed: running test case ""test THROW fail""";
    "          at *testing_reporters.cpp:7";
    "          could not match caught std::runtime_error with expected content: could not find 'I throws' in 'I threw'";
    "failed: running test case ""test unexpected throw fail""";
    "          somewhere inside test case at *testing_reporters.cpp:7";
    "          unexpected std::exception caught; message: unexpected error";
    "failed: running test case ""test unexpected throw in section fail""";
    "          in section ""section 1""";
    "          in section ""section 2""";
    "          somewhere inside section at *testing_reporters.cpp:7";
    "          unexpected std::exception caught; message: unexpected error";
    "failed: running test case ""test unexpected throw in check fail""";
    "          somewhere inside check at *testing_reporters.cpp:7";
    "          unexpected std::exception caught; message: unexpected error";
    "failed: running test case ""test unexpected throw in check & section fail""";
    "          in section ""section 1""";
    "          somewhere inside check at *testing_reporters.cpp:7";
    "          unexpected std::exception caught; message: unexpected error";
    "allowed failure: running test case ""test unexpected throw in check & section mayfail""";
    "          in section ""section 1""";
    "          somewhere inside check at *testing_reporters.cpp:7";
    "          unexpected std::exception caught; message: unexpected error";
    "skipped: running test case ""test SKIP""";
    "          at *testing_reporters.cpp:7";
    "          not interesting";
    "failed: running test case ""test INFO""";
    "          at *testing_reporters.cpp:7";
    "          with info";
    "          failure";
    "failed: running test case ""test multiple INFO""";
    "          at *testing_reporters.cpp:7";
    "          failure 1";
    "failed: running test case ""test multiple INFO""";
    "          at *testing_reporters.cpp:7";
    "          with info 1";
    "          failure 2";
    "failed: running test case ""test multiple INFO""";
    "          at *testing_reporters.cpp:7";
    "          with info 1";
    "          with info 2";
    "          failure 3";
    "failed: running test case ""test multiple INFO""";
    "          at *testing_reporters.cpp:7";
    "          with info 1";
    "          failure 4";
    "failed: running test case ""test SECTION""";
    "          in section ""section""";
    "          at *testing_reporters.cpp:7";
    "          failure";
    "allowed failure: running test case ""test SECTION mayfail""";
    "          in section ""section""";
    "          at *testing_reporters.cpp:7";
    "          failure";
    "failed: running test case ""test multiple SECTION""";
    "          in section ""section 1""";
    "          at *testing_reporters.cpp:7";
    "          failure 1";
    "failed: running test case ""test multiple SECTION""";
    "          at *testing_reporters.cpp:7";
    "          failure 7";
    "failed: running test case ""test multiple SECTION""";
    "          in section ""section 2""";
    "          at *testing_reporters.cpp:7";
    "          failure 2";
    "failed: running test case ""test multiple SECTION""";
    "          in section ""section 2""";
    "          in section ""section 2.1""";
    "          at *testing_reporters.cpp:7";
    "          failure 3";
    "failed: running test case ""test multiple SECTION""";
    "          at *testing_reporters.cpp:7";
    "          failure 7";
    "failed: running test case ""test multiple SECTION""";
    "          in section ""section 2""";
    "          at *testing_reporters.cpp:7";
    "          failure 2";
    "failed: running test case ""test multiple SECTION""";
    "          in section ""section 2""";
    "          in section ""section 2.2""";
    "          at *testing_reporters.cpp:7";
    "          failure 4";
    "failed: running test case ""test multiple SECTION""";
    "          in section ""section 2""";
    "          in section ""section 2.2""";
    "          in section ""section 2.2.1""";
    "          at *testing_reporters.cpp:7";
    "          failure 5";
    "failed: running test case ""test multiple SECTION""";
    "          in section ""section 2""";
    "          in section ""section 2.2""";
    "          at *testing_reporters.cpp:7";
    "          failure 6";
    "failed: running test case ""test multiple SECTION""";
    "          at *testing_reporters.cpp:7";
    "          failure 7";
    "failed: running test case ""test SECTION & INFO""";
    "          in section ""section 1""";
    "          at *testing_reporters.cpp:7";
    "          with info 1";
    "          with info 2";
    "          failure 1";
    "failed: running test case ""test SECTION & INFO""";
    "          at *testing_reporters.cpp:7";
    "          with info 1";
    "          failure 3";
    "failed: running test case ""test SECTION & INFO""";
    "          in section ""section 2""";
    "          at *testing_reporters.cpp:7";
    "          with info 1";
    "          with info 3";
    "          failure 2";
    "failed: running test case ""test SECTION & INFO""";
    "          at *testing_reporters.cpp:7";
    "          with info 1";
    "          failure 3";
    "failed: running test case ""test SECTION & CAPTURE""";
    "          in section ""section 1""";
    "          at *testing_reporters.cpp:7";
    "          with i := 1";
    "          with j := 2";
    "          failure 1";
    "failed: running test case ""test SECTION & CAPTURE""";
    "          at *testing_reporters.cpp:7";
    "          with i := 1";
    "          failure 3";
    "failed: running test case ""test SECTION & CAPTURE""";
    "          in section ""section 2""";
    "          at *testing_reporters.cpp:7";
    "          with i := 1";
    "          with j := 3";
    "          failure 2";
    "failed: running test case ""test SECTION & CAPTURE""";
    "          at *testing_reporters.cpp:7";
    "          with i := 1";
    "          failure 3";
    "skipped: running test case ""test SKIP in SECTION""";
    "          in section ""section 1""";
    "          in section ""section 2""";
    "          at *testing_reporters.cpp:7";
    "          stopping here";
    "==========================================";
    "error: some tests failed (26 out of 46 test cases, 94 assertions, 2 test cases skipped, * seconds)"
  ]).
Proof. vm_compute. reflexivity. Qed.

(** approval_tests/data/expected/reporter_console_notest *)
Example approval_console_notest :
  console_approval Gcc ["--reporter"; "console"; "bad_filter"] = Some (lines [
    "starting test with snitch v*";
    "==========================================";
    "==========================================";
    "success: all tests passed (0 test cases, 0 assertions, * seconds)"
  ]).
Proof. vm_compute. reflexivity. Qed.

(** approval_tests/data/expected/reporter_console_allpass *)
Example approval_console_allpass :
  console_approval Gcc ["--reporter"; "console"; "* pass*"] = Some (lines [
    "starting test with snitch v*";
    "==========================================";
    "allowed failure: running test case ""test mayfail bad pass""";
    "          at *testing_reporters.cpp:7";
    "          CHECK(1 == 2), got: 1 != 2";
    "expected failure: running test case ""test shouldfail bad pass""";
    "          at *testing_reporters.cpp:7";
    "          CHECK(1 == 2), got: 1 != 2";
    "failed: running test case ""test too long message pass""";
    "          at *testing_reporters.cpp:7";
    "          aaaaaaaaaaaaaaaaaaaaaaaaaaaaaaaaaaaaaaaaaaaaaaaaaaaaaaaaaaaaaaaaaaaaaaaaaaaaaaaaaaaaaaaaaaaaaaaaaaaaaaaaaaaaaaaaaaaaaaaaaaaaaaaaa...";
    "==========================================";
    "error: some tests failed (1 out of 17 test cases, 26 assertions, * seconds)"
  ]).
Proof. vm_compute. reflexivity. Qed.

(** approval_tests/data/expected/reporter_console_allfail *)
Example approval_console_allfail :
  console_approval Gcc ["--reporter"; "console"; "* fail*"] = Some (lines [
    "starting test with snitch v*";
    "==========================================";
    "failed: running test case ""test fail""";
    "          at *testing_reporters.cpp:7";
    "          CHECK(1 == 2), got: 1 != 2";
    "failed: running test case ""test shouldfail good fail""";
    "          at *testing_reporters.cpp:7";
    "          expected test to fail";
    "failed: running test case ""test no tags fail""";
    "          at *testing_reporters.cpp:7";
    "          CHECK(1 == 2), got: 1 != 2";
    "failed: running test case ""typed test no tags fail""";
    "          at *testing_reporters.cpp:7";
    "          for type int";
    "          CHECK(1 == 2), got: 1 != 2";
    "failed: running test case ""typed test no tags fail""";
    "          at *testing_reporters.cpp:7";
    "          for type float";
    "          CHECK(1 == 2), got: 1 != 2";
    "failed: running test case ""typed test with tags fail""";
    "          at *testing_reporters.cpp:7";
    "          for type int";
    "          CHECK(1 == 2), got: 1 != 2";
    "failed: running test case ""typed test with tags fail""";
    "          at *testing_reporters.cpp:7";
    "          for type float";
    "          CHECK(1 == 2), got: 1 != 2";
    "failed: running test case ""test fixture fail""";
    "          at *testing_reporters.cpp:7";
    "          CHECK(1 == 2), got: 1 != 2";
    "failed: running test case ""test FAIL fail""";
    "          at *testing_reporters.cpp:7";
    "          something bad";
    "failed: running test case ""test expression fail""";
    "          at *testing_reporters.cpp:7";
    "          CHECK(1 == 2), got: 1 != 2";
    "failed: running test case ""test long expression fail""";
    "          at *testing_reporters.cpp:7";
    "          CHECK(some_very_long_name_that_forces_lines_to_wrap != some_very_long_name_that_forces_lines_to_wrap)";
    "          got: 1 == 1";
    "failed: running test case ""test too long expression fail""";
    "          at *testing_reporters.cpp:7";
    "          CHECK(super_long_string != super_long_string)";
    "failed: running test case ""test too long message fail""";
    "          at *testing_reporters.cpp:7";
    "          aaaaaaaaaaaaaaaaaaaaaaaaaaaaaaaaaaaaaaaaaaaaaaaaaaaaaaaaaaaaaaaaaaaaaaaaaaaaaaaaaaaaaaaaaaaaaaaaaaaaaaaaaaaaaaaaaaaaaaaaaaaaaaaaa...";
    "failed: running test case ""test NOTHROW fail""";
    "          at *testing_reporters.cpp:7";
    "          expected throw_something(true) not to throw but it threw a std::exception; message: I threw";
    "failed: running test case ""test THROW fail""";
    "          at *testing_reporters.cpp:7";
    "          std::runtime_error expected but no exception thrown";
    "failed: running test case ""test THROW fail""";
    "          at *testing_reporters.cpp:7";
    "          std::system_error expected but other std::exception thrown; message: I threw";
    "failed: running test case ""test THROW fail""";
    "          at *testing_reporters.cpp:7";
    "          could not match caught std::runtime_error with expected content: could not find 'I throws' in 'I threw'";
    "failed: running test case ""test unexpected throw fail""";
    "          somewhere inside test case at *testing_reporters.cpp:7";
    "          unexpected std::exception caught; message: unexpected error";
    "failed: running test case ""test unexpected throw in section fail""";
    "          in section ""section 1""";
    "          in section ""section 2""";
    "          somewhere inside section at *testing_reporters.cpp:7";
    "          unexpected std::exception caught; message: unexpected error";
    "failed: running test case ""test unexpected throw in check fail""";
    "          somewhere inside check at *testing_reporters.cpp:7";
    "          unexpected std::exception caught; message: unexpected error";
    "failed: running test case ""test unexpected throw in check & section fail""";
    "          in section ""section 1""";
    "          somewhere inside check at *testing_reporters.cpp:7";
    "          unexpected std::exception caught; message: unexpected error";
    "==========================================";
    "error: all tests failed (19 out of 19 test cases, 35 assertions, * seconds)"
  ]).
Proof. vm_compute. reflexivity. Qed.

(** approval_tests/data/expected/reporter_console_full *)
Example approval_console_full :
  console_approval Gcc ["--reporter"; "console"; "--verbosity"; "full"] = Some (lines [
    "starting test with snitch v*";
    "==========================================";
    "starting: test pass at *testing_reporters.cpp:7";
    "passed: running test case ""test pass""";
    "          at *testing_reporters.cpp:7";
    "          no exception caught";
    "finished: test pass (*s)";
    "starting: test fail at *testing_reporters.cpp:7";
    "failed: running test case ""test fail""";
    "          at *testing_reporters.cpp:7";
    "          CHECK(1 == 2), got: 1 != 2";
    "passed: running test case ""test fail""";
    "          at *testing_reporters.cpp:7";
    "          no exception caught";
    "finished: test fail (*s)";
    "starting: test mayfail good pass at *testing_reporters.cpp:7";
    "passed: running test case ""test mayfail good pass""";
    "          at *testing_reporters.cpp:7";
    "          no exception caught";
    "finished: test mayfail good pass (*s)";
    "starting: test mayfail bad pass at *testing_reporters.cpp:7";
    "allowed failure: running test case ""test mayfail bad pass""";
    "          at *testing_reporters.cpp:7";
    "          CHECK(1 == 2), got: 1 != 2";
    "passed: running test case ""test mayfail bad pass""";
    "          at *testing_reporters.cpp:7";
    "          no exception caught";
    "finished: test mayfail bad pass (*s)";
    "starting: test shouldfail good fail at *testing_reporters.cpp:7";
    "passed: running test case ""test shouldfail good fail""";
    "          at *testing_reporters.cpp:7";
    "          no exception caught";
    "failed: running test case ""test shouldfail good fail""";
    "          at *testing_reporters.cpp:7";
    "          expected test to fail";
    "finished: test shouldfail good fail (*s)";
    "starting: test shouldfail bad pass at *testing_reporters.cpp:7";
    "expected failure: running test case ""test shouldfail bad pass""";
    "          at *testing_reporters.cpp:7";
    "          CHECK(1 == 2), got: 1 != 2";
    "passed: running test case ""test shouldfail bad pass""";
    "          at *testing_reporters.cpp:7";
    "          no exception caught";
    "passed: running test case ""test shouldfail bad pass""";
    "          at *testing_reporters.cpp:7";
    "          expected test to fail";
    "finished: test shouldfail bad pass (*s)";
    "starting: test no tags pass at *testing_reporters.cpp:7";
    "passed: running test case ""test no tags pass""";
    "          at *testing_reporters.cpp:7";
    "          no exception caught";
    "finished: test no tags pass (*s)";
    "starting: test no tags fail at *testing_reporters.cpp:7";
    "failed: running test case ""test no tags fail""";
    "          at *testing_reporters.cpp:7";
    "          CHECK(1 == 2), got: 1 != 2";
    "passed: running test case ""test no tags fail""";
    "          at *testing_reporters.cpp:7";
    "          no exception caught";
    "finished: test no tags fail (*s)";
    "starting: typed test no tags pass <int> at *testing_reporters.cpp:7";
    "passed: running test case ""typed test no tags pass""";
    "          at *testing_reporters.cpp:7";
    "          for type int";
    "          no exception caught";
    "finished: typed test no tags pass <int> (*s)";
    "starting: typed test no tags pass <float> at *testing_reporters.cpp:7";
    "passed: running test case ""typed test no tags pass""";
    "          at *testing_reporters.cpp:7";
    "          for type float";
    "          no exception caught";
    "finished: typed test no tags pass <float> (*s)";
    "starting: typed test no tags fail <int> at *testing_reporters.cpp:7";
    "failed: running test case ""typed test no tags fail""";
    "          at *testing_reporters.cpp:7";
    "          for type int";
    "          CHECK(1 == 2), got: 1 != 2";
    "passed: running test case ""typed test no tags fail""";
    "          at *testing_reporters.cpp:7";
    "          for type int";
    "          no exception caught";
    "finished: typed test no tags fail <int> (*s)";
    "starting: typed test no tags fail <float> at *testing_reporters.cpp:7";
    "failed: running test case ""typed test no tags fail""";
    "          at *testing_reporters.cpp:7";
    "          for type float";
    "          CHECK(1 == 2), got: 1 != 2";
    "passed: running test case ""typed test no tags fail""";
    "          at *testing_reporters.cpp:7";
    "          for type float";
    "          no exception caught";
    "finished: typed test no tags fail <float> (*s)";
    "starting: typed test with tags pass <int> at *testing_reporters.cpp:7";
    "passed: running test case ""typed test with tags pass""";
    "          at *testing_reporters.cpp:7";
    "          for type int";
    "          no exception caught";
    "finished: typed test with tags pass <int> (*s)";
    "starting: typed test with tags pass <float> at *testing_reporters.cpp:7";
    "passed: running test case ""typed test with tags pass""";
    "          at *testing_reporters.cpp:7";
    "          for type float";
    "          no exception caught";
    "finished: typed test with tags pass <float> (*s)";
    "starting: typed test with tags fail <int> at *testing_reporters.cpp:7";
    "failed: running test case ""typed test with tags fail""";
    "          at *testing_reporters.cpp:7";
    "          for type int";
    "          CHECK(1 == 2), got: 1 != 2";
    "passed: running test case ""typed test with tags fail""";
    "          at *testing_reporters.cpp:7";
    "          for type int";
    "          no exception caught";
    "finished: typed test with tags fail <int> (*s)";
    "starting: typed test with tags fail <float> at *testing_reporters.cpp:7";
    "failed: running test case ""typed test with tags fail""";
    "          at *testing_reporters.cpp:7";
    "          for type float";
    "          CHECK(1 == 2), got: 1 != 2";
    "passed: running test case ""typed test with tags fail""";
    "          at *testing_reporters.cpp:7";
    "          for type float";
    "          no exception caught";
    "finished: typed test with tags fail <float> (*s)";
    "starting: test fixture pass at *testing_reporters.cpp:7";
    "passed: running test case ""test fixture pass""";
    "          at *testing_reporters.cpp:7";
    "          no exception caught";
    "finished: test fixture pass (*s)";
    "starting: test fixture fail at *testing_reporters.cpp:7";
    "failed: running test case ""test fixture fail""";
    "          at *testing_reporters.cpp:7";
    "          CHECK(1 == 2), got: 1 != 2";
    "passed: running test case ""test fixture fail""";
    "          at *testing_reporters.cpp:7";
    "          no exception caught";
    "finished: test fixture fail (*s)";
    "starting: test SUCCEED pass at *testing_reporters.cpp:7";
    "passed: running test case ""test SUCCEED pass""";
    "          at *testing_reporters.cpp:7";
    "          something good";
    "passed: running test case ""test SUCCEED pass""";
    "          at *testing_reporters.cpp:7";
    "          no exception caught";
    "finished: test SUCCEED pass (*s)";
    "starting: test FAIL fail at *testing_reporters.cpp:7";
    "failed: running test case ""test FAIL fail""";
    "          at *testing_reporters.cpp:7";
    "          something bad";
    "passed: running test case ""test FAIL fail""";
    "          at *testing_reporters.cpp:7";
    "          no exception caught";
    "finished: test FAIL fail (*s)";
    "starting: test expression pass at *testing_reporters.cpp:7";
    "passed: running test case ""test expression pass""";
    "          at *testing_reporters.cpp:7";
    "          CHECK(1 == 1)";
    "passed: running test case ""test expression pass""";
    "          at *testing_reporters.cpp:7";
    "          no exception caught";
    "finished: test expression pass (*s)";
    "starting: test expression fail at *testing_reporters.cpp:7";
    "failed: running test case ""test expression fail""";
    "          at *testing_reporters.cpp:7";
    "          CHECK(1 == 2), got: 1 != 2";
    "passed: running test case ""test expression fail""";
    "          at *testing_reporters.cpp:7";
    "          no exception caught";
    "finished: test expression fail (*s)";
    "starting: test long expression pass at *testing_reporters.cpp:7";
    "passed: running test case ""test long expression pass""";
    "          at *testing_reporters.cpp:7";
    "          CHECK(some_very_long_name_that_forces_lines_to_wrap == some_very_long_name_that_forces_lines_to_wrap)";
    "passed: running test case ""test long expression pass""";
    "          at *testing_reporters.cpp:7";
    "          no exception caught";
    "finished: test long expression pass (*s)";
    "starting: test long expression fail at *testing_reporters.cpp:7";
    "failed: running test case ""test long expression fail""";
    "          at *testing_reporters.cpp:7";
    "          CHECK(some_very_long_name_that_forces_lines_to_wrap != some_very_long_name_that_forces_lines_to_wrap)";
    "          got: 1 == 1";
    "passed: running test case ""test long expression fail""";
    "          at *testing_reporters.cpp:7";
    "          no exception caught";
    "finished: test long expression fail (*s)";
    "starting: test too long expression pass at *testing_reporters.cpp:7";
    "passed: running test case ""test too long expression pass""";
    "          at *testing_reporters.cpp:7";
    "          CHECK(super_long_string == super_long_string)";
    "passed: running test case ""test too long expression pass""";
    "          at *testing_reporters.cpp:7";
    "          no exception caught";
    "finished: test too long expression pass (*s)";
    "starting: test too long expression fail at *testing_reporters.cpp:7";
    "failed: running test case ""test too long expression fail""";
    "          at *testing_reporters.cpp:7";
    "          CHECK(super_long_string != super_long_string)";
    "passed: running test case ""test too long expression fail""";
    "          at *testing_reporters.cpp:7";
    "          no exception caught";
    "finished: test too long expression fail (*s)";
    "starting: test too long message pass at *testing_reporters.cpp:7";
    "failed: running test case ""test too long message pass""";
    "          at *testing_reporters.cpp:7";
    "          aaaaaaaaaaaaaaaaaaaaaaaaaaaaaaaaaaaaaaaaaaaaaaaaaaaaaaaaaaaaaaaaaaaaaaaaaaaaaaaaaaaaaaaaaaaaaaaaaaaaaaaaaaaaaaaaaaaaaaaaaaaaaaaaa...";
    "finished: test too long message pass (*s)";
    "starting: test too long message fail at *testing_reporters.cpp:7";
    "failed: running test case ""test too long message fail""";
    "          at *testing_reporters.cpp:7";
    "          aaaaaaaaaaaaaaaaaaaaaaaaaaaaaaaaaaaaaaaaaaaaaaaaaaaaaaaaaaaaaaaaaaaaaaaaaaaaaaaaaaaaaaaaaaaaaaaaaaaaaaaaaaaaaaaaaaaaaaaaaaaaaaaaa...";
    "finished: test too long message fail (*s)";
    "starting: test NOTHROW pass at *testing_reporters.cpp:7";
    "passed: running test case ""test NOTHROW pass""";
    "          at *testing_reporters.cpp:7";
    "          throw_something(false) did not throw";
    "passed: running test case ""test NOTHROW pass""";
    "          at *testing_reporters.cpp:7";
    "          no exception caught";
    "finished: test NOTHROW pass (*s)";
    "starting: test NOTHROW fail at *testing_reporters.cpp:7";
    "failed: running test case ""test NOTHROW fail""";
    "          at *testing_reporters.cpp:7";
    "          expected throw_something(true) not to throw but it threw a std::exception; message: I threw";
    "passed: running test case ""test NOTHROW fail""";
    "          at *testing_reporters.cpp:7";
    "          no exception caught";
    "finished: test NOTHROW fail (*s)";
    "starting: test THROW pass at *testing_reporters.cpp:7";
    "passed: running test case ""test THROW pass""";
    "          at *testing_reporters.cpp:7";
    "          caught std::runtime_error matched expected content: found 'I threw' in 'I threw'";
    "passed: running test case ""test THROW pass""";
    "          at *testing_reporters.cpp:7";
    "          no exception caught";
    "finished: test THROW pass (*s)";
    "starting: test THROW fail at *testing_reporters.cpp:7";
    "failed: running test case ""test THROW fail""";
    "          at *testing_reporters.cpp:7";
    "          std::runtime_error expected but no exception thrown";
    "failed: running test case ""test THROW fail""";
    "          at *testing_reporters.cpp:7";
    "          std::system_error expected but other std::exception thrown; message: I threw";
    "failed: running test case ""test THROW fail""";
    "          at *testing_reporters.cpp:7";
    "          could not match caught std::runtime_error with expected content: could not find 'I throws' in 'I threw'";
    "passed: running test case ""test THROW fail""";
    "          at *testing_reporters.cpp:7";
    "          no exception caught";
    "finished: test THROW fail (*s)";
    "starting: test unexpected throw fail at *testing_reporters.cpp:7";
    "failed: running test case ""test unexpected throw fail""";
    "          somewhere inside test case at *testing_reporters.cpp:7";
    "          unexpected std::exception caught; message: unexpected error";
    "finished: test unexpected throw fail (*s)";
    "starting: test unexpected throw in section fail at *testing_reporters.cpp:7";
    "entering section: section 1 at *testing_reporters.cpp:7";
    "entering section: section 2 at *testing_reporters.cpp:7";
    "failed: running test case ""test unexpected throw in section fail""";
    "          in section ""section 1""";
    "          in section ""section 2""";
    "          somewhere inside section at *testing_reporters.cpp:7";
    "          unexpected std::exception caught; message: unexpected error";
    "leaving section: section 2";
    "leaving section: section 1";
    "finished: test unexpected throw in section fail (*s)";
    "starting: test unexpected throw in check fail at *testing_reporters.cpp:7";
    "failed: running test case ""test unexpected throw in check fail""";
    "          somewhere inside check at *testing_reporters.cpp:7";
    "          unexpected std::exception caught; message: unexpected error";
    "finished: test unexpected throw in check fail (*s)";
    "starting: test unexpected throw in check & section fail at *testing_reporters.cpp:7";
    "entering section: section 1 at *testing_reporters.cpp:7";
    "failed: running test case ""test unexpected throw in check & section fail""";
    "          in section ""section 1""";
    "          somewhere inside check at *testing_reporters.cpp:7";
    "          unexpected std::exception caught; message: unexpected error";
    "leaving section: section 1";
    "finished: test unexpected throw in check & section fail (*s)";
    "starting: test unexpected throw in check & section mayfail at *testing_reporters.cpp:7";
    "entering section: section 1 at *testing_reporters.cpp:7";
    "allowed failure: running test case ""test unexpected throw in check & section mayfail""";
    "          in section ""section 1""";
    "          somewhere inside check at *testing_reporters.cpp:7";
    "          unexpected std::exception caught; message: unexpected error";
    "leaving section: section 1";
    "finished: test unexpected throw in check & section mayfail (*s)";
    "starting: test SKIP at *testing_reporters.cpp:7";
    "skipped: running test case ""test SKIP""";
    "          at *testing_reporters.cpp:7";
    "          not interesting";
    "finished: test SKIP (*s)";
    "starting: test INFO at *testing_reporters.cpp:7";
    "failed: running test case ""test INFO""";
    "          at *testing_reporters.cpp:7";
    "          with info";
    "          failure";
    "passed: running test case ""test INFO""";
    "          at *testing_reporters.cpp:7";
    "          no exception caught";
    "finished: test INFO (*s)";
    "starting: test multiple INFO at *testing_reporters.cpp:7";
    "failed: running test case ""test multiple INFO""";
    "          at *testing_reporters.cpp:7";
    "          failure 1";
    "failed: running test case ""test multiple INFO""";
    "          at *testing_reporters.cpp:7";
    "          with info 1";
    "          failure 2";
    "failed: running test case ""test multiple INFO""";
    "          at *testing_reporters.cpp:7";
    "          with info 1";
    "          with info 2";
    "          failure 3";
    "failed: running test case ""test multiple INFO""";
    "          at *testing_reporters.cpp:7";
    "          with info 1";
    "          failure 4";
    "passed: running test case ""test multiple INFO""";
    "          at *testing_reporters.cpp:7";
    "          no exception caught";
    "finished: test multiple INFO (*s)";
    "starting: test SECTION at *testing_reporters.cpp:7";
    "entering section: section at *testing_reporters.cpp:7";
    "failed: running test case ""test SECTION""";
    "          in section ""section""";
    "          at *testing_reporters.cpp:7";
    "          failure";
    "leaving section: section";
    "passed: running test case ""test SECTION""";
    "          at *testing_reporters.cpp:7";
    "          no exception caught";
    "finished: test SECTION (*s)";
    "starting: test SECTION mayfail at *testing_reporters.cpp:7";
    "entering section: section at *testing_reporters.cpp:7";
    "allowed failure: running test case ""test SECTION mayfail""";
    "          in section ""section""";
    "          at *testing_reporters.cpp:7";
    "          failure";
    "leaving section: section";
    "passed: running test case ""test SECTION mayfail""";
    "          at *testing_reporters.cpp:7";
    "          no exception caught";
    "finished: test SECTION mayfail (*s)";
    "starting: test multiple SECTION at *testing_reporters.cpp:7";
    "entering section: section 1 at *testing_reporters.cpp:7";
    "failed: running test case ""test multiple SECTION""";
    "          in section ""section 1""";
    "          at *testing_reporters.cpp:7";
    "          failure 1";
    "leaving section: section 1";
    "failed: running test case ""test multiple SECTION""";
    "          at *testing_reporters.cpp:7";
    "          failure 7";
    "entering section: section 2 at *testing_reporters.cpp:7";
    "failed: running test case ""test multiple SECTION""";
    "          in section ""section 2""";
    "          at *testing_reporters.cpp:7";
    "          failure 2";
    "entering section: section 2.1 at *testing_reporters.cpp:7";
    "failed: running test case ""test multiple SECTION""";
    "          in section ""section 2""";
    "          in section ""section 2.1""";
    "          at *testing_reporters.cpp:7";
    "          failure 3";
    "leaving section: section 2.1";
    "failed: running test case ""test multiple SECTION""";
    "          at *testing_reporters.cpp:7";
    "          failure 7";
    "failed: running test case ""test multiple SECTION""";
    "          in section ""section 2""";
    "          at *testing_reporters.cpp:7";
    "          failure 2";
    "entering section: section 2.2 at *testing_reporters.cpp:7";
    "failed: running test case ""test multiple SECTION""";
    "          in section ""section 2""";
    "          in section ""section 2.2""";
    "          at *testing_reporters.cpp:7";
    "          failure 4";
    "entering section: section 2.2.1 at *testing_reporters.cpp:7";
    "failed: running test case ""test multiple SECTION""";
    "          in section ""section 2""";
    "          in section ""section 2.2""";
    "          in section ""section 2.2.1""";
    "          at *testing_reporters.cpp:7";
    "          failure 5";
    "leaving section: section 2.2.1";
    "failed: running test case ""test multiple SECTION""";
    "          in section ""section 2""";
    "          in section ""section 2.2""";
    "          at *testing_reporters.cpp:7";
    "          failure 6";
    "leaving section: section 2.2";
    "leaving section: section 2";
    "failed: running test case ""test multiple SECTION""";
    "          at *testing_reporters.cpp:7";
    "          failure 7";
    "passed: running test case ""test multiple SECTION""";
    "          at *testing_reporters.cpp:7";
    "          no exception caught";
    "finished: test multiple SECTION (*s)";
    "starting: test SECTION & INFO at *testing_reporters.cpp:7";
    "entering section: section 1 at *testing_reporters.cpp:7";
    "failed: running test case ""test SECTION & INFO""";
    "          in section ""section 1""";
    "          at *testing_reporters.cpp:7";
    "          with info 1";
    "          with info 2";
    "          failure 1";
    "leaving section: section 1";
    "failed: running test case ""test SECTION & INFO""";
    "          at *testing_reporters.cpp:7";
    "          with info 1";
    "          failure 3";
    "entering section: section 2 at *testing_reporters.cpp:7";
    "failed: running test case ""test SECTION & INFO""";
    "          in section ""section 2""";
    "          at *testing_reporters.cpp:7";
    "          with info 1";
    "          with info 3";
    "          failure 2";
    "leaving section: section 2";
    "failed: running test case ""test SECTION & INFO""";
    "          at *testing_reporters.cpp:7";
    "          with info 1";
    "          failure 3";
    "passed: running test case ""test SECTION & INFO""";
    "          at *testing_reporters.cpp:7";
    "          no exception caught";
    "finished: test SECTION & INFO (*s)";
    "starting: test SECTION & CAPTURE at *testing_reporters.cpp:7";
    "entering section: section 1 at *testing_reporters.cpp:7";
    "failed: running test case ""test SECTION & CAPTURE""";
    "          in section ""section 1""";
    "          at *testing_reporters.cpp:7";
    "          with i := 1";
    "          with j := 2";
    "          failure 1";
    "leaving section: section 1";
    "failed: running test case ""test SECTION & CAPTURE""";
    "          at *testing_reporters.cpp:7";
    "          with i := 1";
    "          failure 3";
    "entering section: section 2 at *testing_reporters.cpp:7";
    "failed: running test case ""test SECTION & CAPTURE""";
    "          in section ""section 2""";
    "          at *testing_reporters.cpp:7";
    "          with i := 1";
    "          with j := 3";
    "          failure 2";
    "leaving section: section 2";
    "failed: running test case ""test SECTION & CAPTURE""";
    "          at *testing_reporters.cpp:7";
    "          with i := 1";
    "          failure 3";
    "passed: running test case ""test SECTION & CAPTURE""";
    "          at *testing_reporters.cpp:7";
    "          no exception caught";
    "finished: test SECTION & CAPTURE (*s)";
    "starting: test SKIP in SECTION at *testing_reporters.cpp:7";
    "entering section: section 1 at *testing_reporters.cpp:7";
    "entering section: section 2 at *testing_reporters.cpp:7";
    "skipped: running test case ""test SKIP in SECTION""";
    "          in section ""section 1""";
    "          in section ""section 2""";
    "          at *testing_reporters.cpp:7";
    "          stopping here";
    "leaving section: section 2";
    "leaving section: section 1";
    "finished: test SKIP in SECTION (*s)";
    "==========================================";
    "error: some tests failed (26 out of 46 test cases, 94 assertions, 2 test cases skipped, * seconds)"
  ]).
Proof. vm_compute. reflexivity. Qed.

(** approval_tests/data/expected/reporter_console_list_tests *)
Example approval_console_list_tests :
  console_approval Gcc ["--reporter"; "console"; "--list-tests"] = Some (lines [
    "Matching test cases:";
    "  test pass";
    "      [tag2][tag1]";
    "  test fail";
    "      [tag2][tag1]";
    "  test mayfail good pass";
    "      [tag2][tag1][!mayfail]";
    "  test mayfail bad pass";
    "      [tag2][tag1][!mayfail]";
    "  test shouldfail good fail";
    "      [tag2][tag1][!shouldfail]";
    "  test shouldfail bad pass";
    "      [tag2][tag1][!shouldfail]";
    "  test no tags pass";
    "  test no tags fail";
    "  typed test no tags pass <int>";
    "  typed test no tags pass <float>";
    "  typed test no tags fail <int>";
    "  typed test no tags fail <float>";
    "  typed test with tags pass <int>";
    "      [tag1]";
    "  typed test with tags pass <float>";
    "      [tag1]";
    "  typed test with tags fail <int>";
    "      [tag1]";
    "  typed test with tags fail <float>";
    "      [tag1]";
    "  test fixture pass";
    "      [tag with space]";
    "  test fixture fail";
    "      [tag with space]";
    "  test SUCCEED pass";
    "  test FAIL fail";
    "  test expression pass";
    "  test expression fail";
    "  test long expression pass";
    "  test long expression fail";
    "  test too long expression pass";
    "  test too long expression fail";
    "  test too long message pass";
    "  test too long message fail";
    "  test NOTHROW pass";
    "  test NOTHROW fail";
    "  test THROW pass";
    "  test THROW fail";
    "  test unexpected throw fail";
    "  test unexpected throw in section fail";
    "  test unexpected throw in check fail";
    "  test unexpected throw in check & section fail";
    "  test unexpected throw in check & section mayfail";
    "      [!mayfail]";
    "  test SKIP";
    "  test INFO";
    "  test multiple INFO";
    "  test SECTION";
    "  test SECTION mayfail";
    "      [!mayfail]";
    "  test multiple SECTION";
    "  test SECTION & INFO";
    "  test SECTION & CAPTURE";
    "  test SKIP in SECTION";
    "46 matching test cases"
  ]).
Proof. vm_compute. reflexivity. Qed.

(** approval_tests/data/expected/reporter_console_withcolor *)
Example approval_console_withcolor :
  console_approval Gcc ["--reporter"; "console::color=always"] = Some (lines [
    ("" ++ esc ++ "[1;36mstarting " ++ esc ++ "[0m" ++ esc ++ "[1;35mtest" ++ esc ++ "[0m" ++ esc ++ "[1;36m with " ++ esc ++ "[0m" ++ esc ++ "[1;35msnitch v*")%string;
    ("" ++ esc ++ "[0m==========================================")%string;
    ("" ++ esc ++ "[1;31mfailed: " ++ esc ++ "[0mrunning test case """ ++ esc ++ "[1;35mtest fail" ++ esc ++ "[0m""")%string;
    "          at *testing_reporters.cpp:7";
    ("          " ++ esc ++ "[1;36mCHECK(1 == 2)" ++ esc ++ "[0m, got: " ++ esc ++ "[1;36m1 != 2" ++ esc ++ "[0m")%string;
    ("" ++ esc ++ "[1;32mallowed failure: " ++ esc ++ "[0mrunning test case """ ++ esc ++ "[1;35mtest mayfail bad pass" ++ esc ++ "[0m""")%string;
    "          at *testing_reporters.cpp:7";
    ("          " ++ esc ++ "[1;36mCHECK(1 == 2)" ++ esc ++ "[0m, got: " ++ esc ++ "[1;36m1 != 2" ++ esc ++ "[0m")%string;
    ("" ++ esc ++ "[1;31mfailed: " ++ esc ++ "[0mrunning test case """ ++ esc ++ "[1;35mtest shouldfail good fail" ++ esc ++ "[0m""")%string;
    "          at *testing_reporters.cpp:7";
    ("          " ++ esc ++ "[1;36mexpected test to fail" ++ esc ++ "[0m")%string;
    ("" ++ esc ++ "[1;32mexpected failure: " ++ esc ++ "[0mrunning test case """ ++ esc ++ "[1;35mtest shouldfail bad pass" ++ esc ++ "[0m""")%string;
    "          at *testing_reporters.cpp:7";
    ("          " ++ esc ++ "[1;36mCHECK(1 == 2)" ++ esc ++ "[0m, got: " ++ esc ++ "[1;36m1 != 2" ++ esc ++ "[0m")%string;
    ("" ++ esc ++ "[1;31mfailed: " ++ esc ++ "[0mrunning test case """ ++ esc ++ "[1;35mtest no tags fail" ++ esc ++ "[0m""")%string;
    "          at *testing_reporters.cpp:7";
    ("          " ++ esc ++ "[1;36mCHECK(1 == 2)" ++ esc ++ "[0m, got: " ++ esc ++ "[1;36m1 != 2" ++ esc ++ "[0m")%string;
    ("" ++ esc ++ "[1;31mfailed: " ++ esc ++ "[0mrunning test case """ ++ esc ++ "[1;35mtyped test no tags fail" ++ esc ++ "[0m""")%string;
    "          at *testing_reporters.cpp:7";
    ("          for type " ++ esc ++ "[1;35mint" ++ esc ++ "[0m")%string;
    ("          " ++ esc ++ "[1;36mCHECK(1 == 2)" ++ esc ++ "[0m, got: " ++ esc ++ "[1;36m1 != 2" ++ esc ++ "[0m")%string;
    ("" ++ esc ++ "[1;31mfailed: " ++ esc ++ "[0mrunning test case """ ++ esc ++ "[1;35mtyped test no tags fail" ++ esc ++ "[0m""")%string;
    "          at *testing_reporters.cpp:7";
    ("          for type " ++ esc ++ "[1;35mfloat" ++ esc ++ "[0m")%string;
    ("          " ++ esc ++ "[1;36mCHECK(1 == 2)" ++ esc ++ "[0m, got: " ++ esc ++ "[1;36m1 != 2" ++ esc ++ "[0m")%string;
    ("" ++ esc ++ "[1;31mfailed: " ++ esc ++ "[0mrunning test case """ ++ esc ++ "[1;35mtyped test with tags fail" ++ esc ++ "[0m""")%string;
    "          at *testing_reporters.cpp:7";
    ("          for type " ++ esc ++ "[1;35mint" ++ esc ++ "[0m")%string;
    ("          " ++ esc ++ "[1;36mCHECK(1 == 2)" ++ esc ++ "[0m, got: " ++ esc ++ "[1;36m1 != 2" ++ esc ++ "[0m")%string;
    ("" ++ esc ++ "[1;31mfailed: " ++ esc ++ "[0mrunning test case """ ++ esc ++ "[1;35mtyped test with tags fail" ++ esc ++ "[0m""")%string;
    "          at *testing_reporters.cpp:7";
    ("          for type " ++ esc ++ "[1;35mfloat" ++ esc ++ "[0m")%string;
    ("          " ++ esc ++ "[1;36mCHECK(1 == 2)" ++ esc ++ "[0m, got: " ++ esc ++ "[1;36m1 != 2" ++ esc ++ "[0m")%string;
    ("" ++ esc ++ "[1;31mfailed: " ++ esc ++ "[0mrunning test case """ ++ esc ++ "[1;35mtest fixture fail" ++ esc ++ "[0m""")%string;
    "          at *testing_reporters.cpp:7";
    ("          " ++ esc ++ "[1;36mCHECK(1 == 2)" ++ esc ++ "[0m, got: " ++ esc ++ "[1;36m1 != 2" ++ esc ++ "[0m")%string;
    ("" ++ esc ++ "[1;31mfailed: " ++ esc ++ "[0mrunning test case """ ++ esc ++ "[1;35mtest FAIL fail" ++ esc ++ "[0m""")%string;
    "          at *testing_reporters.cpp:7";
    ("          " ++ esc ++ "[1;36msomething bad" ++ esc ++ "[0m")%string;
    ("" ++ esc ++ "[1;31mfailed: " ++ esc ++ "[0mrunning test case """ ++ esc ++ "[1;35mtest expression fail" ++ esc ++ "[0m""")%string;
    "          at *testing_reporters.cpp:7";
    ("          " ++ esc ++ "[1;36mCHECK(1 == 2)" ++ esc ++ "[0m, got: " ++ esc ++ "[1;36m1 != 2" ++ esc ++ "[0m")%string;
    ("" ++ esc ++ "[1;31mfailed: " ++ esc ++ "[0mrunning test case """ ++ esc ++ "[1;35mtest long expression fail" ++ esc ++ "[0m""")%string;
    "          at *testing_reporters.cpp:7";
    ("          " ++ esc ++ "[1;36mCHECK(some_very_long_name_that_forces_lines_to_wrap != some_very_long_name_that_forces_lines_to_wrap)" ++ esc ++ "[0m")%string;
    ("          got: " ++ esc ++ "[1;36m1 == 1" ++ esc ++ "[0m")%string;
    ("" ++ esc ++ "[1;31mfailed: " ++ esc ++ "[0mrunning test case """ ++ esc ++ "[1;35mtest too long expression fail" ++ esc ++ "[0m""")%string;
    "          at *testing_reporters.cpp:7";
    ("          " ++ esc ++ "[1;36mCHECK(super_long_string != super_long_string)" ++ esc ++ "[0m")%string;
    ("" ++ esc ++ "[1;31mfailed: " ++ esc ++ "[0mrunning test case """ ++ esc ++ "[1;35mtest too long message pass" ++ esc ++ "[0m""")%string;
    "          at *testing_reporters.cpp:7";
    ("          " ++ esc ++ "[1;36maaaaaaaaaaaaaaaaaaaaaaaaaaaaaaaaaaaaaaaaaaaaaaaaaaaaaaaaaaaaaaaaaaaaaaaaaaaaaaaaaaaaaaaaaaaaaaaaaaaaaaaaaaaaaaaaaaaaaa" ++ esc ++ "[0m...")%string;
    ("" ++ esc ++ "[1;31mfailed: " ++ esc ++ "[0mrunning test case """ ++ esc ++ "[1;35mtest too long message fail" ++ esc ++ "[0m""")%string;
    "          at *testing_reporters.cpp:7";
    ("          " ++ esc ++ "[1;36maaaaaaaaaaaaaaaaaaaaaaaaaaaaaaaaaaaaaaaaaaaaaaaaaaaaaaaaaaaaaaaaaaaaaaaaaaaaaaaaaaaaaaaaaaaaaaaaaaaaaaaaaaaaaaaaaaaaaa" ++ esc ++ "[0m...")%string;
    ("" ++ esc ++ "[1;31mfailed: " ++ esc ++ "[0mrunning test case """ ++ esc ++ "[1;35mtest NOTHROW fail" ++ esc ++ "[0m""")%string;
    "          at *testing_reporters.cpp:7";
    ("          " ++ esc ++ "[1;36mexpected throw_something(true) not to throw but it threw a std::exception; message: I threw" ++ esc ++ "[0m")%string;
    ("" ++ esc ++ "[1;31mfailed: " ++ esc ++ "[0mrunning test case """ ++ esc ++ "[1;35mtest THROW fail" ++ esc ++ "[0m""")%string;
    "          at *testing_reporters.cpp:7";
    ("          " ++ esc ++ "[1;36mstd::runtime_error expected but no exception thrown" ++ esc ++ "[0m")%string;
    ("" ++ esc ++ "[1;31mfailed: " ++ esc ++ "[0mrunning test case """ ++ esc ++ "[1;35mtest THROW fail" ++ esc ++ "[0m""")%string;
    "          at *testing_reporters.cpp:7";
    ("          " ++ esc ++ "[1;36mstd::system_error expected but other std::exception thrown; message: I threw" ++ esc ++ "[0m")%string;
    ("" ++ esc ++ "[1;31mfailed: " ++ esc ++ "[0mrunning test case """ ++ esc ++ "[1;35mtest THROW fail" ++ esc ++ "[0m""")%string;
    "          at *testing_reporters.cpp:7";
    ("          " ++ esc ++ "[1;36mcould not match caught std::runtime_error with expected content: could not find 'I throws' in 'I threw'" ++ esc ++ "[0m")%string;
    ("" ++ esc ++ "[1;31mfailed: " ++ esc ++ "[0mrunning test case """ ++ esc ++ "[1;35mtest unexpected throw fail" ++ esc ++ "[0m""")%string;
    "          somewhere inside test case at *testing_reporters.cpp:7";
    ("          " ++ esc ++ "[1;36munexpected std::exception caught; message: unexpected error" ++ esc ++ "[0m")%string;
    ("" ++ esc ++ "[1;31mfailed: " ++ esc ++ "[0mrunning test case """ ++ esc ++ "[1;35mtest unexpected throw in section fail" ++ esc ++ "[0m""")%string;
    ("          in section """ ++ esc ++ "[1;35msection 1" ++ esc ++ "[0m""")%string;
    ("          in section """ ++ esc ++ "[1;35msection 2" ++ esc ++ "[0m""")%string;
    "          somewhere inside section at *testing_reporters.cpp:7";
    ("          " ++ esc ++ "[1;36munexpected std::exception caught; message: unexpected error" ++ esc ++ "[0m")%string;
    ("" ++ esc ++ "[1;31mfailed: " ++ esc ++ "[0mrunning test case """ ++ esc ++ "[1;35mtest unexpected throw in check fail" ++ esc ++ "[0m""")%string;
    "          somewhere inside check at *testing_reporters.cpp:7";
    ("          " ++ esc ++ "[1;36munexpected std::exception caught; message: unexpected error" ++ esc ++ "[0m")%string;
    ("" ++ esc ++ "[1;31mfailed: " ++ esc ++ "[0mrunning test case """ ++ esc ++ "[1;35mtest unexpected throw in check & section fail" ++ esc ++ "[0m""")%string;
    ("          in section """ ++ esc ++ "[1;35msection 1" ++ esc ++ "[0m""")%string;
    "          somewhere inside check at *testing_reporters.cpp:7";
    ("          " ++ esc ++ "[1;36munexpected std::exception caught; message: unexpected error" ++ esc ++ "[0m")%string;
    ("" ++ esc ++ "[1;32mallowed failure: " ++ esc ++ "[0mrunning test case """ ++ esc ++ "[1;35mtest unexpected throw in check & section mayfail" ++ esc ++ "[0m""")%string;
    ("          in section """ ++ esc ++ "[1;35msection 1" ++ esc ++ "[0m""")%string;
    "          somewhere inside check at *testing_reporters.cpp:7";
    ("          " ++ esc ++ "[1;36munexpected std::exception caught; message: unexpected error" ++ esc ++ "[0m")%string;
    ("" ++ esc ++ "[1;33mskipped: " ++ esc ++ "[0mrunning test case """ ++ esc ++ "[1;35mtest SKIP" ++ esc ++ "[0m""")%string;
    "          at *testing_reporters.cpp:7";
    ("          " ++ esc ++ "[1;36mnot interesting" ++ esc ++ "[0m")%string;
    ("" ++ esc ++ "[1;31mfailed: " ++ esc ++ "[0mrunning test case """ ++ esc ++ "[1;35mtest INFO" ++ esc ++ "[0m""")%string;
    "          at *testing_reporters.cpp:7";
    ("          with " ++ esc ++ "[1;35minfo" ++ esc ++ "[0m")%string;
    ("          " ++ esc ++ "[1;36mfailure" ++ esc ++ "[0m")%string;
    ("" ++ esc ++ "[1;31mfailed: " ++ esc ++ "[0mrunning test case """ ++ esc ++ "[1;35mtest multiple INFO" ++ esc ++ "[0m""")%string;
    "          at *testing_reporters.cpp:7";
    ("          " ++ esc ++ "[1;36mfailure 1" ++ esc ++ "[0m")%string;
    ("" ++ esc ++ "[1;31mfailed: " ++ esc ++ "[0mrunning test case """ ++ esc ++ "[1;35mtest multiple INFO" ++ esc ++ "[0m""")%string;
    "          at *testing_reporters.cpp:7";
    ("          with " ++ esc ++ "[1;35minfo 1" ++ esc ++ "[0m")%string;
    ("          " ++ esc ++ "[1;36mfailure 2" ++ esc ++ "[0m")%string;
    ("" ++ esc ++ "[1;31mfailed: " ++ esc ++ "[0mrunning test case """ ++ esc ++ "[1;35mtest multiple INFO" ++ esc ++ "[0m""")%string;
    "          at *testing_reporters.cpp:7";
    ("          with " ++ esc ++ "[1;35minfo 1" ++ esc ++ "[0m")%string;
    ("          with " ++ esc ++ "[1;35minfo 2" ++ esc ++ "[0m")%string;
    ("          " ++ esc ++ "[1;36mfailure 3" ++ esc ++ "[0m")%string;
    ("" ++ esc ++ "[1;31mfailed: " ++ esc ++ "[0mrunning test case """ ++ esc ++ "[1;35mtest multiple INFO" ++ esc ++ "[0m""")%string;
    "          at *testing_reporters.cpp:7";
    ("          with " ++ esc ++ "[1;35minfo 1" ++ esc ++ "[0m")%string;
    ("          " ++ esc ++ "[1;36mfailure 4" ++ esc ++ "[0m")%string;
    ("" ++ esc ++ "[1;31mfailed: " ++ esc ++ "[0mrunning test case """ ++ esc ++ "[1;35mtest SECTION" ++ esc ++ "[0m""")%string;
    ("          in section """ ++ esc ++ "[1;35msection" ++ esc ++ "[0m""")%string;
    "          at *testing_reporters.cpp:7";
    ("          " ++ esc ++ "[1;36mfailure" ++ esc ++ "[0m")%string;
    ("" ++ esc ++ "[1;32mallowed failure: " ++ esc ++ "[0mrunning test case """ ++ esc ++ "[1;35mtest SECTION mayfail" ++ esc ++ "[0m""")%string;
    ("          in section """ ++ esc ++ "[1;35msection" ++ esc ++ "[0m""")%string;
    "          at *testing_reporters.cpp:7";
    ("          " ++ esc ++ "[1;36mfailure" ++ esc ++ "[0m")%string;
    ("" ++ esc ++ "[1;31mfailed: " ++ esc ++ "[0mrunning test case """ ++ esc ++ "[1;35mtest multiple SECTION" ++ esc ++ "[0m""")%string;
    ("          in section """ ++ esc ++ "[1;35msection 1" ++ esc ++ "[0m""")%string;
    "          at *testing_reporters.cpp:7";
    ("          " ++ esc ++ "[1;36mfailure 1" ++ esc ++ "[0m")%string;
    ("" ++ esc ++ "[1;31mfailed: " ++ esc ++ "[0mrunning test case """ ++ esc ++ "[1;35mtest multiple SECTION" ++ esc ++ "[0m""")%string;
    "          at *testing_reporters.cpp:7";
    ("          " ++ esc ++ "[1;36mfailure 7" ++ esc ++ "[0m")%string;
    ("" ++ esc ++ "[1;31mfailed: " ++ esc ++ "[0mrunning test case """ ++ esc ++ "[1;35mtest multiple SECTION" ++ esc ++ "[0m""")%string;
    ("          in section """ ++ esc ++ "[1;35msection 2" ++ esc ++ "[0m""")%string;
    "          at *testing_reporters.cpp:7";
    ("          " ++ esc ++ "[1;36mfailure 2" ++ esc ++ "[0m")%string;
    ("" ++ esc ++ "[1;31mfailed: " ++ esc ++ "[0mrunning test case """ ++ esc ++ "[1;35mtest multiple SECTION" ++ esc ++ "[0m""")%string;
    ("          in section """ ++ esc ++ "[1;35msection 2" ++ esc ++ "[0m""")%string;
    ("          in section """ ++ esc ++ "[1;35msection 2.1" ++ esc ++ "[0m""")%string;
    "          at *testing_reporters.cpp:7";
    ("          " ++ esc ++ "[1;36mfailure 3" ++ esc ++ "[0m")%string;
    ("" ++ esc ++ "[1;31mfailed: " ++ esc ++ "[0mrunning test case """ ++ esc ++ "[1;35mtest multiple SECTION" ++ esc ++ "[0m""")%string;
    "          at *testing_reporters.cpp:7";
    ("          " ++ esc ++ "[1;36mfailure 7" ++ esc ++ "[0m")%string;
    ("" ++ esc ++ "[1;31mfailed: " ++ esc ++ "[0mrunning test case """ ++ esc ++ "[1;35mtest multiple SECTION" ++ esc ++ "[0m""")%string;
    ("          in section """ ++ esc ++ "[1;35msection 2" ++ esc ++ "[0m""")%string;
    "          at *testing_reporters.cpp:7";
    ("          " ++ esc ++ "[1;36mfailure 2" ++ esc ++ "[0m")%string;
    ("" ++ esc ++ "[1;31mfailed: " ++ esc ++ "[0mrunning test case """ ++ esc ++ "[1;35mtest multiple SECTION" ++ esc ++ "[0m""")%string;
    ("          in section """ ++ esc ++ "[1;35msection 2" ++ esc ++ "[0m""")%string;
    ("          in section """ ++ esc ++ "[1;35msection 2.2" ++ esc ++ "[0m""")%string;
    "          at *testing_reporters.cpp:7";
    ("          " ++ esc ++ "[1;36mfailure 4" ++ esc ++ "[0m")%string;
    ("" ++ esc ++ "[1;31mfailed: " ++ esc ++ "[0mrunning test case """ ++ esc ++ "[1;35mtest multiple SECTION" ++ esc ++ "[0m""")%string;
    ("          in section """ ++ esc ++ "[1;35msection 2" ++ esc ++ "[0m""")%string;
    ("          in section """ ++ esc ++ "[1;35msection 2.2" ++ esc ++ "[0m""")%string;
    ("          in section """ ++ esc ++ "[1;35msection 2.2.1" ++ esc ++ "[0m""")%string;
    "          at *testing_reporters.cpp:7";
    ("          " ++ esc ++ "[1;36mfailure 5" ++ esc ++ "[0m")%string;
    ("" ++ esc ++ "[1;31mfailed: " ++ esc ++ "[0mrunning test case """ ++ esc ++ "[1;35mtest multiple SECTION" ++ esc ++ "[0m""")%string;
    ("          in section """ ++ esc ++ "[1;35msection 2" ++ esc ++ "[0m""")%string;
    ("          in section """ ++ esc ++ "[1;35msection 2.2" ++ esc ++ "[0m""")%string;
    "          at *testing_reporters.cpp:7";
    ("          " ++ esc ++ "[1;36mfailure 6" ++ esc ++ "[0m")%string;
    ("" ++ esc ++ "[1;31mfailed: " ++ esc ++ "[0mrunning test case """ ++ esc ++ "[1;35mtest multiple SECTION" ++ esc ++ "[0m""")%string;
    "          at *testing_reporters.cpp:7";
    ("          " ++ esc ++ "[1;36mfailure 7" ++ esc ++ "[0m")%string;
    ("" ++ esc ++ "[1;31mfailed: " ++ esc ++ "[0mrunning test case """ ++ esc ++ "[1;35mtest SECTION & INFO" ++ esc ++ "[0m""")%string;
    ("          in section """ ++ esc ++ "[1;35msection 1" ++ esc ++ "[0m""")%string;
    "          at *testing_reporters.cpp:7";
    ("          with " ++ esc ++ "[1;35minfo 1" ++ esc ++ "[0m")%string;
    ("          with " ++ esc ++ "[1;35minfo 2" ++ esc ++ "[0m")%string;
    ("          " ++ esc ++ "[1;36mfailure 1" ++ esc ++ "[0m")%string;
    ("" ++ esc ++ "[1;31mfailed: " ++ esc ++ "[0mrunning test case """ ++ esc ++ "[1;35mtest SECTION & INFO" ++ esc ++ "[0m""")%string;
    "          at *testing_reporters.cpp:7";
    ("          with " ++ esc ++ "[1;35minfo 1" ++ esc ++ "[0m")%string;
    ("          " ++ esc ++ "[1;36mfailure 3" ++ esc ++ "[0m")%string;
    ("" ++ esc ++ "[1;31mfailed: " ++ esc ++ "[0mrunning test case """ ++ esc ++ "[1;35mtest SECTION & INFO" ++ esc ++ "[0m""")%string;
    ("          in section """ ++ esc ++ "[1;35msection 2" ++ esc ++ "[0m""")%string;
    "          at *testing_reporters.cpp:7";
    ("          with " ++ esc ++ "[1;35minfo 1" ++ esc ++ "[0m")%string;
    ("          with " ++ esc ++ "[1;35minfo 3" ++ esc ++ "[0m")%string;
    ("          " ++ esc ++ "[1;36mfailure 2" ++ esc ++ "[0m")%string;
    ("" ++ esc ++ "[1;31mfailed: " ++ esc ++ "[0mrunning test case """ ++ esc ++ "[1;35mtest SECTION & INFO" ++ esc ++ "[0m""")%string;
    "          at *testing_reporters.cpp:7";
    ("          with " ++ esc ++ "[1;35minfo 1" ++ esc ++ "[0m")%string;
    ("          " ++ esc ++ "[1;36mfailure 3" ++ esc ++ "[0m")%string;
    ("" ++ esc ++ "[1;31mfailed: " ++ esc ++ "[0mrunning test case """ ++ esc ++ "[1;35mtest SECTION & CAPTURE" ++ esc ++ "[0m""")%string;
    ("          in section """ ++ esc ++ "[1;35msection 1" ++ esc ++ "[0m""")%string;
    "          at *testing_reporters.cpp:7";
    ("          with " ++ esc ++ "[1;35mi := 1" ++ esc ++ "[0m")%string;
    ("          with " ++ esc ++ "[1;35mj := 2" ++ esc ++ "[0m")%string;
    ("          " ++ esc ++ "[1;36mfailure 1" ++ esc ++ "[0m")%string;
    ("" ++ esc ++ "[1;31mfailed: " ++ esc ++ "[0mrunning test case """ ++ esc ++ "[1;35mtest SECTION & CAPTURE" ++ esc ++ "[0m""")%string;
    "          at *testing_reporters.cpp:7";
    ("          with " ++ esc ++ "[1;35mi := 1" ++ esc ++ "[0m")%string;
    ("          " ++ esc ++ "[1;36mfailure 3" ++ esc ++ "[0m")%string;
    ("" ++ esc ++ "[1;31mfailed: " ++ esc ++ "[0mrunning test case """ ++ esc ++ "[1;35mtest SECTION & CAPTURE" ++ esc ++ "[0m""")%string;
    ("          in section """ ++ esc ++ "[1;35msection 2" ++ esc ++ "[0m""")%string;
    "          at *testing_reporters.cpp:7";
    ("          with " ++ esc ++ "[1;35mi := 1" ++ esc ++ "[0m")%string;
    ("          with " ++ esc ++ "[1;35mj := 3" ++ esc ++ "[0m")%string;
    ("          " ++ esc ++ "[1;36mfailure 2" ++ esc ++ "[0m")%string;
    ("" ++ esc ++ "[1;31mfailed: " ++ esc ++ "[0mrunning test case """ ++ esc ++ "[1;35mtest SECTION & CAPTURE" ++ esc ++ "[0m""")%string;
    "          at *testing_reporters.cpp:7";
    ("          with " ++ esc ++ "[1;35mi := 1" ++ esc ++ "[0m")%string;
    ("          " ++ esc ++ "[1;36mfailure 3" ++ esc ++ "[0m")%string;
    ("" ++ esc ++ "[1;33mskipped: " ++ esc ++ "[0mrunning test case """ ++ esc ++ "[1;35mtest SKIP in SECTION" ++ esc ++ "[0m""")%string;
    ("          in section """ ++ esc ++ "[1;35msection 1" ++ esc ++ "[0m""")%string;
    ("          in section """ ++ esc ++ "[1;35msection 2" ++ esc ++ "[0m""")%string;
    "          at *testing_reporters.cpp:7";
    ("          " ++ esc ++ "[1;36mstopping here" ++ esc ++ "[0m")%string;
    "==========================================";
    ("" ++ esc ++ "[1;31merror:" ++ esc ++ "[0m some tests failed (26 out of 46 test cases, 94 assertions, 2 test cases skipped, * seconds)")%string
  ]).
Proof. vm_compute. reflexivity. Qed.

(** approval_tests/data/expected/reporter_catch2_xml_default *)
Example approval_catch2_xml_default :
  xml_approval Gcc ["--reporter"; "xml"] = Some (lines [
    "<?xml version=""1.0"" encoding=""UTF-8""?>";
    "";
    "<Catch2TestRun name=""test"" rng-seed=""0"" xml-format-version=""3"" catch2-version=""*.snitch"" filters="""">";
    "  <TestCase name=""test pass"" tags=""[tag2][tag1]"" filename=""*testing_reporters.cpp"" line=""7"">";
    "    <OverallResult success=""true"" skips=""0"" durationInSeconds=""*""/>";
    "  </TestCase>";
    "  <TestCase name=""test fail"" tags=""[tag2][tag1]"" filename=""*testing_reporters.cpp"" line=""7"">";
    "    <Expression success=""false"" type=""CHECK"" filename=""*testing_reporters.cpp"" line=""7"">";
    "      <Original>";
    "        1 == 2";
    "      </Original>";
    "      <Expanded>";
    "        1 != 2";
    "      </Expanded>";
    "    </Expression>";
    "    <OverallResult success=""false"" skips=""0"" durationInSeconds=""*""/>";
    "  </TestCase>";
    "  <TestCase name=""test mayfail good pass"" tags=""[tag2][tag1][!mayfail]"" filename=""*testing_reporters.cpp"" line=""7"">";
    "    <OverallResult success=""true"" skips=""0"" durationInSeconds=""*""/>";
    "  </TestCase>";
    "  <TestCase name=""test mayfail bad pass"" tags=""[tag2][tag1][!mayfail]"" filename=""*testing_reporters.cpp"" line=""7"">";
    "    <Expression success=""false"" type=""CHECK"" filename=""*testing_reporters.cpp"" line=""7"">";
    "      <Original>";
    "        1 == 2";
    "      </Original>";
    "      <Expanded>";
    "        1 != 2";
    "      </Expanded>";
    "    </Expression>";
    "    <OverallResult success=""true"" skips=""0"" durationInSeconds=""*""/>";
    "  </TestCase>";
    "  <TestCase name=""test shouldfail good fail"" tags=""[tag2][tag1][!shouldfail]"" filename=""*testing_reporters.cpp"" line=""7"">";
    "    <Failure filename=""*testing_reporters.cpp"" line=""7"">";
    "      expected test to fail";
    "    </Failure>";
    "    <OverallResult success=""false"" skips=""0"" durationInSeconds=""*""/>";
    "  </TestCase>";
    "  <TestCase name=""test shouldfail bad pass"" tags=""[tag2][tag1][!shouldfail]"" filename=""*testing_reporters.cpp"" line=""7"">";
    "    <Expression success=""false"" type=""CHECK"" filename=""*testing_reporters.cpp"" line=""7"">";
    "      <Original>";
    "        1 == 2";
    "      </Original>";
    "      <Expanded>";
    "        1 != 2";
    "      </Expanded>";
    "    </Expression>";
    "    <OverallResult success=""true"" skips=""0"" durationInSeconds=""*""/>";
    "  </TestCase>";
    "  <TestCase name=""test no tags pass"" tags="""" filename=""*testing_reporters.cpp"" line=""7"">";
    "    <OverallResult success=""true"" skips=""0"" durationInSeconds=""*""/>";
    "  </TestCase>";
    "  <TestCase name=""test no tags fail"" tags="""" filename=""*testing_reporters.cpp"" line=""7"">";
    "    <Expression success=""false"" type=""CHECK"" filename=""*testing_reporters.cpp"" line=""7"">";
    "      <Original>";
    "        1 == 2";
    "      </Original>";
    "      <Expanded>";
    "        1 != 2";
    "      </Expanded>";
    "    </Expression>";
    "    <OverallResult success=""false"" skips=""0"" durationInSeconds=""*""/>";
    "  </TestCase>";
    "  <TestCase name=""typed test no tags pass &lt;int&gt;"" tags="""" filename=""*testing_reporters.cpp"" line=""7"">";
    "    <OverallResult success=""true"" skips=""0"" durationInSeconds=""*""/>";
    "  </TestCase>";
    "  <TestCase name=""typed test no tags pass &lt;float&gt;"" tags="""" filename=""*testing_reporters.cpp"" line=""7"">";
    "    <OverallResult success=""true"" skips=""0"" durationInSeconds=""*""/>";
    "  </TestCase>";
    "  <TestCase name=""typed test no tags fail &lt;int&gt;"" tags="""" filename=""*testing_reporters.cpp"" line=""7"">";
    "    <Expression success=""false"" type=""CHECK"" filename=""*testing_reporters.cpp"" line=""7"">";
    "      <Original>";
    "        1 == 2";
    "      </Original>";
    "      <Expanded>";
    "        1 != 2";
    "      </Expanded>";
    "    </Expression>";
    "    <OverallResult success=""false"" skips=""0"" durationInSeconds=""*""/>";
    "  </TestCase>";
    "  <TestCase name=""typed test no tags fail &lt;float&gt;"" tags="""" filename=""*testing_reporters.cpp"" line=""7"">";
    "    <Expression success=""false"" type=""CHECK"" filename=""*testing_reporters.cpp"" line=""7"">";
    "      <Original>";
    "        1 == 2";
    "      </Original>";
    "      <Expanded>";
    "        1 != 2";
    "      </Expanded>";
    "    </Expression>";
    "    <OverallResult success=""false"" skips=""0"" durationInSeconds=""*""/>";
    "  </TestCase>";
    "  <TestCase name=""typed test with tags pass &lt;int&gt;"" tags=""[tag1]"" filename=""*testing_reporters.cpp"" line=""7"">";
    "    <OverallResult success=""true"" skips=""0"" durationInSeconds=""*""/>";
    "  </TestCase>";
    "  <TestCase name=""typed test with tags pass &lt;float&gt;"" tags=""[tag1]"" filename=""*testing_reporters.cpp"" line=""7"">";
    "    <OverallResult success=""true"" skips=""0"" durationInSeconds=""*""/>";
    "  </TestCase>";
    "  <TestCase name=""typed test with tags fail &lt;int&gt;"" tags=""[tag1]"" filename=""*testing_reporters.cpp"" line=""7"">";
    "    <Expression success=""false"" type=""CHECK"" filename=""*testing_reporters.cpp"" line=""7"">";
    "      <Original>";
    "        1 == 2";
    "      </Original>";
    "      <Expanded>";
    "        1 != 2";
    "      </Expanded>";
    "    </Expression>";
    "    <OverallResult success=""false"" skips=""0"" durationInSeconds=""*""/>";
    "  </TestCase>";
    "  <TestCase name=""typed test with tags fail &lt;float&gt;"" tags=""[tag1]"" filename=""*testing_reporters.cpp"" line=""7"">";
    "    <Expression success=""false"" type=""CHECK"" filename=""*testing_reporters.cpp"" line=""7"">";
    "      <Original>";
    "        1 == 2";
    "      </Original>";
    "      <Expanded>";
    "        1 != 2";
    "      </Expanded>";
    "    </Expression>";
    "    <OverallResult success=""false"" skips=""0"" durationInSeconds=""*""/>";
    "  </TestCase>";
    "  <TestCase name=""test fixture pass"" tags=""[tag with space]"" filename=""*testing_reporters.cpp"" line=""7"">";
    "    <OverallResult success=""true"" skips=""0"" durationInSeconds=""*""/>";
    "  </TestCase>";
    "  <TestCase name=""test fixture fail"" tags=""[tag with space]"" filename=""*testing_reporters.cpp"" line=""7"">";
    "    <Expression success=""false"" type=""CHECK"" filename=""*testing_reporters.cpp"" line=""7"">";
    "      <Original>";
    "        1 == 2";
    "      </Original>";
    "      <Expanded>";
    "        1 != 2";
    "      </Expanded>";
    "    </Expression>";
    "    <OverallResult success=""false"" skips=""0"" durationInSeconds=""*""/>";
    "  </TestCase>";
    "  <TestCase name=""test SUCCEED pass"" tags="""" filename=""*testing_reporters.cpp"" line=""7"">";
    "    <OverallResult success=""true"" skips=""0"" durationInSeconds=""*""/>";
    "  </TestCase>";
    "  <TestCase name=""test FAIL fail"" tags="""" filename=""*testing_reporters.cpp"" line=""7"">";
    "    <Failure filename=""*testing_reporters.cpp"" line=""7"">";
    "      something bad";
    "    </Failure>";
    "    <OverallResult success=""false"" skips=""0"" durationInSeconds=""*""/>";
    "  </TestCase>";
    "  <TestCase name=""test expression pass"" tags="""" filename=""*testing_reporters.cpp"" line=""7"">";
    "    <OverallResult success=""true"" skips=""0"" durationInSeconds=""*""/>";
    "  </TestCase>";
    "  <TestCase name=""test expression fail"" tags="""" filename=""*testing_reporters.cpp"" line=""7"">";
    "    <Expression success=""false"" type=""CHECK"" filename=""*testing_reporters.cpp"" line=""7"">";
    "      <Original>";
    "        1 == 2";
    "      </Original>";
    "      <Expanded>";
    "        1 != 2";
    "      </Expanded>";
    "    </Expression>";
    "    <OverallResult success=""false"" skips=""0"" durationInSeconds=""*""/>";
    "  </TestCase>";
    "  <TestCase name=""test long expression pass"" tags="""" filename=""*testing_reporters.cpp"" line=""7"">";
    "    <OverallResult success=""true"" skips=""0"" durationInSeconds=""*""/>";
    "  </TestCase>";
    "  <TestCase name=""test long expression fail"" tags="""" filename=""*testing_reporters.cpp"" line=""7"">";
    "    <Expression success=""false"" type=""CHECK"" filename=""*testing_reporters.cpp"" line=""7"">";
    "      <Original>";
    "        some_very_long_name_that_forces_lines_to_wrap != some_very_long_name_that_forces_lines_to_wrap";
    "      </Original>";
    "      <Expanded>";
    "        1 == 1";
    "      </Expanded>";
    "    </Expression>";
    "    <OverallResult success=""false"" skips=""0"" durationInSeconds=""*""/>";
    "  </TestCase>";
    "  <TestCase name=""test too long expression pass"" tags="""" filename=""*testing_reporters.cpp"" line=""7"">";
    "    <OverallResult success=""true"" skips=""0"" durationInSeconds=""*""/>";
    "  </TestCase>";
    "  <TestCase name=""test too long expression fail"" tags="""" filename=""*testing_reporters.cpp"" line=""7"">";
    "    <Expression success=""false"" type=""CHECK"" filename=""*testing_reporters.cpp"" line=""7"">";
    "      <Original>";
    "        super_long_string != super_long_string";
    "      </Original>";
    "      <Expanded>";
    "        super_long_string != super_long_string";
    "      </Expanded>";
    "    </Expression>";
    "    <OverallResult success=""false"" skips=""0"" durationInSeconds=""*""/>";
    "  </TestCase>";
    "  <TestCase name=""test too long message pass"" tags="""" filename=""*testing_reporters.cpp"" line=""7"">";
    "    <Failure filename=""*testing_reporters.cpp"" line=""7"">";
    "      aaaaaaaaaaaaaaaaaaaaaaaaaaaaaaaaaaaaaaaaaaaaaaaaaaaaaaaaaaaaaaaaaaaaaaaaaaaaaaaaaaaaaaaaaaaaaaaaaaaaaaaaaaaaaaaaaaaaaaaaaaaaaa...";
    "    </Failure>";
    "    <OverallResult success=""false"" skips=""0"" durationInSeconds=""*""/>";
    "  </TestCase>";
    "  <TestCase name=""test too long message fail"" tags="""" filename=""*testing_reporters.cpp"" line=""7"">";
    "    <Failure filename=""*testing_reporters.cpp"" line=""7"">";
    "      aaaaaaaaaaaaaaaaaaaaaaaaaaaaaaaaaaaaaaaaaaaaaaaaaaaaaaaaaaaaaaaaaaaaaaaaaaaaaaaaaaaaaaaaaaaaaaaaaaaaaaaaaaaaaaaaaaaaaaaaaaaaaa...";
    "    </Failure>";
    "    <OverallResult success=""false"" skips=""0"" durationInSeconds=""*""/>";
    "  </TestCase>";
    "  <TestCase name=""test NOTHROW pass"" tags="""" filename=""*testing_reporters.cpp"" line=""7"">";
    "    <OverallResult success=""true"" skips=""0"" durationInSeconds=""*""/>";
    "  </TestCase>";
    "  <TestCase name=""test NOTHROW fail"" tags="""" filename=""*testing_reporters.cpp"" line=""7"">";
    "    <Failure filename=""*testing_reporters.cpp"" line=""7"">";
    "      expected throw_something(true) not to throw but it threw a std::exception; message: I threw";
    "    </Failure>";
    "    <OverallResult success=""false"" skips=""0"" durationInSeconds=""*""/>";
    "  </TestCase>";
    "  <TestCase name=""test THROW pass"" tags="""" filename=""*testing_reporters.cpp"" line=""7"">";
    "    <OverallResult success=""true"" skips=""0"" durationInSeconds=""*""/>";
    "  </TestCase>";
    "  <TestCase name=""test THROW fail"" tags="""" filename=""*testing_reporters.cpp"" line=""7"">";
    "    <Failure filename=""*testing_reporters.cpp"" line=""7"">";
    "      std::runtime_error expected but no exception thrown";
    "    </Failure>";
    "    <Failure filename=""*testing_reporters.cpp"" line=""7"">";
    "      std::system_error expected but other std::exception thrown; message: I threw";
    "    </Failure>";
    "    <Failure filename=""*testing_reporters.cpp"" line=""7"">";
    "      could not match caught std::runtime_error with expected content: could not find &apos;I throws&apos; in &apos;I threw&apos;";
    "    </Failure>";
    "    <OverallResult success=""false"" skips=""0"" durationInSeconds=""*""/>";
    "  </TestCase>";
    "  <TestCase name=""test unexpected throw fail"" tags="""" filename=""*testing_reporters.cpp"" line=""7"">";
    "    <Failure filename=""*testing_reporters.cpp"" line=""7"">";
    "      unexpected std::exception caught; message: unexpected error";
    "    </Failure>";
    "    <OverallResult success=""false"" skips=""0"" durationInSeconds=""*""/>";
    "  </TestCase>";
    "  <TestCase name=""test unexpected throw in section fail"" tags="""" filename=""*testing_reporters.cpp"" line=""7"">";
    "    <Section name=""section 1"" filename=""*testing_reporters.cpp"" line=""7"">";
    "      <Section name=""section 2"" filename=""*testing_reporters.cpp"" line=""7"">";
    "        <Failure filename=""*testing_reporters.cpp"" line=""7"">";
    "          unexpected std::exception caught; message: unexpected error";
    "        </Failure>";
    "        <OverallResults successes=""0"" failures=""1"" expectedFailures=""0"" skipped=""false"" durationInSeconds=""*""/>";
    "      </Section>";
    "      <OverallResults successes=""0"" failures=""1"" expectedFailures=""0"" skipped=""false"" durationInSeconds=""*""/>";
    "    </Section>";
    "    <OverallResult success=""false"" skips=""0"" durationInSeconds=""*""/>";
    "  </TestCase>";
    "  <TestCase name=""test unexpected throw in check fail"" tags="""" filename=""*testing_reporters.cpp"" line=""7"">";
    "    <Failure filename=""*testing_reporters.cpp"" line=""7"">";
    "      unexpected std::exception caught; message: unexpected error";
    "    </Failure>";
    "    <OverallResult success=""false"" skips=""0"" durationInSeconds=""*""/>";
    "  </TestCase>";
    "  <TestCase name=""test unexpected throw in check &amp; section fail"" tags="""" filename=""*testing_reporters.cpp"" line=""7"">";
    "    <Section name=""section 1"" filename=""*testing_reporters.cpp"" line=""7"">";
    "      <Failure filename=""*testing_reporters.cpp"" line=""7"">";
    "        unexpected std::exception caught; message: unexpected error";
    "      </Failure>";
    "      <OverallResults successes=""0"" failures=""1"" expectedFailures=""0"" skipped=""false"" durationInSeconds=""*""/>";
    "    </Section>";
    "    <OverallResult success=""false"" skips=""0"" durationInSeconds=""*""/>";
    "  </TestCase>";
    "  <TestCase name=""test unexpected throw in check &amp; section mayfail"" tags=""[!mayfail]"" filename=""*testing_reporters.cpp"" line=""7"">";
    "    <Section name=""section 1"" filename=""*testing_reporters.cpp"" line=""7"">";
    "      <Failure filename=""*testing_reporters.cpp"" line=""7"">";
    "        unexpected std::exception caught; message: unexpected error";
    "      </Failure>";
    "      <OverallResults successes=""0"" failures=""0"" expectedFailures=""1"" skipped=""false"" durationInSeconds=""*""/>";
    "    </Section>";
    "    <OverallResult success=""true"" skips=""0"" durationInSeconds=""*""/>";
    "  </TestCase>";
    "  <TestCase name=""test SKIP"" tags="""" filename=""*testing_reporters.cpp"" line=""7"">";
    "    <Skip filename=""*testing_reporters.cpp"" line=""7"">";
    "      not interesting";
    "    </Skip>";
    "    <OverallResult success=""true"" skips=""1"" durationInSeconds=""*""/>";
    "  </TestCase>";
    "  <TestCase name=""test INFO"" tags="""" filename=""*testing_reporters.cpp"" line=""7"">";
    "    <Info>";
    "      info";
    "    </Info>";
    "    <Failure filename=""*testing_reporters.cpp"" line=""7"">";
    "      failure";
    "    </Failure>";
    "    <OverallResult success=""false"" skips=""0"" durationInSeconds=""*""/>";
    "  </TestCase>";
    "  <TestCase name=""test multiple INFO"" tags="""" filename=""*testing_reporters.cpp"" line=""7"">";
    "    <Failure filename=""*testing_reporters.cpp"" line=""7"">";
    "      failure 1";
    "    </Failure>";
    "    <Info>";
    "      info 1";
    "    </Info>";
    "    <Failure filename=""*testing_reporters.cpp"" line=""7"">";
    "      failure 2";
    "    </Failure>";
    "    <Info>";
    "      info 1";
    "    </Info>";
    "    <Info>";
    "      info 2";
    "    </Info>";
    "    <Failure filename=""*testing_reporters.cpp"" line=""7"">";
    "      failure 3";
    "    </Failure>";
    "    <Info>";
    "      info 1";
    "    </Info>";
    "    <Failure filename=""*testing_reporters.cpp"" line=""7"">";
    "      failure 4";
    "    </Failure>";
    "    <OverallResult success=""false"" skips=""0"" durationInSeconds=""*""/>";
    "  </TestCase>";
    "  <TestCase name=""test SECTION"" tags="""" filename=""*testing_reporters.cpp"" line=""7"">";
    "    <Section name=""section"" filename=""*testing_reporters.cpp"" line=""7"">";
    "      <Failure filename=""*testing_reporters.cpp"" line=""7"">";
    "        failure";
    "      </Failure>";
    "      <OverallResults successes=""0"" failures=""1"" expectedFailures=""0"" skipped=""false"" durationInSeconds=""*""/>";
    "    </Section>";
    "    <OverallResult success=""false"" skips=""0"" durationInSeconds=""*""/>";
    "  </TestCase>";
    "  <TestCase name=""test SECTION mayfail"" tags=""[!mayfail]"" filename=""*testing_reporters.cpp"" line=""7"">";
    "    <Section name=""section"" filename=""*testing_reporters.cpp"" line=""7"">";
    "      <Failure filename=""*testing_reporters.cpp"" line=""7"">";
    "        failure";
    "      </Failure>";
    "      <OverallResults successes=""0"" failures=""0"" expectedFailures=""1"" skipped=""false"" durationInSeconds=""*""/>";
    "    </Section>";
    "    <OverallResult success=""true"" skips=""0"" durationInSeconds=""*""/>";
    "  </TestCase>";
    "  <TestCase name=""test multiple SECTION"" tags="""" filename=""*testing_reporters.cpp"" line=""7"">";
    "    <Section name=""section 1"" filename=""*testing_reporters.cpp"" line=""7"">";
    "      <Failure filename=""*testing_reporters.cpp"" line=""7"">";
    "        failure 1";
    "      </Failure>";
    "      <OverallResults successes=""0"" failures=""1"" expectedFailures=""0"" skipped=""false"" durationInSeconds=""*""/>";
    "    </Section>";
    "    <Failure filename=""*testing_reporters.cpp"" line=""7"">";
    "      failure 7";
    "    </Failure>";
    "    <Section name=""section 2"" filename=""*testing_reporters.cpp"" line=""7"">";
    "      <Failure filename=""*testing_reporters.cpp"" line=""7"">";
    "        failure 2";
    "      </Failure>";
    "      <Section name=""section 2.1"" filename=""*testing_reporters.cpp"" line=""7"">";
    "        <Failure filename=""*testing_reporters.cpp"" line=""7"">";
    "          failure 3";
    "        </Failure>";
    "        <OverallResults successes=""0"" failures=""1"" expectedFailures=""0"" skipped=""false"" durationInSeconds=""*""/>";
    "      </Section>";
    "      <Failure filename=""*testing_reporters.cpp"" line=""7"">";
    "        failure 7";
    "      </Failure>";
    "      <Failure filename=""*testing_reporters.cpp"" line=""7"">";
    "        failure 2";
    "      </Failure>";
    "      <Section name=""section 2.2"" filename=""*testing_reporters.cpp"" line=""7"">";
    "        <Failure filename=""*testing_reporters.cpp"" line=""7"">";
    "          failure 4";
    "        </Failure>";
    "        <Section name=""section 2.2.1"" filename=""*testing_reporters.cpp"" line=""7"">";
    "          <Failure filename=""*testing_reporters.cpp"" line=""7"">";
    "            failure 5";
    "          </Failure>";
    "          <OverallResults successes=""0"" failures=""1"" expectedFailures=""0"" skipped=""false"" durationInSeconds=""*""/>";
    "        </Section>";
    "        <Failure filename=""*testing_reporters.cpp"" line=""7"">";
    "          failure 6";
    "        </Failure>";
    "        <OverallResults successes=""0"" failures=""3"" expectedFailures=""0"" skipped=""false"" durationInSeconds=""*""/>";
    "      </Section>";
    "      <OverallResults successes=""0"" failures=""4"" expectedFailures=""0"" skipped=""false"" durationInSeconds=""*""/>";
    "    </Section>";
    "    <Failure filename=""*testing_reporters.cpp"" line=""7"">";
    "      failure 7";
    "    </Failure>";
    "    <OverallResult success=""false"" skips=""0"" durationInSeconds=""*""/>";
    "  </TestCase>";
    "  <TestCase name=""test SECTION &amp; INFO"" tags="""" filename=""*testing_reporters.cpp"" line=""7"">";
    "    <Section name=""section 1"" filename=""*testing_reporters.cpp"" line=""7"">";
    "      <Info>";
    "        info 1";
    "      </Info>";
    "      <Info>";
    "        info 2";
    "      </Info>";
    "      <Failure filename=""*testing_reporters.cpp"" line=""7"">";
    "        failure 1";
    "      </Failure>";
    "      <OverallResults successes=""0"" failures=""1"" expectedFailures=""0"" skipped=""false"" durationInSeconds=""*""/>";
    "    </Section>";
    "    <Info>";
    "      info 1";
    "    </Info>";
    "    <Failure filename=""*testing_reporters.cpp"" line=""7"">";
    "      failure 3";
    "    </Failure>";
    "    <Section name=""section 2"" filename=""*testing_reporters.cpp"" line=""7"">";
    "      <Info>";
    "        info 1";
    "      </Info>";
    "      <Info>";
    "        info 3";
    "      </Info>";
    "      <Failure filename=""*testing_reporters.cpp"" line=""7"">";
    "        failure 2";
    "      </Failure>";
    "      <OverallResults successes=""0"" failures=""1"" expectedFailures=""0"" skipped=""false"" durationInSeconds=""*""/>";
    "    </Section>";
    "    <Info>";
    "      info 1";
    "    </Info>";
    "    <Failure filename=""*testing_reporters.cpp"" line=""7"">";
    "      failure 3";
    "    </Failure>";
    "    <OverallResult success=""false"" skips=""0"" durationInSeconds=""*""/>";
    "  </TestCase>";
    "  <TestCase name=""test SECTION &amp; CAPTURE"" tags="""" filename=""*testing_reporters.cpp"" line=""7"">";
    "    <Section name=""section 1"" filename=""*testing_reporters.cpp"" line=""7"">";
    "      <Info>";
    "        i := 1";
    "      </Info>";
    "      <Info>";
    "        j := 2";
    "      </Info>";
    "      <Failure filename=""*testing_reporters.cpp"" line=""7"">";
    "        failure 1";
    "      </Failure>";
    "      <OverallResults successes=""0"" failures=""1"" expectedFailures=""0"" skipped=""false"" durationInSeconds=""*""/>";
    "    </Section>";
    "    <Info>";
    "      i := 1";
    "    </Info>";
    "    <Failure filename=""*testing_reporters.cpp"" line=""7"">";
    "      failure 3";
    "    </Failure>";
    "    <Section name=""section 2"" filename=""*testing_reporters.cpp"" line=""7"">";
    "      <Info>";
    "        i := 1";
    "      </Info>";
    "      <Info>";
    "        j := 3";
    "      </Info>";
    "      <Failure filename=""*testing_reporters.cpp"" line=""7"">";
    "        failure 2";
    "      </Failure>";
    "      <OverallResults successes=""0"" failures=""1"" expectedFailures=""0"" skipped=""false"" durationInSeconds=""*""/>";
    "    </Section>";
    "    <Info>";
    "      i := 1";
    "    </Info>";
    "    <Failure filename=""*testing_reporters.cpp"" line=""7"">";
    "      failure 3";
    "    </Failure>";
    "    <OverallResult success=""false"" skips=""0"" durationInSeconds=""*""/>";
    "  </TestCase>";
    "  <TestCase name=""test SKIP in SECTION"" tags="""" filename=""*testing_reporters.cpp"" line=""7"">";
    "    <Section name=""section 1"" filename=""*testing_reporters.cpp"" line=""7"">";
    "      <Section name=""section 2"" filename=""*testing_reporters.cpp"" line=""7"">";
    "        <Skip filename=""*testing_reporters.cpp"" line=""7"">";
    "          stopping here";
    "        </Skip>";
    "        <OverallResults successes=""0"" failures=""0"" expectedFailures=""0"" skipped=""true"" durationInSeconds=""*""/>";
    "      </Section>";
    "      <OverallResults successes=""0"" failures=""0"" expectedFailures=""0"" skipped=""true"" durationInSeconds=""*""/>";
    "    </Section>";
    "    <OverallResult success=""true"" skips=""1"" durationInSeconds=""*""/>";
    "  </TestCase>";
    "  <TestCase name=""test escape &lt;&gt;&amp;&quot;&apos;"" tags="""" filename=""*reporter_catch2_xml.cpp"" line=""7"">";
    "    <Failure filename=""*reporter_catch2_xml.cpp"" line=""7"">";
    "      escape &lt;&gt;&amp;&quot;&apos; in messages";
    "    </Failure>";
    "    <OverallResult success=""false"" skips=""0"" durationInSeconds=""*""/>";
    "  </TestCase>";
    "  <TestCase name=""test escape very long"" tags="""" filename=""*reporter_catch2_xml.cpp"" line=""7"">";
    "    <Failure filename=""*reporter_catch2_xml.cpp"" line=""7"">";
    "      &amp;&amp;&amp;&amp;&amp;&amp;&amp;&amp;&amp;&amp;&amp;&amp;&amp;&amp;&amp;&amp;&amp;&amp;&amp;&amp;&amp;&amp;&amp;&amp;&amp;...";
    "    </Failure>";
    "    <OverallResult success=""false"" skips=""0"" durationInSeconds=""*""/>";
    "  </TestCase>";
    "  <OverallResults successes=""44"" failures=""48"" expectedFailures=""4"" skips=""2""/>";
    "  <OverallResultsCases successes=""16"" failures=""28"" expectedFailures=""4"" skips=""2""/>";
    "</Catch2TestRun>"
  ]).
Proof. vm_compute. reflexivity. Qed.

(** approval_tests/data/expected/reporter_catch2_xml_notest *)
Example approval_catch2_xml_notest :
  xml_approval Gcc ["--reporter"; "xml"; "bad_filter"] = Some (lines [
    "<?xml version=""1.0"" encoding=""UTF-8""?>";
    "";
    "<Catch2TestRun name=""test"" rng-seed=""0"" xml-format-version=""3"" catch2-version=""*.snitch"" filters=""&quot;bad_filter&quot;"">";
    "  <OverallResults successes=""0"" failures=""0"" expectedFailures=""0"" skips=""0""/>";
    "  <OverallResultsCases successes=""0"" failures=""0"" expectedFailures=""0"" skips=""0""/>";
    "</Catch2TestRun>"
  ]).
Proof. vm_compute. reflexivity. Qed.

(** approval_tests/data/expected/reporter_catch2_xml_allpass *)
Example approval_catch2_xml_allpass :
  xml_approval Gcc ["--reporter"; "xml"; "* pass*"] = Some (lines [
    "<?xml version=""1.0"" encoding=""UTF-8""?>";
    "";
    "<Catch2TestRun name=""test"" rng-seed=""0"" xml-format-version=""3"" catch2-version=""*.snitch"" filters=""&quot;* pass*&quot;"">";
    "  <TestCase name=""test pass"" tags=""[tag2][tag1]"" filename=""*testing_reporters.cpp"" line=""7"">";
    "    <OverallResult success=""true"" skips=""0"" durationInSeconds=""*""/>";
    "  </TestCase>";
    "  <TestCase name=""test mayfail good pass"" tags=""[tag2][tag1][!mayfail]"" filename=""*testing_reporters.cpp"" line=""7"">";
    "    <OverallResult success=""true"" skips=""0"" durationInSeconds=""*""/>";
    "  </TestCase>";
    "  <TestCase name=""test mayfail bad pass"" tags=""[tag2][tag1][!mayfail]"" filename=""*testing_reporters.cpp"" line=""7"">";
    "    <Expression success=""false"" type=""CHECK"" filename=""*testing_reporters.cpp"" line=""7"">";
    "      <Original>";
    "        1 == 2";
    "      </Original>";
    "      <Expanded>";
    "        1 != 2";
    "      </Expanded>";
    "    </Expression>";
    "    <OverallResult success=""true"" skips=""0"" durationInSeconds=""*""/>";
    "  </TestCase>";
    "  <TestCase name=""test shouldfail bad pass"" tags=""[tag2][tag1][!shouldfail]"" filename=""*testing_reporters.cpp"" line=""7"">";
    "    <Expression success=""false"" type=""CHECK"" filename=""*testing_reporters.cpp"" line=""7"">";
    "      <Original>";
    "        1 == 2";
    "      </Original>";
    "      <Expanded>";
    "        1 != 2";
    "      </Expanded>";
    "    </Expression>";
    "    <OverallResult success=""true"" skips=""0"" durationInSeconds=""*""/>";
    "  </TestCase>";
    "  <TestCase name=""test no tags pass"" tags="""" filename=""*testing_reporters.cpp"" line=""7"">";
    "    <OverallResult success=""true"" skips=""0"" durationInSeconds=""*""/>";
    "  </TestCase>";
    "  <TestCase name=""typed test no tags pass &lt;int&gt;"" tags="""" filename=""*testing_reporters.cpp"" line=""7"">";
    "    <OverallResult success=""true"" skips=""0"" durationInSeconds=""*""/>";
    "  </TestCase>";
    "  <TestCase name=""typed test no tags pass &lt;float&gt;"" tags="""" filename=""*testing_reporters.cpp"" line=""7"">";
    "    <OverallResult success=""true"" skips=""0"" durationInSeconds=""*""/>";
    "  </TestCase>";
    "  <TestCase name=""typed test with tags pass &lt;int&gt;"" tags=""[tag1]"" filename=""*testing_reporters.cpp"" line=""7"">";
    "    <OverallResult success=""true"" skips=""0"" durationInSeconds=""*""/>";
    "  </TestCase>";
    "  <TestCase name=""typed test with tags pass &lt;float&gt;"" tags=""[tag1]"" filename=""*testing_reporters.cpp"" line=""7"">";
    "    <OverallResult success=""true"" skips=""0"" durationInSeconds=""*""/>";
    "  </TestCase>";
    "  <TestCase name=""test fixture pass"" tags=""[tag with space]"" filename=""*testing_reporters.cpp"" line=""7"">";
    "    <OverallResult success=""true"" skips=""0"" durationInSeconds=""*""/>";
    "  </TestCase>";
    "  <TestCase name=""test SUCCEED pass"" tags="""" filename=""*testing_reporters.cpp"" line=""7"">";
    "    <OverallResult success=""true"" skips=""0"" durationInSeconds=""*""/>";
    "  </TestCase>";
    "  <TestCase name=""test expression pass"" tags="""" filename=""*testing_reporters.cpp"" line=""7"">";
    "    <OverallResult success=""true"" skips=""0"" durationInSeconds=""*""/>";
    "  </TestCase>";
    "  <TestCase name=""test long expression pass"" tags="""" filename=""*testing_reporters.cpp"" line=""7"">";
    "    <OverallResult success=""true"" skips=""0"" durationInSeconds=""*""/>";
    "  </TestCase>";
    "  <TestCase name=""test too long expression pass"" tags="""" filename=""*testing_reporters.cpp"" line=""7"">";
    "    <OverallResult success=""true"" skips=""0"" durationInSeconds=""*""/>";
    "  </TestCase>";
    "  <TestCase name=""test too long message pass"" tags="""" filename=""*testing_reporters.cpp"" line=""7"">";
    "    <Failure filename=""*testing_reporters.cpp"" line=""7"">";
    "      aaaaaaaaaaaaaaaaaaaaaaaaaaaaaaaaaaaaaaaaaaaaaaaaaaaaaaaaaaaaaaaaaaaaaaaaaaaaaaaaaaaaaaaaaaaaaaaaaaaaaaaaaaaaaaaaaaaaaaaaaaaaaa...";
    "    </Failure>";
    "    <OverallResult success=""false"" skips=""0"" durationInSeconds=""*""/>";
    "  </TestCase>";
    "  <TestCase name=""test NOTHROW pass"" tags="""" filename=""*testing_reporters.cpp"" line=""7"">";
    "    <OverallResult success=""true"" skips=""0"" durationInSeconds=""*""/>";
    "  </TestCase>";
    "  <TestCase name=""test THROW pass"" tags="""" filename=""*testing_reporters.cpp"" line=""7"">";
    "    <OverallResult success=""true"" skips=""0"" durationInSeconds=""*""/>";
    "  </TestCase>";
    "  <OverallResults successes=""23"" failures=""1"" expectedFailures=""2"" skips=""0""/>";
    "  <OverallResultsCases successes=""14"" failures=""1"" expectedFailures=""2"" skips=""0""/>";
    "</Catch2TestRun>"
  ]).
Proof. vm_compute. reflexivity. Qed.

(** approval_tests/data/expected/reporter_catch2_xml_allfail *)
Example approval_catch2_xml_allfail :
  xml_approval Gcc ["--reporter"; "xml"; "* fail*"] = Some (lines [
    "<?xml version=""1.0"" encoding=""UTF-8""?>";
    "";
    "<Catch2TestRun name=""test"" rng-seed=""0"" xml-format-version=""3"" catch2-version=""*.snitch"" filters=""&quot;* fail*&quot;"">";
    "  <TestCase name=""test fail"" tags=""[tag2][tag1]"" filename=""*testing_reporters.cpp"" line=""7"">";
    "    <Expression success=""false"" type=""CHECK"" filename=""*testing_reporters.cpp"" line=""7"">";
    "      <Original>";
    "        1 == 2";
    "      </Original>";
    "      <Expanded>";
    "        1 != 2";
    "      </Expanded>";
    "    </Expression>";
    "    <OverallResult success=""false"" skips=""0"" durationInSeconds=""*""/>";
    "  </TestCase>";
    "  <TestCase name=""test shouldfail good fail"" tags=""[tag2][tag1][!shouldfail]"" filename=""*testing_reporters.cpp"" line=""7"">";
    "    <Failure filename=""*testing_reporters.cpp"" line=""7"">";
    "      expected test to fail";
    "    </Failure>";
    "    <OverallResult success=""false"" skips=""0"" durationInSeconds=""*""/>";
    "  </TestCase>";
    "  <TestCase name=""test no tags fail"" tags="""" filename=""*testing_reporters.cpp"" line=""7"">";
    "    <Expression success=""false"" type=""CHECK"" filename=""*testing_reporters.cpp"" line=""7"">";
    "      <Original>";
    "        1 == 2";
    "      </Original>";
    "      <Expanded>";
    "        1 != 2";
    "      </Expanded>";
    "    </Expression>";
    "    <OverallResult success=""false"" skips=""0"" durationInSeconds=""*""/>";
    "  </TestCase>";
    "  <TestCase name=""typed test no tags fail &lt;int&gt;"" tags="""" filename=""*testing_reporters.cpp"" line=""7"">";
    "    <Expression success=""false"" type=""CHECK"" filename=""*testing_reporters.cpp"" line=""7"">";
    "      <Original>";
    "        1 == 2";
    "      </Original>";
    "      <Expanded>";
    "        1 != 2";
    "      </Expanded>";
    "    </Expression>";
    "    <OverallResult success=""false"" skips=""0"" durationInSeconds=""*""/>";
    "  </TestCase>";
    "  <TestCase name=""typed test no tags fail &lt;float&gt;"" tags="""" filename=""*testing_reporters.cpp"" line=""7"">";
    "    <Expression success=""false"" type=""CHECK"" filename=""*testing_reporters.cpp"" line=""7"">";
    "      <Original>";
    "        1 == 2";
    "      </Original>";
    "      <Expanded>";
    "        1 != 2";
    "      </Expanded>";
    "    </Expression>";
    "    <OverallResult success=""false"" skips=""0"" durationInSeconds=""*""/>";
    "  </TestCase>";
    "  <TestCase name=""typed test with tags fail &lt;int&gt;"" tags=""[tag1]"" filename=""*testing_reporters.cpp"" line=""7"">";
    "    <Expression success=""false"" type=""CHECK"" filename=""*testing_reporters.cpp"" line=""7"">";
    "      <Original>";
    "        1 == 2";
    "      </Original>";
    "      <Expanded>";
    "        1 != 2";
    "      </Expanded>";
    "    </Expression>";
    "    <OverallResult success=""false"" skips=""0"" durationInSeconds=""*""/>";
    "  </TestCase>";
    "  <TestCase name=""typed test with tags fail &lt;float&gt;"" tags=""[tag1]"" filename=""*testing_reporters.cpp"" line=""7"">";
    "    <Expression success=""false"" type=""CHECK"" filename=""*testing_reporters.cpp"" line=""7"">";
    "      <Original>";
    "        1 == 2";
    "      </Original>";
    "      <Expanded>";
    "        1 != 2";
    "      </Expanded>";
    "    </Expression>";
    "    <OverallResult success=""false"" skips=""0"" durationInSeconds=""*""/>";
    "  </TestCase>";
    "  <TestCase name=""test fixture fail"" tags=""[tag with space]"" filename=""*testing_reporters.cpp"" line=""7"">";
    "    <Expression success=""false"" type=""CHECK"" filename=""*testing_reporters.cpp"" line=""7"">";
    "      <Original>";
    "        1 == 2";
    "      </Original>";
    "      <Expanded>";
    "        1 != 2";
    "      </Expanded>";
    "    </Expression>";
    "    <OverallResult success=""false"" skips=""0"" durationInSeconds=""*""/>";
    "  </TestCase>";
    "  <TestCase name=""test FAIL fail"" tags="""" filename=""*testing_reporters.cpp"" line=""7"">";
    "    <Failure filename=""*testing_reporters.cpp"" line=""7"">";
    "      something bad";
    "    </Failure>";
    "    <OverallResult success=""false"" skips=""0"" durationInSeconds=""*""/>";
    "  </TestCase>";
    "  <TestCase name=""test expression fail"" tags="""" filename=""*testing_reporters.cpp"" line=""7"">";
    "    <Expression success=""false"" type=""CHECK"" filename=""*testing_reporters.cpp"" line=""7"">";
    "      <Original>";
    "        1 == 2";
    "      </Original>";
    "      <Expanded>";
    "        1 != 2";
    "      </Expanded>";
    "    </Expression>";
    "    <OverallResult success=""false"" skips=""0"" durationInSeconds=""*""/>";
    "  </TestCase>";
    "  <TestCase name=""test long expression fail"" tags="""" filename=""*testing_reporters.cpp"" line=""7"">";
    "    <Expression success=""false"" type=""CHECK"" filename=""*testing_reporters.cpp"" line=""7"">";
    "      <Original>";
    "        some_very_long_name_that_forces_lines_to_wrap != some_very_long_name_that_forces_lines_to_wrap";
    "      </Original>";
    "      <Expanded>";
    "        1 == 1";
    "      </Expanded>";
    "    </Expression>";
    "    <OverallResult success=""false"" skips=""0"" durationInSeconds=""*""/>";
    "  </TestCase>";
    "  <TestCase name=""test too long expression fail"" tags="""" filename=""*testing_reporters.cpp"" line=""7"">";
    "    <Expression success=""false"" type=""CHECK"" filename=""*testing_reporters.cpp"" line=""7"">";
    "      <Original>";
    "        super_long_string != super_long_string";
    "      </Original>";
    "      <Expanded>";
    "        super_long_string != super_long_string";
    "      </Expanded>";
    "    </Expression>";
    "    <OverallResult success=""false"" skips=""0"" durationInSeconds=""*""/>";
    "  </TestCase>";
    "  <TestCase name=""test too long message fail"" tags="""" filename=""*testing_reporters.cpp"" line=""7"">";
    "    <Failure filename=""*testing_reporters.cpp"" line=""7"">";
    "      aaaaaaaaaaaaaaaaaaaaaaaaaaaaaaaaaaaaaaaaaaaaaaaaaaaaaaaaaaaaaaaaaaaaaaaaaaaaaaaaaaaaaaaaaaaaaaaaaaaaaaaaaaaaaaaaaaaaaaaaaaaaaa...";
    "    </Failure>";
    "    <OverallResult success=""false"" skips=""0"" durationInSeconds=""*""/>";
    "  </TestCase>";
    "  <TestCase name=""test NOTHROW fail"" tags="""" filename=""*testing_reporters.cpp"" line=""7"">";
    "    <Failure filename=""*testing_reporters.cpp"" line=""7"">";
    "      expected throw_something(true) not to throw but it threw a std::exception; message: I threw";
    "    </Failure>";
    "    <OverallResult success=""false"" skips=""0"" durationInSeconds=""*""/>";
    "  </TestCase>";
    "  <TestCase name=""test THROW fail"" tags="""" filename=""*testing_reporters.cpp"" line=""7"">";
    "    <Failure filename=""*testing_reporters.cpp"" line=""7"">";
    "      std::runtime_error expected but no exception thrown";
    "    </Failure>";
    "    <Failure filename=""*testing_reporters.cpp"" line=""7"">";
    "      std::system_error expected but other std::exception thrown; message: I threw";
    "    </Failure>";
    "    <Failure filename=""*testing_reporters.cpp"" line=""7"">";
    "      could not match caught std::runtime_error with expected content: could not find &apos;I throws&apos; in &apos;I threw&apos;";
    "    </Failure>";
    "    <OverallResult success=""false"" skips=""0"" durationInSeconds=""*""/>";
    "  </TestCase>";
    "  <TestCase name=""test unexpected throw fail"" tags="""" filename=""*testing_reporters.cpp"" line=""7"">";
    "    <Failure filename=""*testing_reporters.cpp"" line=""7"">";
    "      unexpected std::exception caught; message: unexpected error";
    "    </Failure>";
    "    <OverallResult success=""false"" skips=""0"" durationInSeconds=""*""/>";
    "  </TestCase>";
    "  <TestCase name=""test unexpected throw in section fail"" tags="""" filename=""*testing_reporters.cpp"" line=""7"">";
    "    <Section name=""section 1"" filename=""*testing_reporters.cpp"" line=""7"">";
    "      <Section name=""section 2"" filename=""*testing_reporters.cpp"" line=""7"">";
    "        <Failure filename=""*testing_reporters.cpp"" line=""7"">";
    "          unexpected std::exception caught; message: unexpected error";
    "        </Failure>";
    "        <OverallResults successes=""0"" failures=""1"" expectedFailures=""0"" skipped=""false"" durationInSeconds=""*""/>";
    "      </Section>";
    "      <OverallResults successes=""0"" failures=""1"" expectedFailures=""0"" skipped=""false"" durationInSeconds=""*""/>";
    "    </Section>";
    "    <OverallResult success=""false"" skips=""0"" durationInSeconds=""*""/>";
    "  </TestCase>";
    "  <TestCase name=""test unexpected throw in check fail"" tags="""" filename=""*testing_reporters.cpp"" line=""7"">";
    "    <Failure filename=""*testing_reporters.cpp"" line=""7"">";
    "      unexpected std::exception caught; message: unexpected error";
    "    </Failure>";
    "    <OverallResult success=""false"" skips=""0"" durationInSeconds=""*""/>";
    "  </TestCase>";
    "  <TestCase name=""test unexpected throw in check &amp; section fail"" tags="""" filename=""*testing_reporters.cpp"" line=""7"">";
    "    <Section name=""section 1"" filename=""*testing_reporters.cpp"" line=""7"">";
    "      <Failure filename=""*testing_reporters.cpp"" line=""7"">";
    "        unexpected std::exception caught; message: unexpected error";
    "      </Failure>";
    "      <OverallResults successes=""0"" failures=""1"" expectedFailures=""0"" skipped=""false"" durationInSeconds=""*""/>";
    "    </Section>";
    "    <OverallResult success=""false"" skips=""0"" durationInSeconds=""*""/>";
    "  </TestCase>";
    "  <OverallResults successes=""14"" failures=""21"" expectedFailures=""0"" skips=""0""/>";
    "  <OverallResultsCases successes=""0"" failures=""19"" expectedFailures=""0"" skips=""0""/>";
    "</Catch2TestRun>"
  ]).
Proof. vm_compute. reflexivity. Qed.

(** approval_tests/data/expected/reporter_catch2_xml_full *)
Example approval_catch2_xml_full :
  xml_approval Gcc ["--reporter"; "xml"; "--verbosity"; "full"] = Some (lines [
    "<?xml version=""1.0"" encoding=""UTF-8""?>";
    "";
    "<Catch2TestRun name=""test"" rng-seed=""0"" xml-format-version=""3"" catch2-version=""*.snitch"" filters="""">";
    "  <TestCase name=""test pass"" tags=""[tag2][tag1]"" filename=""*testing_reporters.cpp"" line=""7"">";
    "    <Success filename=""*testing_reporters.cpp"" line=""7"">";
    "      no exception caught";
    "    </Success>";
    "    <OverallResult success=""true"" skips=""0"" durationInSeconds=""*""/>";
    "  </TestCase>";
    "  <TestCase name=""test fail"" tags=""[tag2][tag1]"" filename=""*testing_reporters.cpp"" line=""7"">";
    "    <Expression success=""false"" type=""CHECK"" filename=""*testing_reporters.cpp"" line=""7"">";
    "      <Original>";
    "        1 == 2";
    "      </Original>";
    "      <Expanded>";
    "        1 != 2";
    "      </Expanded>";
    "    </Expression>";
    "    <Success filename=""*testing_reporters.cpp"" line=""7"">";
    "      no exception caught";
    "    </Success>";
    "    <OverallResult success=""false"" skips=""0"" durationInSeconds=""*""/>";
    "  </TestCase>";
    "  <TestCase name=""test mayfail good pass"" tags=""[tag2][tag1][!mayfail]"" filename=""*testing_reporters.cpp"" line=""7"">";
    "    <Success filename=""*testing_reporters.cpp"" line=""7"">";
    "      no exception caught";
    "    </Success>";
    "    <OverallResult success=""true"" skips=""0"" durationInSeconds=""*""/>";
    "  </TestCase>";
    "  <TestCase name=""test mayfail bad pass"" tags=""[tag2][tag1][!mayfail]"" filename=""*testing_reporters.cpp"" line=""7"">";
    "    <Expression success=""false"" type=""CHECK"" filename=""*testing_reporters.cpp"" line=""7"">";
    "      <Original>";
    "        1 == 2";
    "      </Original>";
    "      <Expanded>";
    "        1 != 2";
    "      </Expanded>";
    "    </Expression>";
    "    <Success filename=""*testing_reporters.cpp"" line=""7"">";
    "      no exception caught";
    "    </Success>";
    "    <OverallResult success=""true"" skips=""0"" durationInSeconds=""*""/>";
    "  </TestCase>";
    "  <TestCase name=""test shouldfail good fail"" tags=""[tag2][tag1][!shouldfail]"" filename=""*testing_reporters.cpp"" line=""7"">";
    "    <Success filename=""*testing_reporters.cpp"" line=""7"">";
    "      no exception caught";
    "    </Success>";
    "    <Failure filename=""*testing_reporters.cpp"" line=""7"">";
    "      expected test to fail";
    "    </Failure>";
    "    <OverallResult success=""false"" skips=""0"" durationInSeconds=""*""/>";
    "  </TestCase>";
    "  <TestCase name=""test shouldfail bad pass"" tags=""[tag2][tag1][!shouldfail]"" filename=""*testing_reporters.cpp"" line=""7"">";
    "    <Expression success=""false"" type=""CHECK"" filename=""*testing_reporters.cpp"" line=""7"">";
    "      <Original>";
    "        1 == 2";
    "      </Original>";
    "      <Expanded>";
    "        1 != 2";
    "      </Expanded>";
    "    </Expression>";
    "    <Success filename=""*testing_reporters.cpp"" line=""7"">";
    "      no exception caught";
    "    </Success>";
    "    <Success filename=""*testing_reporters.cpp"" line=""7"">";
    "      expected test to fail";
    "    </Success>";
    "    <OverallResult success=""true"" skips=""0"" durationInSeconds=""*""/>";
    "  </TestCase>";
    "  <TestCase name=""test no tags pass"" tags="""" filename=""*testing_reporters.cpp"" line=""7"">";
    "    <Success filename=""*testing_reporters.cpp"" line=""7"">";
    "      no exception caught";
    "    </Success>";
    "    <OverallResult success=""true"" skips=""0"" durationInSeconds=""*""/>";
    "  </TestCase>";
    "  <TestCase name=""test no tags fail"" tags="""" filename=""*testing_reporters.cpp"" line=""7"">";
    "    <Expression success=""false"" type=""CHECK"" filename=""*testing_reporters.cpp"" line=""7"">";
    "      <Original>";
    "        1 == 2";
    "      </Original>";
    "      <Expanded>";
    "        1 != 2";
    "      </Expanded>";
    "    </Expression>";
    "    <Success filename=""*testing_reporters.cpp"" line=""7"">";
    "      no exception caught";
    "    </Success>";
    "    <OverallResult success=""false"" skips=""0"" durationInSeconds=""*""/>";
    "  </TestCase>";
    "  <TestCase name=""typed test no tags pass &lt;int&gt;"" tags="""" filename=""*testing_reporters.cpp"" line=""7"">";
    "    <Success filename=""*testing_reporters.cpp"" line=""7"">";
    "      no exception caught";
    "    </Success>";
    "    <OverallResult success=""true"" skips=""0"" durationInSeconds=""*""/>";
    "  </TestCase>";
    "  <TestCase name=""typed test no tags pass &lt;float&gt;"" tags="""" filename=""*testing_reporters.cpp"" line=""7"">";
    "    <Success filename=""*testing_reporters.cpp"" line=""7"">";
    "      no exception caught";
    "    </Success>";
    "    <OverallResult success=""true"" skips=""0"" durationInSeconds=""*""/>";
    "  </TestCase>";
    "  <TestCase name=""typed test no tags fail &lt;int&gt;"" tags="""" filename=""*testing_reporters.cpp"" line=""7"">";
    "    <Expression success=""false"" type=""CHECK"" filename=""*testing_reporters.cpp"" line=""7"">";
    "      <Original>";
    "        1 == 2";
    "      </Original>";
    "      <Expanded>";
    "        1 != 2";
    "      </Expanded>";
    "    </Expression>";
    "    <Success filename=""*testing_reporters.cpp"" line=""7"">";
    "      no exception caught";
    "    </Success>";
    "    <OverallResult success=""false"" skips=""0"" durationInSeconds=""*""/>";
    "  </TestCase>";
    "  <TestCase name=""typed test no tags fail &lt;float&gt;"" tags="""" filename=""*testing_reporters.cpp"" line=""7"">";
    "    <Expression success=""false"" type=""CHECK"" filename=""*testing_reporters.cpp"" line=""7"">";
    "      <Original>";
    "        1 == 2";
    "      </Original>";
    "      <Expanded>";
    "        1 != 2";
    "      </Expanded>";
    "    </Expression>";
    "    <Success filename=""*testing_reporters.cpp"" line=""7"">";
    "      no exception caught";
    "    </Success>";
    "    <OverallResult success=""false"" skips=""0"" durationInSeconds=""*""/>";
    "  </TestCase>";
    "  <TestCase name=""typed test with tags pass &lt;int&gt;"" tags=""[tag1]"" filename=""*testing_reporters.cpp"" line=""7"">";
    "    <Success filename=""*testing_reporters.cpp"" line=""7"">";
    "      no exception caught";
    "    </Success>";
    "    <OverallResult success=""true"" skips=""0"" durationInSeconds=""*""/>";
    "  </TestCase>";
    "  <TestCase name=""typed test with tags pass &lt;float&gt;"" tags=""[tag1]"" filename=""*testing_reporters.cpp"" line=""7"">";
    "    <Success filename=""*testing_reporters.cpp"" line=""7"">";
    "      no exception caught";
    "    </Success>";
    "    <OverallResult success=""true"" skips=""0"" durationInSeconds=""*""/>";
    "  </TestCase>";
    "  <TestCase name=""typed test with tags fail &lt;int&gt;"" tags=""[tag1]"" filename=""*testing_reporters.cpp"" line=""7"">";
    "    <Expression success=""false"" type=""CHECK"" filename=""*testing_reporters.cpp"" line=""7"">";
    "      <Original>";
    "        1 == 2";
    "      </Original>";
    "      <Expanded>";
    "        1 != 2";
    "      </Expanded>";
    "    </Expression>";
    "    <Success filename=""*testing_reporters.cpp"" line=""7"">";
    "      no exception caught";
    "    </Success>";
    "    <OverallResult success=""false"" skips=""0"" durationInSeconds=""*""/>";
    "  </TestCase>";
    "  <TestCase name=""typed test with tags fail &lt;float&gt;"" tags=""[tag1]"" filename=""*testing_reporters.cpp"" line=""7"">";
    "    <Expression success=""false"" type=""CHECK"" filename=""*testing_reporters.cpp"" line=""7"">";
    "      <Original>";
    "        1 == 2";
    "      </Original>";
    "      <Expanded>";
    "        1 != 2";
    "      </Expanded>";
    "    </Expression>";
    "    <Success filename=""*testing_reporters.cpp"" line=""7"">";
    "      no exception caught";
    "    </Success>";
    "    <OverallResult success=""false"" skips=""0"" durationInSeconds=""*""/>";
    "  </TestCase>";
    "  <TestCase name=""test fixture pass"" tags=""[tag with space]"" filename=""*testing_reporters.cpp"" line=""7"">";
    "    <Success filename=""*testing_reporters.cpp"" line=""7"">";
    "      no exception caught";
    "    </Success>";
    "    <OverallResult success=""true"" skips=""0"" durationInSeconds=""*""/>";
    "  </TestCase>";
    "  <TestCase name=""test fixture fail"" tags=""[tag with space]"" filename=""*testing_reporters.cpp"" line=""7"">";
    "    <Expression success=""false"" type=""CHECK"" filename=""*testing_reporters.cpp"" line=""7"">";
    "      <Original>";
    "        1 == 2";
    "      </Original>";
    "      <Expanded>";
    "        1 != 2";
    "      </Expanded>";
    "    </Expression>";
    "    <Success filename=""*testing_reporters.cpp"" line=""7"">";
    "      no exception caught";
    "    </Success>";
    "    <OverallResult success=""false"" skips=""0"" durationInSeconds=""*""/>";
    "  </TestCase>";
    "  <TestCase name=""test SUCCEED pass"" tags="""" filename=""*testing_reporters.cpp"" line=""7"">";
    "    <Success filename=""*testing_reporters.cpp"" line=""7"">";
    "      something good";
    "    </Success>";
    "    <Success filename=""*testing_reporters.cpp"" line=""7"">";
    "      no exception caught";
    "    </Success>";
    "    <OverallResult success=""true"" skips=""0"" durationInSeconds=""*""/>";
    "  </TestCase>";
    "  <TestCase name=""test FAIL fail"" tags="""" filename=""*testing_reporters.cpp"" line=""7"">";
    "    <Failure filename=""*testing_reporters.cpp"" line=""7"">";
    "      something bad";
    "    </Failure>";
    "    <Success filename=""*testing_reporters.cpp"" line=""7"">";
    "      no exception caught";
    "    </Success>";
    "    <OverallResult success=""false"" skips=""0"" durationInSeconds=""*""/>";
    "  </TestCase>";
    "  <TestCase name=""test expression pass"" tags="""" filename=""*testing_reporters.cpp"" line=""7"">";
    "    <Expression success=""true"" type=""CHECK"" filename=""*testing_reporters.cpp"" line=""7"">";
    "      <Original>";
    "        1 == 1";
    "      </Original>";
    "      <Expanded>";
    "        1 == 1";
    "      </Expanded>";
    "    </Expression>";
    "    <Success filename=""*testing_reporters.cpp"" line=""7"">";
    "      no exception caught";
    "    </Success>";
    "    <OverallResult success=""true"" skips=""0"" durationInSeconds=""*""/>";
    "  </TestCase>";
    "  <TestCase name=""test expression fail"" tags="""" filename=""*testing_reporters.cpp"" line=""7"">";
    "    <Expression success=""false"" type=""CHECK"" filename=""*testing_reporters.cpp"" line=""7"">";
    "      <Original>";
    "        1 == 2";
    "      </Original>";
    "      <Expanded>";
    "        1 != 2";
    "      </Expanded>";
    "    </Expression>";
    "    <Success filename=""*testing_reporters.cpp"" line=""7"">";
    "      no exception caught";
    "    </Success>";
    "    <OverallResult success=""false"" skips=""0"" durationInSeconds=""*""/>";
    "  </TestCase>";
    "  <TestCase name=""test long expression pass"" tags="""" filename=""*testing_reporters.cpp"" line=""7"">";
    "    <Expression success=""true"" type=""CHECK"" filename=""*testing_reporters.cpp"" line=""7"">";
    "      <Original>";
    "        some_very_long_name_that_forces_lines_to_wrap == some_very_long_name_that_forces_lines_to_wrap";
    "      </Original>";
    "      <Expanded>";
    "        some_very_long_name_that_forces_lines_to_wrap == some_very_long_name_that_forces_lines_to_wrap";
    "      </Expanded>";
    "    </Expression>";
    "    <Success filename=""*testing_reporters.cpp"" line=""7"">";
    "      no exception caught";
    "    </Success>";
    "    <OverallResult success=""true"" skips=""0"" durationInSeconds=""*""/>";
    "  </TestCase>";
    "  <TestCase name=""test long expression fail"" tags="""" filename=""*testing_reporters.cpp"" line=""7"">";
    "    <Expression success=""false"" type=""CHECK"" filename=""*testing_reporters.cpp"" line=""7"">";
    "      <Original>";
    "        some_very_long_name_that_forces_lines_to_wrap != some_very_long_name_that_forces_lines_to_wrap";
    "      </Original>";
    "      <Expanded>";
    "        1 == 1";
    "      </Expanded>";
    "    </Expression>";
    "    <Success filename=""*testing_reporters.cpp"" line=""7"">";
    "      no exception caught";
    "    </Success>";
    "    <OverallResult success=""false"" skips=""0"" durationInSeconds=""*""/>";
    "  </TestCase>";
    "  <TestCase name=""test too long expression pass"" tags="""" filename=""*testing_reporters.cpp"" line=""7"">";
    "    <Expression success=""true"" type=""CHECK"" filename=""*testing_reporters.cpp"" line=""7"">";
    "      <Original>";
    "        super_long_string == super_long_string";
    "      </Original>";
    "      <Expanded>";
    "        super_long_string == super_long_string";
    "      </Expanded>";
    "    </Expression>";
    "    <Success filename=""*testing_reporters.cpp"" line=""7"">";
    "      no exception caught";
    "    </Success>";
    "    <OverallResult success=""true"" skips=""0"" durationInSeconds=""*""/>";
    "  </TestCase>";
    "  <TestCase name=""test too long expression fail"" tags="""" filename=""*testing_reporters.cpp"" line=""7"">";
    "    <Expression success=""false"" type=""CHECK"" filename=""*testing_reporters.cpp"" line=""7"">";
    "      <Original>";
    "        super_long_string != super_long_string";
    "      </Original>";
    "      <Expanded>";
    "        super_long_string != super_long_string";
    "      </Expanded>";
    "    </Expression>";
    "    <Success filename=""*testing_reporters.cpp"" line=""7"">";
    "      no exception caught";
    "    </Success>";
    "    <OverallResult success=""false"" skips=""0"" durationInSeconds=""*""/>";
    "  </TestCase>";
    "  <TestCase name=""test too long message pass"" tags="""" filename=""*testing_reporters.cpp"" line=""7"">";
    "    <Failure filename=""*testing_reporters.cpp"" line=""7"">";
    "      aaaaaaaaaaaaaaaaaaaaaaaaaaaaaaaaaaaaaaaaaaaaaaaaaaaaaaaaaaaaaaaaaaaaaaaaaaaaaaaaaaaaaaaaaaaaaaaaaaaaaaaaaaaaaaaaaaaaaaaaaaaaaa...";
    "    </Failure>";
    "    <OverallResult success=""false"" skips=""0"" durationInSeconds=""*""/>";
    "  </TestCase>";
    "  <TestCase name=""test too long message fail"" tags="""" filename=""*testing_reporters.cpp"" line=""7"">";
    "    <Failure filename=""*testing_reporters.cpp"" line=""7"">";
    "      aaaaaaaaaaaaaaaaaaaaaaaaaaaaaaaaaaaaaaaaaaaaaaaaaaaaaaaaaaaaaaaaaaaaaaaaaaaaaaaaaaaaaaaaaaaaaaaaaaaaaaaaaaaaaaaaaaaaaaaaaaaaaa...";
    "    </Failure>";
    "    <OverallResult success=""false"" skips=""0"" durationInSeconds=""*""/>";
    "  </TestCase>";
    "  <TestCase name=""test NOTHROW pass"" tags="""" filename=""*testing_reporters.cpp"" line=""7"">";
    "    <Success filename=""*testing_reporters.cpp"" line=""7"">";
    "      throw_something(false) did not throw";
    "    </Success>";
    "    <Success filename=""*testing_reporters.cpp"" line=""7"">";
    "      no exception caught";
    "    </Success>";
    "    <OverallResult success=""true"" skips=""0"" durationInSeconds=""*""/>";
    "  </TestCase>";
    "  <TestCase name=""test NOTHROW fail"" tags="""" filename=""*testing_reporters.cpp"" line=""7"">";
    "    <Failure filename=""*testing_reporters.cpp"" line=""7"">";
    "      expected throw_something(true) not to throw but it threw a std::exception; message: I threw";
    "    </Failure>";
    "    <Success filename=""*testing_reporters.cpp"" line=""7"">";
    "      no exception caught";
    "    </Success>";
    "    <OverallResult success=""false"" skips=""0"" durationInSeconds=""*""/>";
    "  </TestCase>";
    "  <TestCase name=""test THROW pass"" tags="""" filename=""*testing_reporters.cpp"" line=""7"">";
    "    <Success filename=""*testing_reporters.cpp"" line=""7"">";
    "      caught std::runtime_error matched expected content: found &apos;I threw&apos; in &apos;I threw&apos;";
    "    </Success>";
    "    <Success filename=""*testing_reporters.cpp"" line=""7"">";
    "      no exception caught";
    "    </Success>";
    "    <OverallResult success=""true"" skips=""0"" durationInSeconds=""*""/>";
    "  </TestCase>";
    "  <TestCase name=""test THROW fail"" tags="""" filename=""*testing_reporters.cpp"" line=""7"">";
    "    <Failure filename=""*testing_reporters.cpp"" line=""7"">";
    "      std::runtime_error expected but no exception thrown";
    "    </Failure>";
    "    <Failure filename=""*testing_reporters.cpp"" line=""7"">";
    "      std::system_error expected but other std::exception thrown; message: I threw";
    "    </Failure>";
    "    <Failure filename=""*testing_reporters.cpp"" line=""7"">";
    "      could not match caught std::runtime_error with expected content: could not find &apos;I throws&apos; in &apos;I threw&apos;";
    "    </Failure>";
    "    <Success filename=""*testing_reporters.cpp"" line=""7"">";
    "      no exception caught";
    "    </Success>";
    "    <OverallResult success=""false"" skips=""0"" durationInSeconds=""*""/>";
    "  </TestCase>";
    "  <TestCase name=""test unexpected throw fail"" tags="""" filename=""*testing_reporters.cpp"" line=""7"">";
    "    <Failure filename=""*testing_reporters.cpp"" line=""7"">";
    "      unexpected std::exception caught; message: unexpected error";
    "    </Failure>";
    "    <OverallResult success=""false"" skips=""0"" durationInSeconds=""*""/>";
    "  </TestCase>";
    "  <TestCase name=""test unexpected throw in section fail"" tags="""" filename=""*testing_reporters.cpp"" line=""7"">";
    "    <Section name=""section 1"" filename=""*testing_reporters.cpp"" line=""7"">";
    "      <Section name=""section 2"" filename=""*testing_reporters.cpp"" line=""7"">";
    "        <Failure filename=""*testing_reporters.cpp"" line=""7"">";
    "          unexpected std::exception caught; message: unexpected error";
    "        </Failure>";
    "        <OverallResults successes=""0"" failures=""1"" expectedFailures=""0"" skipped=""false"" durationInSeconds=""*""/>";
    "      </Section>";
    "      <OverallResults successes=""0"" failures=""1"" expectedFailures=""0"" skipped=""false"" durationInSeconds=""*""/>";
    "    </Section>";
    "    <OverallResult success=""false"" skips=""0"" durationInSeconds=""*""/>";
    "  </TestCase>";
    "  <TestCase name=""test unexpected throw in check fail"" tags="""" filename=""*testing_reporters.cpp"" line=""7"">";
    "    <Failure filename=""*testing_reporters.cpp"" line=""7"">";
    "      unexpected std::exception caught; message: unexpected error";
    "    </Failure>";
    "    <OverallResult success=""false"" skips=""0"" durationInSeconds=""*""/>";
    "  </TestCase>";
    "  <TestCase name=""test unexpected throw in check &amp; section fail"" tags="""" filename=""*testing_reporters.cpp"" line=""7"">";
    "    <Section name=""section 1"" filename=""*testing_reporters.cpp"" line=""7"">";
    "      <Failure filename=""*testing_reporters.cpp"" line=""7"">";
    "        unexpected std::exception caught; message: unexpected error";
    "      </Failure>";
    "      <OverallResults successes=""0"" failures=""1"" expectedFailures=""0"" skipped=""false"" durationInSeconds=""*""/>";
    "    </Section>";
    "    <OverallResult success=""false"" skips=""0"" durationInSeconds=""*""/>";
    "  </TestCase>";
    "  <TestCase name=""test unexpected throw in check &amp; section mayfail"" tags=""[!mayfail]"" filename=""*testing_reporters.cpp"" line=""7"">";
    "    <Section name=""section 1"" filename=""*testing_reporters.cpp"" line=""7"">";
    "      <Failure filename=""*testing_reporters.cpp"" line=""7"">";
    "        unexpected std::exception caught; message: unexpected error";
    "      </Failure>";
    "      <OverallResults successes=""0"" failures=""0"" expectedFailures=""1"" skipped=""false"" durationInSeconds=""*""/>";
    "    </Section>";
    "    <OverallResult success=""true"" skips=""0"" durationInSeconds=""*""/>";
    "  </TestCase>";
    "  <TestCase name=""test SKIP"" tags="""" filename=""*testing_reporters.cpp"" line=""7"">";
    "    <Skip filename=""*testing_reporters.cpp"" line=""7"">";
    "      not interesting";
    "    </Skip>";
    "    <OverallResult success=""true"" skips=""1"" durationInSeconds=""*""/>";
    "  </TestCase>";
    "  <TestCase name=""test INFO"" tags="""" filename=""*testing_reporters.cpp"" line=""7"">";
    "    <Info>";
    "      info";
    "    </Info>";
    "    <Failure filename=""*testing_reporters.cpp"" line=""7"">";
    "      failure";
    "    </Failure>";
    "    <Success filename=""*testing_reporters.cpp"" line=""7"">";
    "      no exception caught";
    "    </Success>";
    "    <OverallResult success=""false"" skips=""0"" durationInSeconds=""*""/>";
    "  </TestCase>";
    "  <TestCase name=""test multiple INFO"" tags="""" filename=""*testing_reporters.cpp"" line=""7"">";
    "    <Failure filename=""*testing_reporters.cpp"" line=""7"">";
    "      failure 1";
    "    </Failure>";
    "    <Info>";
    "      info 1";
    "    </Info>";
    "    <Failure filename=""*testing_reporters.cpp"" line=""7"">";
    "      failure 2";
    "    </Failure>";
    "    <Info>";
    "      info 1";
    "    </Info>";
    "    <Info>";
    "      info 2";
    "    </Info>";
    "    <Failure filename=""*testing_reporters.cpp"" line=""7"">";
    "      failure 3";
    "    </Failure>";
    "    <Info>";
    "      info 1";
    "    </Info>";
    "    <Failure filename=""*testing_reporters.cpp"" line=""7"">";
    "      failure 4";
    "    </Failure>";
    "    <Success filename=""*testing_reporters.cpp"" line=""7"">";
    "      no exception caught";
    "    </Success>";
    "    <OverallResult success=""false"" skips=""0"" durationInSeconds=""*""/>";
    "  </TestCase>";
    "  <TestCase name=""test SECTION"" tags="""" filename=""*testing_reporters.cpp"" line=""7"">";
    "    <Section name=""section"" filename=""*testing_reporters.cpp"" line=""7"">";
    "      <Failure filename=""*testing_reporters.cpp"" line=""7"">";
    "        failure";
    "      </Failure>";
    "      <OverallResults successes=""0"" failures=""1"" expectedFailures=""0"" skipped=""false"" durationInSeconds=""*""/>";
    "    </Section>";
    "    <Success filename=""*testing_reporters.cpp"" line=""7"">";
    "      no exception caught";
    "    </Success>";
    "    <OverallResult success=""false"" skips=""0"" durationInSeconds=""*""/>";
    "  </TestCase>";
    "  <TestCase name=""test SECTION mayfail"" tags=""[!mayfail]"" filename=""*testing_reporters.cpp"" line=""7"">";
    "    <Section name=""section"" filename=""*testing_reporters.cpp"" line=""7"">";
    "      <Failure filename=""*testing_reporters.cpp"" line=""7"">";
    "        failure";
    "      </Failure>";
    "      <OverallResults successes=""0"" failures=""0"" expectedFailures=""1"" skipped=""false"" durationInSeconds=""*""/>";
    "    </Section>";
    "    <Success filename=""*testing_reporters.cpp"" line=""7"">";
    "      no exception caught";
    "    </Success>";
    "    <OverallResult success=""true"" skips=""0"" durationInSeconds=""*""/>";
    "  </TestCase>";
    "  <TestCase name=""test multiple SECTION"" tags="""" filename=""*testing_reporters.cpp"" line=""7"">";
    "    <Section name=""section 1"" filename=""*testing_reporters.cpp"" line=""7"">";
    "      <Failure filename=""*testing_reporters.cpp"" line=""7"">";
    "        failure 1";
    "      </Failure>";
    "      <OverallResults successes=""0"" failures=""1"" expectedFailures=""0"" skipped=""false"" durationInSeconds=""*""/>";
    "    </Section>";
    "    <Failure filename=""*testing_reporters.cpp"" line=""7"">";
    "      failure 7";
    "    </Failure>";
    "    <Section name=""section 2"" filename=""*testing_reporters.cpp"" line=""7"">";
    "      <Failure filename=""*testing_reporters.cpp"" line=""7"">";
    "        failure 2";
    "      </Failure>";
    "      <Section name=""section 2.1"" filename=""*testing_reporters.cpp"" line=""7"">";
    "        <Failure filename=""*testing_reporters.cpp"" line=""7"">";
    "          failure 3";
    "        </Failure>";
    "        <OverallResults successes=""0"" failures=""1"" expectedFailures=""0"" skipped=""false"" durationInSeconds=""*""/>";
    "      </Section>";
    "      <Failure filename=""*testing_reporters.cpp"" line=""7"">";
    "        failure 7";
    "      </Failure>";
    "      <Failure filename=""*testing_reporters.cpp"" line=""7"">";
    "        failure 2";
    "      </Failure>";
    "      <Section name=""section 2.2"" filename=""*testing_reporters.cpp"" line=""7"">";
    "        <Failure filename=""*testing_reporters.cpp"" line=""7"">";
    "          failure 4";
    "        </Failure>";
    "        <Section name=""section 2.2.1"" filename=""*testing_reporters.cpp"" line=""7"">";
    "          <Failure filename=""*testing_reporters.cpp"" line=""7"">";
    "            failure 5";
    "          </Failure>";
    "          <OverallResults successes=""0"" failures=""1"" expectedFailures=""0"" skipped=""false"" durationInSeconds=""*""/>";
    "        </Section>";
    "        <Failure filename=""*testing_reporters.cpp"" line=""7"">";
    "          failure 6";
    "        </Failure>";
    "        <OverallResults successes=""0"" failures=""3"" expectedFailures=""0"" skipped=""false"" durationInSeconds=""*""/>";
    "      </Section>";
    "      <OverallResults successes=""0"" failures=""4"" expectedFailures=""0"" skipped=""false"" durationInSeconds=""*""/>";
    "    </Section>";
    "    <Failure filename=""*testing_reporters.cpp"" line=""7"">";
    "      failure 7";
    "    </Failure>";
    "    <Success filename=""*testing_reporters.cpp"" line=""7"">";
    "      no exception caught";
    "    </Success>";
    "    <OverallResult success=""false"" skips=""0"" durationInSeconds=""*""/>";
    "  </TestCase>";
    "  <TestCase name=""test SECTION &amp; INFO"" tags="""" filename=""*testing_reporters.cpp"" line=""7"">";
    "    <Section name=""section 1"" filename=""*testing_reporters.cpp"" line=""7"">";
    "      <Info>";
    "        info 1";
    "      </Info>";
    "      <Info>";
    "        info 2";
    "      </Info>";
    "      <Failure filename=""*testing_reporters.cpp"" line=""7"">";
    "        failure 1";
    "      </Failure>";
    "      <OverallResults successes=""0"" failures=""1"" expectedFailures=""0"" skipped=""false"" durationInSeconds=""*""/>";
    "    </Section>";
    "    <Info>";
    "      info 1";
    "    </Info>";
    "    <Failure filename=""*testing_reporters.cpp"" line=""7"">";
    "      failure 3";
    "    </Failure>";
    "    <Section name=""section 2"" filename=""*testing_reporters.cpp"" line=""7"">";
    "      <Info>";
    "        info 1";
    "      </Info>";
    "      <Info>";
    "        info 3";
    "      </Info>";
    "      <Failure filename=""*testing_reporters.cpp"" line=""7"">";
    "        failure 2";
    "      </Failure>";
    "      <OverallResults successes=""0"" failures=""1"" expectedFailures=""0"" skipped=""false"" durationInSeconds=""*""/>";
    "    </Section>";
    "    <Info>";
    "      info 1";
    "    </Info>";
    "    <Failure filename=""*testing_reporters.cpp"" line=""7"">";
    "      failure 3";
    "    </Failure>";
    "    <Success filename=""*testing_reporters.cpp"" line=""7"">";
    "      no exception caught";
    "    </Success>";
    "    <OverallResult success=""false"" skips=""0"" durationInSeconds=""*""/>";
    "  </TestCase>";
    "  <TestCase name=""test SECTION &amp; CAPTURE"" tags="""" filename=""*testing_reporters.cpp"" line=""7"">";
    "    <Section name=""section 1"" filename=""*testing_reporters.cpp"" line=""7"">";
    "      <Info>";
    "        i := 1";
    "      </Info>";
    "      <Info>";
    "        j := 2";
    "      </Info>";
    "      <Failure filename=""*testing_reporters.cpp"" line=""7"">";
    "        failure 1";
    "      </Failure>";
    "      <OverallResults successes=""0"" failures=""1"" expectedFailures=""0"" skipped=""false"" durationInSeconds=""*""/>";
    "    </Section>";
    "    <Info>";
    "      i := 1";
    "    </Info>";
    "    <Failure filename=""*testing_reporters.cpp"" line=""7"">";
    "      failure 3";
    "    </Failure>";
    "    <Section name=""section 2"" filename=""*testing_reporters.cpp"" line=""7"">";
    "      <Info>";
    "        i := 1";
    "      </Info>";
    "      <Info>";
    "        j := 3";
    "      </Info>";
    "      <Failure filename=""*testing_reporters.cpp"" line=""7"">";
    "        failure 2";
    "      </Failure>";
    "      <OverallResults successes=""0"" failures=""1"" expectedFailures=""0"" skipped=""false"" durationInSeconds=""*""/>";
    "    </Section>";
    "    <Info>";
    "      i := 1";
    "    </Info>";
    "    <Failure filename=""*testing_reporters.cpp"" line=""7"">";
    "      failure 3";
    "    </Failure>";
    "    <Success filename=""*testing_reporters.cpp"" line=""7"">";
    "      no exception caught";
    "    </Success>";
    "    <OverallResult success=""false"" skips=""0"" durationInSeconds=""*""/>";
    "  </TestCase>";
    "  <TestCase name=""test SKIP in SECTION"" tags="""" filename=""*testing_reporters.cpp"" line=""7"">";
    "    <Section name=""section 1"" filename=""*testing_reporters.cpp"" line=""7"">";
    "      <Section name=""section 2"" filename=""*testing_reporters.cpp"" line=""7"">";
    "        <Skip filename=""*testing_reporters.cpp"" line=""7"">";
    "          stopping here";
    "        </Skip>";
    "        <OverallResults successes=""0"" failures=""0"" expectedFailures=""0"" skipped=""true"" durationInSeconds=""*""/>";
    "      </Section>";
    "      <OverallResults successes=""0"" failures=""0"" expectedFailures=""0"" skipped=""true"" durationInSeconds=""*""/>";
    "    </Section>";
    "    <OverallResult success=""true"" skips=""1"" durationInSeconds=""*""/>";
    "  </TestCase>";
    "  <TestCase name=""test escape &lt;&gt;&amp;&quot;&apos;"" tags="""" filename=""*reporter_catch2_xml.cpp"" line=""7"">";
    "    <Failure filename=""*reporter_catch2_xml.cpp"" line=""7"">";
    "      escape &lt;&gt;&amp;&quot;&apos; in messages";
    "    </Failure>";
    "    <OverallResult success=""false"" skips=""0"" durationInSeconds=""*""/>";
    "  </TestCase>";
    "  <TestCase name=""test escape very long"" tags="""" filename=""*reporter_catch2_xml.cpp"" line=""7"">";
    "    <Failure filename=""*reporter_catch2_xml.cpp"" line=""7"">";
    "      &amp;&amp;&amp;&amp;&amp;&amp;&amp;&amp;&amp;&amp;&amp;&amp;&amp;&amp;&amp;&amp;&amp;&amp;&amp;&amp;&amp;&amp;&amp;&amp;&amp;...";
    "    </Failure>";
    "    <OverallResult success=""false"" skips=""0"" durationInSeconds=""*""/>";
    "  </TestCase>";
    "  <OverallResults successes=""44"" failures=""48"" expectedFailures=""4"" skips=""2""/>";
    "  <OverallResultsCases successes=""16"" failures=""28"" expectedFailures=""4"" skips=""2""/>";
    "</Catch2TestRun>"
  ]).
Proof. vm_compute. reflexivity. Qed.

(** approval_tests/data/expected/reporter_catch2_xml_list_tests *)
Example approval_catch2_xml_list_tests :
  xml_approval Gcc ["--reporter"; "xml"; "--list-tests"] = Some (lines [
    "<?xml version=""1.0"" encoding=""UTF-8""?>";
    "<MatchingTests>";
    "  <TestCase>";
    "    <Name>test pass</Name>";
    "    <ClassName/>";
    "    <Tags>[tag2][tag1]</Tags>";
    "    <SourceInfo>";
    "      <File>*testing_reporters.cpp</File>";
    "      <Line>7</Line>";
    "    </SourceInfo>";
    "  </TestCase>";
    "  <TestCase>";
    "    <Name>test fail</Name>";
    "    <ClassName/>";
    "    <Tags>[tag2][tag1]</Tags>";
    "    <SourceInfo>";
    "      <File>*testing_reporters.cpp</File>";
    "      <Line>7</Line>";
    "    </SourceInfo>";
    "  </TestCase>";
    "  <TestCase>";
    "    <Name>test mayfail good pass</Name>";
    "    <ClassName/>";
    "    <Tags>[tag2][tag1][!mayfail]</Tags>";
    "    <SourceInfo>";
    "      <File>*testing_reporters.cpp</File>";
    "      <Line>7</Line>";
    "    </SourceInfo>";
    "  </TestCase>";
    "  <TestCase>";
    "    <Name>test mayfail bad pass</Name>";
    "    <ClassName/>";
    "    <Tags>[tag2][tag1][!mayfail]</Tags>";
    "    <SourceInfo>";
    "      <File>*testing_reporters.cpp</File>";
    "      <Line>7</Line>";
    "    </SourceInfo>";
    "  </TestCase>";
    "  <TestCase>";
    "    <Name>test shouldfail good fail</Name>";
    "    <ClassName/>";
    "    <Tags>[tag2][tag1][!shouldfail]</Tags>";
    "    <SourceInfo>";
    "      <File>*testing_reporters.cpp</File>";
    "      <Line>7</Line>";
    "    </SourceInfo>";
    "  </TestCase>";
    "  <TestCase>";
    "    <Name>test shouldfail bad pass</Name>";
    "    <ClassName/>";
    "    <Tags>[tag2][tag1][!shouldfail]</Tags>";
    "    <SourceInfo>";
    "      <File>*testing_reporters.cpp</File>";
    "      <Line>7</Line>";
    "    </SourceInfo>";
    "  </TestCase>";
    "  <TestCase>";
    "    <Name>test no tags pass</Name>";
    "    <ClassName/>";
    "    <Tags/>";
    "    <SourceInfo>";
    "      <File>*testing_reporters.cpp</File>";
    "      <Line>7</Line>";
    "    </SourceInfo>";
    "  </TestCase>";
    "  <TestCase>";
    "    <Name>test no tags fail</Name>";
    "    <ClassName/>";
    "    <Tags/>";
    "    <SourceInfo>";
    "      <File>*testing_reporters.cpp</File>";
    "      <Line>7</Line>";
    "    </SourceInfo>";
    "  </TestCase>";
    "  <TestCase>";
    "    <Name>typed test no tags pass &lt;int&gt;</Name>";
    "    <ClassName/>";
    "    <Tags/>";
    "    <SourceInfo>";
    "      <File>*testing_reporters.cpp</File>";
    "      <Line>7</Line>";
    "    </SourceInfo>";
    "  </TestCase>";
    "  <TestCase>";
    "    <Name>typed test no tags pass &lt;float&gt;</Name>";
    "    <ClassName/>";
    "    <Tags/>";
    "    <SourceInfo>";
    "      <File>*testing_reporters.cpp</File>";
    "      <Line>7</Line>";
    "    </SourceInfo>";
    "  </TestCase>";
    "  <TestCase>";
    "    <Name>typed test no tags fail &lt;int&gt;</Name>";
    "    <ClassName/>";
    "    <Tags/>";
    "    <SourceInfo>";
    "      <File>*testing_reporters.cpp</File>";
    "      <Line>7</Line>";
    "    </SourceInfo>";
    "  </TestCase>";
    "  <TestCase>";
    "    <Name>typed test no tags fail &lt;float&gt;</Name>";
    "    <ClassName/>";
    "    <Tags/>";
    "    <SourceInfo>";
    "      <File>*testing_reporters.cpp</File>";
    "      <Line>7</Line>";
    "    </SourceInfo>";
    "  </TestCase>";
    "  <TestCase>";
    "    <Name>typed test with tags pass &lt;int&gt;</Name>";
    "    <ClassName/>";
    "    <Tags>[tag1]</Tags>";
    "    <SourceInfo>";
    "      <File>*testing_reporters.cpp</File>";
    "      <Line>7</Line>";
    "    </SourceInfo>";
    "  </TestCase>";
    "  <TestCase>";
    "    <Name>typed test with tags pass &lt;float&gt;</Name>";
    "    <ClassName/>";
    "    <Tags>[tag1]</Tags>";
    "    <SourceInfo>";
    "      <File>*testing_reporters.cpp</File>";
    "      <Line>7</Line>";
    "    </SourceInfo>";
    "  </TestCase>";
    "  <TestCase>";
    "    <Name>typed test with tags fail &lt;int&gt;</Name>";
    "    <ClassName/>";
    "    <Tags>[tag1]</Tags>";
    "    <SourceInfo>";
    "      <File>*testing_reporters.cpp</File>";
    "      <Line>7</Line>";
    "    </SourceInfo>";
    "  </TestCase>";
    "  <TestCase>";
    "    <Name>typed test with tags fail &lt;float&gt;</Name>";
    "    <ClassName/>";
    "    <Tags>[tag1]</Tags>";
    "    <SourceInfo>";
    "      <File>*testing_reporters.cpp</File>";
    "      <Line>7</Line>";
    "    </SourceInfo>";
    "  </TestCase>";
    "  <TestCase>";
    "    <Name>test fixture pass</Name>";
    "    <ClassName>MyClass</ClassName>";
    "    <Tags>[tag with space]</Tags>";
    "    <SourceInfo>";
    "      <File>*testing_reporters.cpp</File>";
    "      <Line>7</Line>";
    "    </SourceInfo>";
    "  </TestCase>";
    "  <TestCase>";
    "    <Name>test fixture fail</Name>";
    "    <ClassName>MyClass</ClassName>";
    "    <Tags>[tag with space]</Tags>";
    "    <SourceInfo>";
    "      <File>*testing_reporters.cpp</File>";
    "      <Line>7</Line>";
    "    </SourceInfo>";
    "  </TestCase>";
    "  <TestCase>";
    "    <Name>test SUCCEED pass</Name>";
    "    <ClassName/>";
    "    <Tags/>";
    "    <SourceInfo>";
    "      <File>*testing_reporters.cpp</File>";
    "      <Line>7</Line>";
    "    </SourceInfo>";
    "  </TestCase>";
    "  <TestCase>";
    "    <Name>test FAIL fail</Name>";
    "    <ClassName/>";
    "    <Tags/>";
    "    <SourceInfo>";
    "      <File>*testing_reporters.cpp</File>";
    "      <Line>7</Line>";
    "    </SourceInfo>";
    "  </TestCase>";
    "  <TestCase>";
    "    <Name>test expression pass</Name>";
    "    <ClassName/>";
    "    <Tags/>";
    "    <SourceInfo>";
    "      <File>*testing_reporters.cpp</File>";
    "      <Line>7</Line>";
    "    </SourceInfo>";
    "  </TestCase>";
    "  <TestCase>";
    "    <Name>test expression fail</Name>";
    "    <ClassName/>";
    "    <Tags/>";
    "    <SourceInfo>";
    "      <File>*testing_reporters.cpp</File>";
    "      <Line>7</Line>";
    "    </SourceInfo>";
    "  </TestCase>";
    "  <TestCase>";
    "    <Name>test long expression pass</Name>";
    "    <ClassName/>";
    "    <Tags/>";
    "    <SourceInfo>";
    "      <File>*testing_reporters.cpp</File>";
    "      <Line>7</Line>";
    "    </SourceInfo>";
    "  </TestCase>";
    "  <TestCase>";
    "    <Name>test long expression fail</Name>";
    "    <ClassName/>";
    "    <Tags/>";
    "    <SourceInfo>";
    "      <File>*testing_reporters.cpp</File>";
    "      <Line>7</Line>";
    "    </SourceInfo>";
    "  </TestCase>";
    "  <TestCase>";
    "    <Name>test too long expression pass</Name>";
    "    <ClassName/>";
    "    <Tags/>";
    "    <SourceInfo>";
    "      <File>*testing_reporters.cpp</File>";
    "      <Line>7</Line>";
    "    </SourceInfo>";
    "  </TestCase>";
    "  <TestCase>";
    "    <Name>test too long expression fail</Name>";
    "    <ClassName/>";
    "    <Tags/>";
    "    <SourceInfo>";
    "      <File>*testing_reporters.cpp</File>";
    "      <Line>7</Line>";
    "    </SourceInfo>";
    "  </TestCase>";
    "  <TestCase>";
    "    <Name>test too long message pass</Name>";
    "    <ClassName/>";
    "    <Tags/>";
    "    <SourceInfo>";
    "      <File>*testing_reporters.cpp</File>";
    "      <Line>7</Line>";
    "    </SourceInfo>";
    "  </TestCase>";
    "  <TestCase>";
    "    <Name>test too long message fail</Name>";
    "    <ClassName/>";
    "    <Tags/>";
    "    <SourceInfo>";
    "      <File>*testing_reporters.cpp</File>";
    "      <Line>7</Line>";
    "    </SourceInfo>";
    "  </TestCase>";
    "  <TestCase>";
    "    <Name>test NOTHROW pass</Name>";
    "    <ClassName/>";
    "    <Tags/>";
    "    <SourceInfo>";
    "      <File>*testing_reporters.cpp</File>";
    "      <Line>7</Line>";
    "    </SourceInfo>";
    "  </TestCase>";
    "  <TestCase>";
    "    <Name>test NOTHROW fail</Name>";
    "    <ClassName/>";
    "    <Tags/>";
    "    <SourceInfo>";
    "      <File>*testing_reporters.cpp</File>";
    "      <Line>7</Line>";
    "    </SourceInfo>";
    "  </TestCase>";
    "  <TestCase>";
    "    <Name>test THROW pass</Name>";
    "    <ClassName/>";
    "    <Tags/>";
    "    <SourceInfo>";
    "      <File>*testing_reporters.cpp</File>";
    "      <Line>7</Line>";
    "    </SourceInfo>";
    "  </TestCase>";
    "  <TestCase>";
    "    <Name>test THROW fail</Name>";
    "    <ClassName/>";
    "    <Tags/>";
    "    <SourceInfo>";
    "      <File>*testing_reporters.cpp</File>";
    "      <Line>7</Line>";
    "    </SourceInfo>";
    "  </TestCase>";
    "  <TestCase>";
    "    <Name>test unexpected throw fail</Name>";
    "    <ClassName/>";
    "    <Tags/>";
    "    <SourceInfo>";
    "      <File>*testing_reporters.cpp</File>";
    "      <Line>7</Line>";
    "    </SourceInfo>";
    "  </TestCase>";
    "  <TestCase>";
    "    <Name>test unexpected throw in section fail</Name>";
    "    <ClassName/>";
    "    <Tags/>";
    "    <SourceInfo>";
    "      <File>*testing_reporters.cpp</File>";
    "      <Line>7</Line>";
    "    </SourceInfo>";
    "  </TestCase>";
    "  <TestCase>";
    "    <Name>test unexpected throw in check fail</Name>";
    "    <ClassName/>";
    "    <Tags/>";
    "    <SourceInfo>";
    "      <File>*testing_reporters.cpp</File>";
    "      <Line>7</Line>";
    "    </SourceInfo>";
    "  </TestCase>";
    "  <TestCase>";
    "    <Name>test unexpected throw in check &amp; section fail</Name>";
    "    <ClassName/>";
    "    <Tags/>";
    "    <SourceInfo>";
    "      <File>*testing_reporters.cpp</File>";
    "      <Line>7</Line>";
    "    </SourceInfo>";
    "  </TestCase>";
    "  <TestCase>";
    "    <Name>test unexpected throw in check &amp; section mayfail</Name>";
    "    <ClassName/>";
    "    <Tags>[!mayfail]</Tags>";
    "    <SourceInfo>";
    "      <File>*testing_reporters.cpp</File>";
    "      <Line>7</Line>";
    "    </SourceInfo>";
    "  </TestCase>";
    "  <TestCase>";
    "    <Name>test SKIP</Name>";
    "    <ClassName/>";
    "    <Tags/>";
    "    <SourceInfo>";
    "      <File>*testing_reporters.cpp</File>";
    "      <Line>7</Line>";
    "    </SourceInfo>";
    "  </TestCase>";
    "  <TestCase>";
    "    <Name>test INFO</Name>";
    "    <ClassName/>";
    "    <Tags/>";
    "    <SourceInfo>";
    "      <File>*testing_reporters.cpp</File>";
    "      <Line>7</Line>";
    "    </SourceInfo>";
    "  </TestCase>";
    "  <TestCase>";
    "    <Name>test multiple INFO</Name>";
    "    <ClassName/>";
    "    <Tags/>";
    "    <SourceInfo>";
    "      <File>*testing_reporters.cpp</File>";
    "      <Line>7</Line>";
    "    </SourceInfo>";
    "  </TestCase>";
    "  <TestCase>";
    "    <Name>test SECTION</Name>";
    "    <ClassName/>";
    "    <Tags/>";
    "    <SourceInfo>";
    "      <File>*testing_reporters.cpp</File>";
    "      <Line>7</Line>";
    "    </SourceInfo>";
    "  </TestCase>";
    "  <TestCase>";
    "    <Name>test SECTION mayfail</Name>";
    "    <ClassName/>";
    "    <Tags>[!mayfail]</Tags>";
    "    <SourceInfo>";
    "      <File>*testing_reporters.cpp</File>";
    "      <Line>7</Line>";
    "    </SourceInfo>";
    "  </TestCase>";
    "  <TestCase>";
    "    <Name>test multiple SECTION</Name>";
    "    <ClassName/>";
    "    <Tags/>";
    "    <SourceInfo>";
    "      <File>*testing_reporters.cpp</File>";
    "      <Line>7</Line>";
    "    </SourceInfo>";
    "  </TestCase>";
    "  <TestCase>";
    "    <Name>test SECTION &amp; INFO</Name>";
    "    <ClassName/>";
    "    <Tags/>";
    "    <SourceInfo>";
    "      <File>*testing_reporters.cpp</File>";
    "      <Line>7</Line>";
    "    </SourceInfo>";
    "  </TestCase>";
    "  <TestCase>";
    "    <Name>test SECTION &amp; CAPTURE</Name>";
    "    <ClassName/>";
    "    <Tags/>";
    "    <SourceInfo>";
    "      <File>*testing_reporters.cpp</File>";
    "      <Line>7</Line>";
    "    </SourceInfo>";
    "  </TestCase>";
    "  <TestCase>";
    "    <Name>test SKIP in SECTION</Name>";
    "    <ClassName/>";
    "    <Tags/>";
    "    <SourceInfo>";
    "      <File>*testing_reporters.cpp</File>";
    "      <Line>7</Line>";
    "    </SourceInfo>";
    "  </TestCase>";
    "  <TestCase>";
    "    <Name>test escape &lt;&gt;&amp;&quot;&apos;</Name>";
    "    <ClassName/>";
    "    <Tags/>";
    "    <SourceInfo>";
    "      <File>*reporter_catch2_xml.cpp</File>";
    "      <Line>7</Line>";
    "    </SourceInfo>";
    "  </TestCase>";
    "  <TestCase>";
    "    <Name>test escape very long</Name>";
    "    <ClassName/>";
    "    <Tags/>";
    "    <SourceInfo>";
    "      <File>*reporter_catch2_xml.cpp</File>";
    "      <Line>7</Line>";
    "    </SourceInfo>";
    "  </TestCase>";
    "</MatchingTests>"
  ]).
Proof. vm_compute. reflexivity. Qed.

(** approval_tests/data/expected/reporter_teamcity_default *)
Example approval_teamcity_default :
  teamcity_approval Gcc ["--reporter"; "teamcity"] = Some (lines [
    "##teamCity[testSuiteStarted name='test']";
    "##teamCity[testStarted name='test pass']";
    "##teamCity[testFinished name='test pass' duration='*']";
    "##teamCity[testStarted name='test fail']";
    "##teamCity[testFailed name='test fail' message='*testing_reporters.cpp:7|n  CHECK(1 == 2), got: 1 != 2']";
    "##teamCity[testFinished name='test fail' duration='*']";
    "##teamCity[testStarted name='test mayfail good pass']";
    "##teamCity[testFinished name='test mayfail good pass' duration='*']";
    "##teamCity[testStarted name='test mayfail bad pass']";
    "##teamCity[testStdOut name='test mayfail bad pass' out='*testing_reporters.cpp:7|n  CHECK(1 == 2), got: 1 != 2']";
    "##teamCity[testFinished name='test mayfail bad pass' duration='*']";
    "##teamCity[testStarted name='test shouldfail good fail']";
    "##teamCity[testFailed name='test shouldfail good fail' message='*testing_reporters.cpp:7|n  expected test to fail']";
    "##teamCity[testFinished name='test shouldfail good fail' duration='*']";
    "##teamCity[testStarted name='test shouldfail bad pass']";
    "##teamCity[testStdOut name='test shouldfail bad pass' out='*testing_reporters.cpp:7|n  CHECK(1 == 2), got: 1 != 2']";
    "##teamCity[testFinished name='test shouldfail bad pass' duration='*']";
    "##teamCity[testStarted name='test no tags pass']";
    "##teamCity[testFinished name='test no tags pass' duration='*']";
    "##teamCity[testStarted name='test no tags fail']";
    "##teamCity[testFailed name='test no tags fail' message='*testing_reporters.cpp:7|n  CHECK(1 == 2), got: 1 != 2']";
    "##teamCity[testFinished name='test no tags fail' duration='*']";
    "##teamCity[testStarted name='typed test no tags pass <int>']";
    "##teamCity[testFinished name='typed test no tags pass <int>' duration='*']";
    "##teamCity[testStarted name='typed test no tags pass <float>']";
    "##teamCity[testFinished name='typed test no tags pass <float>' duration='*']";
    "##teamCity[testStarted name='typed test no tags fail <int>']";
    "##teamCity[testFailed name='typed test no tags fail <int>' message='*testing_reporters.cpp:7|n  CHECK(1 == 2), got: 1 != 2']";
    "##teamCity[testFinished name='typed test no tags fail <int>' duration='*']";
    "##teamCity[testStarted name='typed test no tags fail <float>']";
    "##teamCity[testFailed name='typed test no tags fail <float>' message='*testing_reporters.cpp:7|n  CHECK(1 == 2), got: 1 != 2']";
    "##teamCity[testFinished name='typed test no tags fail <float>' duration='*']";
    "##teamCity[testStarted name='typed test with tags pass <int>']";
    "##teamCity[testFinished name='typed test with tags pass <int>' duration='*']";
    "##teamCity[testStarted name='typed test with tags pass <float>']";
    "##teamCity[testFinished name='typed test with tags pass <float>' duration='*']";
    "##teamCity[testStarted name='typed test with tags fail <int>']";
    "##teamCity[testFailed name='typed test with tags fail <int>' message='*testing_reporters.cpp:7|n  CHECK(1 == 2), got: 1 != 2']";
    "##teamCity[testFinished name='typed test with tags fail <int>' duration='*']";
    "##teamCity[testStarted name='typed test with tags fail <float>']";
    "##teamCity[testFailed name='typed test with tags fail <float>' message='*testing_reporters.cpp:7|n  CHECK(1 == 2), got: 1 != 2']";
    "##teamCity[testFinished name='typed test with tags fail <float>' duration='*']";
    "##teamCity[testStarted name='test fixture pass']";
    "##teamCity[testFinished name='test fixture pass' duration='*']";
    "##teamCity[testStarted name='test fixture fail']";
    "##teamCity[testFailed name='test fixture fail' message='*testing_reporters.cpp:7|n  CHECK(1 == 2), got: 1 != 2']";
    "##teamCity[testFinished name='test fixture fail' duration='*']";
    "##teamCity[testStarted name='test SUCCEED pass']";
    "##teamCity[testFinished name='test SUCCEED pass' duration='*']";
    "##teamCity[testStarted name='test FAIL fail']";
    "##teamCity[testFailed name='test FAIL fail' message='*testing_reporters.cpp:7|n  something bad']";
    "##teamCity[testFinished name='test FAIL fail' duration='*']";
    "##teamCity[testStarted name='test expression pass']";
    "##teamCity[testFinished name='test expression pass' duration='*']";
    "##teamCity[testStarted name='test expression fail']";
    "##teamCity[testFailed name='test expression fail' message='*testing_reporters.cpp:7|n  CHECK(1 == 2), got: 1 != 2']";
    "##teamCity[testFinished name='test expression fail' duration='*']";
    "##teamCity[testStarted name='test long expression pass']";
    "##teamCity[testFinished name='test long expression pass' duration='*']";
    "##teamCity[testStarted name='test long expression fail']";
    "##teamCity[testFailed name='test long expression fail' message='*testing_reporters.cpp:7|n  CHECK(some_very_long_name_that_forces_lines_to_wrap != some_very_long_name_that_forces_lines_to_wrap)|n  got: 1 == 1']";
    "##teamCity[testFinished name='test long expression fail' duration='*']";
    "##teamCity[testStarted name='test too long expression pass']";
    "##teamCity[testFinished name='test too long expression pass' duration='*']";
    "##teamCity[testStarted name='test too long expression fail']";
    "##teamCity[testFailed name='test too long expression fail' message='*testing_reporters.cpp:7|n  CHECK(super_long_string != super_long_string)']";
    "##teamCity[testFinished name='test too long expression fail' duration='*']";
    "##teamCity[testStarted name='test too long message pass']";
    "##teamCity[testFailed name='test too long message pass' message='*testing_reporters.cpp:7|n  aaaaaaaaaaaaaaaaaaaaaaaaaaaaaaaaaaaaaaaaaaaaaaaaaaaaaaaaaaaaaaaaaaaaaaaaaaaaaaaaaaaaaaaaaaaaaaaaaaaaaaaaaaaaaaaaaaaaaaaaaaaaaa...']";
    "##teamCity[testFinished name='test too long message pass' duration='*']";
    "##teamCity[testStarted name='test too long message fail']";
    "##teamCity[testFailed name='test too long message fail' message='*testing_reporters.cpp:7|n  aaaaaaaaaaaaaaaaaaaaaaaaaaaaaaaaaaaaaaaaaaaaaaaaaaaaaaaaaaaaaaaaaaaaaaaaaaaaaaaaaaaaaaaaaaaaaaaaaaaaaaaaaaaaaaaaaaaaaaaaaaaaaa...']";
    "##teamCity[testFinished name='test too long message fail' duration='*']";
    "##teamCity[testStarted name='test NOTHROW pass']";
    "##teamCity[testFinished name='test NOTHROW pass' duration='*']";
    "##teamCity[testStarted name='test NOTHROW fail']";
    "##teamCity[testFailed name='test NOTHROW fail' message='*testing_reporters.cpp:7|n  expected throw_something(true) not to throw but it threw a std::exception; message: I threw']";
    "##teamCity[testFinished name='test NOTHROW fail' duration='*']";
    "##teamCity[testStarted name='test THROW pass']";
    "##teamCity[testFinished name='test THROW pass' duration='*']";
    "##teamCity[testStarted name='test THROW fail']";
    "##teamCity[testFailed name='test THROW fail' message='*testing_reporters.cpp:7|n  std::runtime_error expected but no exception thrown']";
    "##teamCity[testFailed name='test THROW fail' message='*testing_reporters.cpp:7|n  std::system_error expected but other std::exception thrown; message: I threw']";
    "##teamCity[testFailed name='test THROW fail' message='*testing_reporters.cpp:7|n  could not match caught std::runtime_error with expected content: could not find |'I throws|' in |'I threw|'']";
    "##teamCity[testFinished name='test THROW fail' duration='*']";
    "##teamCity[testStarted name='test unexpected throw fail']";
    "##teamCity[testFailed name='test unexpected throw fail' message='*testing_reporters.cpp:7|n  unexpected std::exception caught; message: unexpected error']";
    "##teamCity[testFinished name='test unexpected throw fail' duration='*']";
    "##teamCity[testStarted name='test unexpected throw in section fail']";
    "##teamCity[blockOpened name='section 1' description='']";
    "##teamCity[blockOpened name='section 2' description='']";
    "##teamCity[testFailed name='test unexpected throw in section fail' message='*testing_reporters.cpp:7|n  unexpected std::exception caught; message: unexpected error']";
    "##teamCity[blockClosed name='section 2']";
    "##teamCity[blockClosed name='section 1']";
    "##teamCity[testFinished name='test unexpected throw in section fail' duration='*']";
    "##teamCity[testStarted name='test unexpected throw in check fail']";
    "##teamCity[testFailed name='test unexpected throw in check fail' message='*testing_reporters.cpp:7|n  unexpected std::exception caught; message: unexpected error']";
    "##teamCity[testFinished name='test unexpected throw in check fail' duration='*']";
    "##teamCity[testStarted name='test unexpected throw in check & section fail']";
    "##teamCity[blockOpened name='section 1' description='']";
    "##teamCity[testFailed name='test unexpected throw in check & section fail' message='*testing_reporters.cpp:7|n  unexpected std::exception caught; message: unexpected error']";
    "##teamCity[blockClosed name='section 1']";
    "##teamCity[testFinished name='test unexpected throw in check & section fail' duration='*']";
    "##teamCity[testStarted name='test unexpected throw in check & section mayfail']";
    "##teamCity[blockOpened name='section 1' description='']";
    "##teamCity[testStdOut name='test unexpected throw in check & section mayfail' out='*testing_reporters.cpp:7|n  unexpected std::exception caught; message: unexpected error']";
    "##teamCity[blockClosed name='section 1']";
    "##teamCity[testFinished name='test unexpected throw in check & section mayfail' duration='*']";
    "##teamCity[testStarted name='test SKIP']";
    "##teamCity[testIgnored name='test SKIP' message='*testing_reporters.cpp:7|n  not interesting']";
    "##teamCity[testFinished name='test SKIP' duration='*']";
    "##teamCity[testStarted name='test INFO']";
    "##teamCity[testFailed name='test INFO' message='*testing_reporters.cpp:7|nwith info|n  failure']";
    "##teamCity[testFinished name='test INFO' duration='*']";
    "##teamCity[testStarted name='test multiple INFO']";
    "##teamCity[testFailed name='test multiple INFO' message='*testing_reporters.cpp:7|n  failure 1']";
    "##teamCity[testFailed name='test multiple INFO' message='*testing_reporters.cpp:7|nwith info 1|n  failure 2']";
    "##teamCity[testFailed name='test multiple INFO' message='*testing_reporters.cpp:7|nwith info 1|nwith info 2|n  failure 3']";
    "##teamCity[testFailed name='test multiple INFO' message='*testing_reporters.cpp:7|nwith info 1|n  failure 4']";
    "##teamCity[testFinished name='test multiple INFO' duration='*']";
    "##teamCity[testStarted name='test SECTION']";
    "##teamCity[blockOpened name='section' description='']";
    "##teamCity[testFailed name='test SECTION' message='*testing_reporters.cpp:7|n  failure']";
    "##teamCity[blockClosed name='section']";
    "##teamCity[testFinished name='test SECTION' duration='*']";
    "##teamCity[testStarted name='test SECTION mayfail']";
    "##teamCity[blockOpened name='section' description='']";
    "##teamCity[testStdOut name='test SECTION mayfail' out='*testing_reporters.cpp:7|n  failure']";
    "##teamCity[blockClosed name='section']";
    "##teamCity[testFinished name='test SECTION mayfail' duration='*']";
    "##teamCity[testStarted name='test multiple SECTION']";
    "##teamCity[blockOpened name='section 1' description='']";
    "##teamCity[testFailed name='test multiple SECTION' message='*testing_reporters.cpp:7|n  failure 1']";
    "##teamCity[blockClosed name='section 1']";
    "##teamCity[testFailed name='test multiple SECTION' message='*testing_reporters.cpp:7|n  failure 7']";
    "##teamCity[blockOpened name='section 2' description='']";
    "##teamCity[testFailed name='test multiple SECTION' message='*testing_reporters.cpp:7|n  failure 2']";
    "##teamCity[blockOpened name='section 2.1' description='']";
    "##teamCity[testFailed name='test multiple SECTION' message='*testing_reporters.cpp:7|n  failure 3']";
    "##teamCity[blockClosed name='section 2.1']";
    "##teamCity[testFailed name='test multiple SECTION' message='*testing_reporters.cpp:7|n  failure 7']";
    "##teamCity[testFailed name='test multiple SECTION' message='*testing_reporters.cpp:7|n  failure 2']";
    "##teamCity[blockOpened name='section 2.2' description='']";
    "##teamCity[testFailed name='test multiple SECTION' message='*testing_reporters.cpp:7|n  failure 4']";
    "##teamCity[blockOpened name='section 2.2.1' description='']";
    "##teamCity[testFailed name='test multiple SECTION' message='*testing_reporters.cpp:7|n  failure 5']";
    "##teamCity[blockClosed name='section 2.2.1']";
    "##teamCity[testFailed name='test multiple SECTION' message='*testing_reporters.cpp:7|n  failure 6']";
    "##teamCity[blockClosed name='section 2.2']";
    "##teamCity[blockClosed name='section 2']";
    "##teamCity[testFailed name='test multiple SECTION' message='*testing_reporters.cpp:7|n  failure 7']";
    "##teamCity[testFinished name='test multiple SECTION' duration='*']";
    "##teamCity[testStarted name='test SECTION & INFO']";
    "##teamCity[blockOpened name='section 1' description='']";
    "##teamCity[testFailed name='test SECTION & INFO' message='*testing_reporters.cpp:7|nwith info 1|nwith info 2|n  failure 1']";
    "##teamCity[blockClosed name='section 1']";
    "##teamCity[testFailed name='test SECTION & INFO' message='*testing_reporters.cpp:7|nwith info 1|n  failure 3']";
    "##teamCity[blockOpened name='section 2' description='']";
    "##teamCity[testFailed name='test SECTION & INFO' message='*testing_reporters.cpp:7|nwith info 1|nwith info 3|n  failure 2']";
    "##teamCity[blockClosed name='section 2']";
    "##teamCity[testFailed name='test SECTION & INFO' message='*testing_reporters.cpp:7|nwith info 1|n  failure 3']";
    "##teamCity[testFinished name='test SECTION & INFO' duration='*']";
    "##teamCity[testStarted name='test SECTION & CAPTURE']";
    "##teamCity[blockOpened name='section 1' description='']";
    "##teamCity[testFailed name='test SECTION & CAPTURE' message='*testing_reporters.cpp:7|nwith i := 1|nwith j := 2|n  failure 1']";
    "##teamCity[blockClosed name='section 1']";
    "##teamCity[testFailed name='test SECTION & CAPTURE' message='*testing_reporters.cpp:7|nwith i := 1|n  failure 3']";
    "##teamCity[blockOpened name='section 2' description='']";
    "##teamCity[testFailed name='test SECTION & CAPTURE' message='*testing_reporters.cpp:7|nwith i := 1|nwith j := 3|n  failure 2']";
    "##teamCity[blockClosed name='section 2']";
    "##teamCity[testFailed name='test SECTION & CAPTURE' message='*testing_reporters.cpp:7|nwith i := 1|n  failure 3']";
    "##teamCity[testFinished name='test SECTION & CAPTURE' duration='*']";
    "##teamCity[testStarted name='test SKIP in SECTION']";
    "##teamCity[blockOpened name='section 1' description='']";
    "##teamCity[blockOpened name='section 2' description='']";
    "##teamCity[testIgnored name='test SKIP in SECTION' message='*testing_reporters.cpp:7|n  stopping here']";
    "##teamCity[blockClosed name='section 2']";
    "##teamCity[blockClosed name='section 1']";
    "##teamCity[testFinished name='test SKIP in SECTION' duration='*']";
    "##teamCity[testStarted name='test escape |||'|n|r|[|]']";
    "##teamCity[testFailed name='test escape |||'|n|r|[|]' message='*reporter_teamcity.cpp:7|n  escape || message |||| || |'|n|r|[|]']";
    "##teamCity[testFinished name='test escape |||'|n|r|[|]' duration='*']";
    "##teamCity[testStarted name='test escape very long']";
    "##teamCity[testFailed name='test escape very long' message='*reporter_teamcity.cpp:7|n  ||||||||||||||||||||||||||||||||||||||||||||||||||||||||||||||||||||||||||||||||||||||||||||||||||||||||||||||||||||||||||||||...']";
    "##teamCity[testFinished name='test escape very long' duration='*']";
    "##teamCity[testSuiteFinished name='test']"
  ]).
Proof. vm_compute. reflexivity. Qed.

(** approval_tests/data/expected/reporter_teamcity_notest *)
Example approval_teamcity_notest :
  teamcity_approval Gcc ["--reporter"; "teamcity"; "bad_filter"] = Some (lines [
    "##teamCity[testSuiteStarted name='test ""bad_filter""']";
    "##teamCity[testSuiteFinished name='test ""bad_filter""']"
  ]).
Proof. vm_compute. reflexivity. Qed.

(** approval_tests/data/expected/reporter_teamcity_allpass *)
Example approval_teamcity_allpass :
  teamcity_approval Gcc ["--reporter"; "teamcity"; "* pass*"] = Some (lines [
    "##teamCity[testSuiteStarted name='test ""* pass*""']";
    "##teamCity[testStarted name='test pass']";
    "##teamCity[testFinished name='test pass' duration='*']";
    "##teamCity[testStarted name='test mayfail good pass']";
    "##teamCity[testFinished name='test mayfail good pass' duration='*']";
    "##teamCity[testStarted name='test mayfail bad pass']";
    "##teamCity[testStdOut name='test mayfail bad pass' out='*testing_reporters.cpp:7|n  CHECK(1 == 2), got: 1 != 2']";
    "##teamCity[testFinished name='test mayfail bad pass' duration='*']";
    "##teamCity[testStarted name='test shouldfail bad pass']";
    "##teamCity[testStdOut name='test shouldfail bad pass' out='*testing_reporters.cpp:7|n  CHECK(1 == 2), got: 1 != 2']";
    "##teamCity[testFinished name='test shouldfail bad pass' duration='*']";
    "##teamCity[testStarted name='test no tags pass']";
    "##teamCity[testFinished name='test no tags pass' duration='*']";
    "##teamCity[testStarted name='typed test no tags pass <int>']";
    "##teamCity[testFinished name='typed test no tags pass <int>' duration='*']";
    "##teamCity[testStarted name='typed test no tags pass <float>']";
    "##teamCity[testFinished name='typed test no tags pass <float>' duration='*']";
    "##teamCity[testStarted name='typed test with tags pass <int>']";
    "##teamCity[testFinished name='typed test with tags pass <int>' duration='*']";
    "##teamCity[testStarted name='typed test with tags pass <float>']";
    "##teamCity[testFinished name='typed test with tags pass <float>' duration='*']";
    "##teamCity[testStarted name='test fixture pass']";
    "##teamCity[testFinished name='test fixture pass' duration='*']";
    "##teamCity[testStarted name='test SUCCEED pass']";
    "##teamCity[testFinished name='test SUCCEED pass' duration='*']";
    "##teamCity[testStarted name='test expression pass']";
    "##teamCity[testFinished name='test expression pass' duration='*']";
    "##teamCity[testStarted name='test long expression pass']";
    "##teamCity[testFinished name='test long expression pass' duration='*']";
    "##teamCity[testStarted name='test too long expression pass']";
    "##teamCity[testFinished name='test too long expression pass' duration='*']";
    "##teamCity[testStarted name='test too long message pass']";
    "##teamCity[testFailed name='test too long message pass' message='*testing_reporters.cpp:7|n  aaaaaaaaaaaaaaaaaaaaaaaaaaaaaaaaaaaaaaaaaaaaaaaaaaaaaaaaaaaaaaaaaaaaaaaaaaaaaaaaaaaaaaaaaaaaaaaaaaaaaaaaaaaaaaaaaaaaaaaaaaaaaa...']";
    "##teamCity[testFinished name='test too long message pass' duration='*']";
    "##teamCity[testStarted name='test NOTHROW pass']";
    "##teamCity[testFinished name='test NOTHROW pass' duration='*']";
    "##teamCity[testStarted name='test THROW pass']";
    "##teamCity[testFinished name='test THROW pass' duration='*']";
    "##teamCity[testSuiteFinished name='test ""* pass*""']"
  ]).
Proof. vm_compute. reflexivity. Qed.

(** approval_tests/data/expected/reporter_teamcity_allfail *)
Example approval_teamcity_allfail :
  teamcity_approval Gcc ["--reporter"; "teamcity"; "* fail*"] = Some (lines [
    "##teamCity[testSuiteStarted name='test ""* fail*""']";
    "##teamCity[testStarted name='test fail']";
    "##teamCity[testFailed name='test fail' message='*testing_reporters.cpp:7|n  CHECK(1 == 2), got: 1 != 2']";
    "##teamCity[testFinished name='test fail' duration='*']";
    "##teamCity[testStarted name='test shouldfail good fail']";
    "##teamCity[testFailed name='test shouldfail good fail' message='*testing_reporters.cpp:7|n  expected test to fail']";
    "##teamCity[testFinished name='test shouldfail good fail' duration='*']";
    "##teamCity[testStarted name='test no tags fail']";
    "##teamCity[testFailed name='test no tags fail' message='*testing_reporters.cpp:7|n  CHECK(1 == 2), got: 1 != 2']";
    "##teamCity[testFinished name='test no tags fail' duration='*']";
    "##teamCity[testStarted name='typed test no tags fail <int>']";
    "##teamCity[testFailed name='typed test no tags fail <int>' message='*testing_reporters.cpp:7|n  CHECK(1 == 2), got: 1 != 2']";
    "##teamCity[testFinished name='typed test no tags fail <int>' duration='*']";
    "##teamCity[testStarted name='typed test no tags fail <float>']";
    "##teamCity[testFailed name='typed test no tags fail <float>' message='*testing_reporters.cpp:7|n  CHECK(1 == 2), got: 1 != 2']";
    "##teamCity[testFinished name='typed test no tags fail <float>' duration='*']";
    "##teamCity[testStarted name='typed test with tags fail <int>']";
    "##teamCity[testFailed name='typed test with tags fail <int>' message='*testing_reporters.cpp:7|n  CHECK(1 == 2), got: 1 != 2']";
    "##teamCity[testFinished name='typed test with tags fail <int>' duration='*']";
    "##teamCity[testStarted name='typed test with tags fail <float>']";
    "##teamCity[testFailed name='typed test with tags fail <float>' message='*testing_reporters.cpp:7|n  CHECK(1 == 2), got: 1 != 2']";
    "##teamCity[testFinished name='typed test with tags fail <float>' duration='*']";
    "##teamCity[testStarted name='test fixture fail']";
    "##teamCity[testFailed name='test fixture fail' message='*testing_reporters.cpp:7|n  CHECK(1 == 2), got: 1 != 2']";
    "##teamCity[testFinished name='test fixture fail' duration='*']";
    "##teamCity[testStarted name='test FAIL fail']";
    "##teamCity[testFailed name='test FAIL fail' message='*testing_reporters.cpp:7|n  something bad']";
    "##teamCity[testFinished name='test FAIL fail' duration='*']";
    "##teamCity[testStarted name='test expression fail']";
    "##teamCity[testFailed name='test expression fail' message='*testing_reporters.cpp:7|n  CHECK(1 == 2), got: 1 != 2']";
    "##teamCity[testFinished name='test expression fail' duration='*']";
    "##teamCity[testStarted name='test long expression fail']";
    "##teamCity[testFailed name='test long expression fail' message='*testing_reporters.cpp:7|n  CHECK(some_very_long_name_that_forces_lines_to_wrap != some_very_long_name_that_forces_lines_to_wrap)|n  got: 1 == 1']";
    "##teamCity[testFinished name='test long expression fail' duration='*']";
    "##teamCity[testStarted name='test too long expression fail']";
    "##teamCity[testFailed name='test too long expression fail' message='*testing_reporters.cpp:7|n  CHECK(super_long_string != super_long_string)']";
    "##teamCity[testFinished name='test too long expression fail' duration='*']";
    "##teamCity[testStarted name='test too long message fail']";
    "##teamCity[testFailed name='test too long message fail' message='*testing_reporters.cpp:7|n  aaaaaaaaaaaaaaaaaaaaaaaaaaaaaaaaaaaaaaaaaaaaaaaaaaaaaaaaaaaaaaaaaaaaaaaaaaaaaaaaaaaaaaaaaaaaaaaaaaaaaaaaaaaaaaaaaaaaaaaaaaaaaa...']";
    "##teamCity[testFinished name='test too long message fail' duration='*']";
    "##teamCity[testStarted name='test NOTHROW fail']";
    "##teamCity[testFailed name='test NOTHROW fail' message='*testing_reporters.cpp:7|n  expected throw_something(true) not to throw but it threw a std::exception; message: I threw']";
    "##teamCity[testFinished name='test NOTHROW fail' duration='*']";
    "##teamCity[testStarted name='test THROW fail']";
    "##teamCity[testFailed name='test THROW fail' message='*testing_reporters.cpp:7|n  std::runtime_error expected but no exception thrown']";
    "##teamCity[testFailed name='test THROW fail' message='*testing_reporters.cpp:7|n  std::system_error expected but other std::exception thrown; message: I threw']";
    "##teamCity[testFailed name='test THROW fail' message='*testing_reporters.cpp:7|n  could not match caught std::runtime_error with expected content: could not find |'I throws|' in |'I threw|'']";
    "##teamCity[testFinished name='test THROW fail' duration='*']";
    "##teamCity[testStarted name='test unexpected throw fail']";
    "##teamCity[testFailed name='test unexpected throw fail' message='*testing_reporters.cpp:7|n  unexpected std::exception caught; message: unexpected error']";
    "##teamCity[testFinished name='test unexpected throw fail' duration='*']";
    "##teamCity[testStarted name='test unexpected throw in section fail']";
    "##teamCity[blockOpened name='section 1' description='']";
    "##teamCity[blockOpened name='section 2' description='']";
    "##teamCity[testFailed name='test unexpected throw in section fail' message='*testing_reporters.cpp:7|n  unexpected std::exception caught; message: unexpected error']";
    "##teamCity[blockClosed name='section 2']";
    "##teamCity[blockClosed name='section 1']";
    "##teamCity[testFinished name='test unexpected throw in section fail' duration='*']";
    "##teamCity[testStarted name='test unexpected throw in check fail']";
    "##teamCity[testFailed name='test unexpected throw in check fail' message='*testing_reporters.cpp:7|n  unexpected std::exception caught; message: unexpected error']";
    "##teamCity[testFinished name='test unexpected throw in check fail' duration='*']";
    "##teamCity[testStarted name='test unexpected throw in check & section fail']";
    "##teamCity[blockOpened name='section 1' description='']";
    "##teamCity[testFailed name='test unexpected throw in check & section fail' message='*testing_reporters.cpp:7|n  unexpected std::exception caught; message: unexpected error']";
    "##teamCity[blockClosed name='section 1']";
    "##teamCity[testFinished name='test unexpected throw in check & section fail' duration='*']";
    "##teamCity[testSuiteFinished name='test ""* fail*""']"
  ]).
Proof. vm_compute. reflexivity. Qed.

(** approval_tests/data/expected/reporter_teamcity_full *)
Example approval_teamcity_full :
  teamcity_approval Gcc ["--reporter"; "teamcity"; "--verbosity"; "full"] = Some (lines [
    "##teamCity[testSuiteStarted name='test']";
    "##teamCity[testStarted name='test pass']";
    "##teamCity[testStdOut name='test pass' out='*testing_reporters.cpp:7|n  no exception caught']";
    "##teamCity[testFinished name='test pass' duration='*']";
    "##teamCity[testStarted name='test fail']";
    "##teamCity[testFailed name='test fail' message='*testing_reporters.cpp:7|n  CHECK(1 == 2), got: 1 != 2']";
    "##teamCity[testStdOut name='test fail' out='*testing_reporters.cpp:7|n  no exception caught']";
    "##teamCity[testFinished name='test fail' duration='*']";
    "##teamCity[testStarted name='test mayfail good pass']";
    "##teamCity[testStdOut name='test mayfail good pass' out='*testing_reporters.cpp:7|n  no exception caught']";
    "##teamCity[testFinished name='test mayfail good pass' duration='*']";
    "##teamCity[testStarted name='test mayfail bad pass']";
    "##teamCity[testStdOut name='test mayfail bad pass' out='*testing_reporters.cpp:7|n  CHECK(1 == 2), got: 1 != 2']";
    "##teamCity[testStdOut name='test mayfail bad pass' out='*testing_reporters.cpp:7|n  no exception caught']";
    "##teamCity[testFinished name='test mayfail bad pass' duration='*']";
    "##teamCity[testStarted name='test shouldfail good fail']";
    "##teamCity[testStdOut name='test shouldfail good fail' out='*testing_reporters.cpp:7|n  no exception caught']";
    "##teamCity[testFailed name='test shouldfail good fail' message='*testing_reporters.cpp:7|n  expected test to fail']";
    "##teamCity[testFinished name='test shouldfail good fail' duration='*']";
    "##teamCity[testStarted name='test shouldfail bad pass']";
    "##teamCity[testStdOut name='test shouldfail bad pass' out='*testing_reporters.cpp:7|n  CHECK(1 == 2), got: 1 != 2']";
    "##teamCity[testStdOut name='test shouldfail bad pass' out='*testing_reporters.cpp:7|n  no exception caught']";
    "##teamCity[testStdOut name='test shouldfail bad pass' out='*testing_reporters.cpp:7|n  expected test to fail']";
    "##teamCity[testFinished name='test shouldfail bad pass' duration='*']";
    "##teamCity[testStarted name='test no tags pass']";
    "##teamCity[testStdOut name='test no tags pass' out='*testing_reporters.cpp:7|n  no exception caught']";
    "##teamCity[testFinished name='test no tags pass' duration='*']";
    "##teamCity[testStarted name='test no tags fail']";
    "##teamCity[testFailed name='test no tags fail' message='*testing_reporters.cpp:7|n  CHECK(1 == 2), got: 1 != 2']";
    "##teamCity[testStdOut name='test no tags fail' out='*testing_reporters.cpp:7|n  no exception caught']";
    "##teamCity[testFinished name='test no tags fail' duration='*']";
    "##teamCity[testStarted name='typed test no tags pass <int>']";
    "##teamCity[testStdOut name='typed test no tags pass <int>' out='*testing_reporters.cpp:7|n  no exception caught']";
    "##teamCity[testFinished name='typed test no tags pass <int>' duration='*']";
    "##teamCity[testStarted name='typed test no tags pass <float>']";
    "##teamCity[testStdOut name='typed test no tags pass <float>' out='*testing_reporters.cpp:7|n  no exception caught']";
    "##teamCity[testFinished name='typed test no tags pass <float>' duration='*']";
    "##teamCity[testStarted name='typed test no tags fail <int>']";
    "##teamCity[testFailed name='typed test no tags fail <int>' message='*testing_reporters.cpp:7|n  CHECK(1 == 2), got: 1 != 2']";
    "##teamCity[testStdOut name='typed test no tags fail <int>' out='*testing_reporters.cpp:7|n  no exception caught']";
    "##teamCity[testFinished name='typed test no tags fail <int>' duration='*']";
    "##teamCity[testStarted name='typed test no tags fail <float>']";
    "##teamCity[testFailed name='typed test no tags fail <float>' message='*testing_reporters.cpp:7|n  CHECK(1 == 2), got: 1 != 2']";
    "##teamCity[testStdOut name='typed test no tags fail <float>' out='*testing_reporters.cpp:7|n  no exception caught']";
    "##teamCity[testFinished name='typed test no tags fail <float>' duration='*']";
    "##teamCity[testStarted name='typed test with tags pass <int>']";
    "##teamCity[testStdOut name='typed test with tags pass <int>' out='*testing_reporters.cpp:7|n  no exception caught']";
    "##teamCity[testFinished name='typed test with tags pass <int>' duration='*']";
    "##teamCity[testStarted name='typed test with tags pass <float>']";
    "##teamCity[testStdOut name='typed test with tags pass <float>' out='*testing_reporters.cpp:7|n  no exception caught']";
    "##teamCity[testFinished name='typed test with tags pass <float>' duration='*']";
    "##teamCity[testStarted name='typed test with tags fail <int>']";
    "##teamCity[testFailed name='typed test with tags fail <int>' message='*testing_reporters.cpp:7|n  CHECK(1 == 2), got: 1 != 2']";
    "##teamCity[testStdOut name='typed test with tags fail <int>' out='*testing_reporters.cpp:7|n  no exception caught']";
    "##teamCity[testFinished name='typed test with tags fail <int>' duration='*']";
    "##teamCity[testStarted name='typed test with tags fail <float>']";
    "##teamCity[testFailed name='typed test with tags fail <float>' message='*testing_reporters.cpp:7|n  CHECK(1 == 2), got: 1 != 2']";
    "##teamCity[testStdOut name='typed test with tags fail <float>' out='*testing_reporters.cpp:7|n  no exception caught']";
    "##teamCity[testFinished name='typed test with tags fail <float>' duration='*']";
    "##teamCity[testStarted name='test fixture pass']";
    "##teamCity[testStdOut name='test fixture pass' out='*testing_reporters.cpp:7|n  no exception caught']";
    "##teamCity[testFinished name='test fixture pass' duration='*']";
    "##teamCity[testStarted name='test fixture fail']";
    "##teamCity[testFailed name='test fixture fail' message='*testing_reporters.cpp:7|n  CHECK(1 == 2), got: 1 != 2']";
    "##teamCity[testStdOut name='test fixture fail' out='*testing_reporters.cpp:7|n  no exception caught']";
    "##teamCity[testFinished name='test fixture fail' duration='*']";
    "##teamCity[testStarted name='test SUCCEED pass']";
    "##teamCity[testStdOut name='test SUCCEED pass' out='*testing_reporters.cpp:7|n  something good']";
    "##teamCity[testStdOut name='test SUCCEED pass' out='*testing_reporters.cpp:7|n  no exception caught']";
    "##teamCity[testFinished name='test SUCCEED pass' duration='*']";
    "##teamCity[testStarted name='test FAIL fail']";
    "##teamCity[testFailed name='test FAIL fail' message='*testing_reporters.cpp:7|n  something bad']";
    "##teamCity[testStdOut name='test FAIL fail' out='*testing_reporters.cpp:7|n  no exception caught']";
    "##teamCity[testFinished name='test FAIL fail' duration='*']";
    "##teamCity[testStarted name='test expression pass']";
    "##teamCity[testStdOut name='test expression pass' out='*testing_reporters.cpp:7|n  CHECK(1 == 1)']";
    "##teamCity[testStdOut name='test expression pass' out='*testing_reporters.cpp:7|n  no exception caught']";
    "##teamCity[testFinished name='test expression pass' duration='*']";
    "##teamCity[testStarted name='test expression fail']";
    "##teamCity[testFailed name='test expression fail' message='*testing_reporters.cpp:7|n  CHECK(1 == 2), got: 1 != 2']";
    "##teamCity[testStdOut name='test expression fail' out='*testing_reporters.cpp:7|n  no exception caught']";
    "##teamCity[testFinished name='test expression fail' duration='*']";
    "##teamCity[testStarted name='test long expression pass']";
    "##teamCity[testStdOut name='test long expression pass' out='*testing_reporters.cpp:7|n  CHECK(some_very_long_name_that_forces_lines_to_wrap == some_very_long_name_that_forces_lines_to_wrap)']";
    "##teamCity[testStdOut name='test long expression pass' out='*testing_reporters.cpp:7|n  no exception caught']";
    "##teamCity[testFinished name='test long expression pass' duration='*']";
    "##teamCity[testStarted name='test long expression fail']";
    "##teamCity[testFailed name='test long expression fail' message='*testing_reporters.cpp:7|n  CHECK(some_very_long_name_that_forces_lines_to_wrap != some_very_long_name_that_forces_lines_to_wrap)|n  got: 1 == 1']";
    "##teamCity[testStdOut name='test long expression fail' out='*testing_reporters.cpp:7|n  no exception caught']";
    "##teamCity[testFinished name='test long expression fail' duration='*']";
    "##teamCity[testStarted name='test too long expression pass']";
    "##teamCity[testStdOut name='test too long expression pass' out='*testing_reporters.cpp:7|n  CHECK(super_long_string == super_long_string)']";
    "##teamCity[testStdOut name='test too long expression pass' out='*testing_reporters.cpp:7|n  no exception caught']";
    "##teamCity[testFinished name='test too long expression pass' duration='*']";
    "##teamCity[testStarted name='test too long expression fail']";
    "##teamCity[testFailed name='test too long expression fail' message='*testing_reporters.cpp:7|n  CHECK(super_long_string != super_long_string)']";
    "##teamCity[testStdOut name='test too long expression fail' out='*testing_reporters.cpp:7|n  no exception caught']";
    "##teamCity[testFinished name='test too long expression fail' duration='*']";
    "##teamCity[testStarted name='test too long message pass']";
    "##teamCity[testFailed name='test too long message pass' message='*testing_reporters.cpp:7|n  aaaaaaaaaaaaaaaaaaaaaaaaaaaaaaaaaaaaaaaaaaaaaaaaaaaaaaaaaaaaaaaaaaaaaaaaaaaaaaaaaaaaaaaaaaaaaaaaaaaaaaaaaaaaaaaaaaaaaaaaaaaaaa...']";
    "##teamCity[testFinished name='test too long message pass' duration='*']";
    "##teamCity[testStarted name='test too long message fail']";
    "##teamCity[testFailed name='test too long message fail' message='*testing_reporters.cpp:7|n  aaaaaaaaaaaaaaaaaaaaaaaaaaaaaaaaaaaaaaaaaaaaaaaaaaaaaaaaaaaaaaaaaaaaaaaaaaaaaaaaaaaaaaaaaaaaaaaaaaaaaaaaaaaaaaaaaaaaaaaaaaaaaa...']";
    "##teamCity[testFinished name='test too long message fail' duration='*']";
    "##teamCity[testStarted name='test NOTHROW pass']";
    "##teamCity[testStdOut name='test NOTHROW pass' out='*testing_reporters.cpp:7|n  throw_something(false) did not throw']";
    "##teamCity[testStdOut name='test NOTHROW pass' out='*testing_reporters.cpp:7|n  no exception caught']";
    "##teamCity[testFinished name='test NOTHROW pass' duration='*']";
    "##teamCity[testStarted name='test NOTHROW fail']";
    "##teamCity[testFailed name='test NOTHROW fail' message='*testing_reporters.cpp:7|n  expected throw_something(true) not to throw but it threw a std::exception; message: I threw']";
    "##teamCity[testStdOut name='test NOTHROW fail' out='*testing_reporters.cpp:7|n  no exception caught']";
    "##teamCity[testFinished name='test NOTHROW fail' duration='*']";
    "##teamCity[testStarted name='test THROW pass']";
    "##teamCity[testStdOut name='test THROW pass' out='*testing_reporters.cpp:7|n  caught std::runtime_error matched expected content: found |'I threw|' in |'I threw|'']";
    "##teamCity[testStdOut name='test THROW pass' out='*testing_reporters.cpp:7|n  no exception caught']";
    "##teamCity[testFinished name='test THROW pass' duration='*']";
    "##teamCity[testStarted name='test THROW fail']";
    "##teamCity[testFailed name='test THROW fail' message='*testing_reporters.cpp:7|n  std::runtime_error expected but no exception thrown']";
    "##teamCity[testFailed name='test THROW fail' message='*testing_reporters.cpp:7|n  std::system_error expected but other std::exception thrown; message: I threw']";
    "##teamCity[testFailed name='test THROW fail' message='*testing_reporters.cpp:7|n  could not match caught std::runtime_error with expected content: could not find |'I throws|' in |'I threw|'']";
    "##teamCity[testStdOut name='test THROW fail' out='*testing_reporters.cpp:7|n  no exception caught']";
    "##teamCity[testFinished name='test THROW fail' duration='*']";
    "##teamCity[testStarted name='test unexpected throw fail']";
    "##teamCity[testFailed name='test unexpected throw fail' message='*testing_reporters.cpp:7|n  unexpected std::exception caught; message: unexpected error']";
    "##teamCity[testFinished name='test unexpected throw fail' duration='*']";
    "##teamCity[testStarted name='test unexpected throw in section fail']";
    "##teamCity[blockOpened name='section 1' description='']";
    "##teamCity[blockOpened name='section 2' description='']";
    "##teamCity[testFailed name='test unexpected throw in section fail' message='*testing_reporters.cpp:7|n  unexpected std::exception caught; message: unexpected error']";
    "##teamCity[blockClosed name='section 2']";
    "##teamCity[blockClosed name='section 1']";
    "##teamCity[testFinished name='test unexpected throw in section fail' duration='*']";
    "##teamCity[testStarted name='test unexpected throw in check fail']";
    "##teamCity[testFailed name='test unexpected throw in check fail' message='*testing_reporters.cpp:7|n  unexpected std::exception caught; message: unexpected error']";
    "##teamCity[testFinished name='test unexpected throw in check fail' duration='*']";
    "##teamCity[testStarted name='test unexpected throw in check & section fail']";
    "##teamCity[blockOpened name='section 1' description='']";
    "##teamCity[testFailed name='test unexpected throw in check & section fail' message='*testing_reporters.cpp:7|n  unexpected std::exception caught; message: unexpected error']";
    "##teamCity[blockClosed name='section 1']";
    "##teamCity[testFinished name='test unexpected throw in check & section fail' duration='*']";
    "##teamCity[testStarted name='test unexpected throw in check & section mayfail']";
    "##teamCity[blockOpened name='section 1' description='']";
    "##teamCity[testStdOut name='test unexpected throw in check & section mayfail' out='*testing_reporters.cpp:7|n  unexpected std::exception caught; message: unexpected error']";
    "##teamCity[blockClosed name='section 1']";
    "##teamCity[testFinished name='test unexpected throw in check & section mayfail' duration='*']";
    "##teamCity[testStarted name='test SKIP']";
    "##teamCity[testIgnored name='test SKIP' message='*testing_reporters.cpp:7|n  not interesting']";
    "##teamCity[testFinished name='test SKIP' duration='*']";
    "##teamCity[testStarted name='test INFO']";
    "##teamCity[testFailed name='test INFO' message='*testing_reporters.cpp:7|nwith info|n  failure']";
    "##teamCity[testStdOut name='test INFO' out='*testing_reporters.cpp:7|n  no exception caught']";
    "##teamCity[testFinished name='test INFO' duration='*']";
    "##teamCity[testStarted name='test multiple INFO']";
    "##teamCity[testFailed name='test multiple INFO' message='*testing_reporters.cpp:7|n  failure 1']";
    "##teamCity[testFailed name='test multiple INFO' message='*testing_reporters.cpp:7|nwith info 1|n  failure 2']";
    "##teamCity[testFailed name='test multiple INFO' message='*testing_reporters.cpp:7|nwith info 1|nwith info 2|n  failure 3']";
    "##teamCity[testFailed name='test multiple INFO' message='*testing_reporters.cpp:7|nwith info 1|n  failure 4']";
    "##teamCity[testStdOut name='test multiple INFO' out='*testing_reporters.cpp:7|n  no exception caught']";
    "##teamCity[testFinished name='test multiple INFO' duration='*']";
    "##teamCity[testStarted name='test SECTION']";
    "##teamCity[blockOpened name='section' description='']";
    "##teamCity[testFailed name='test SECTION' message='*testing_reporters.cpp:7|n  failure']";
    "##teamCity[blockClosed name='section']";
    "##teamCity[testStdOut name='test SECTION' out='*testing_reporters.cpp:7|n  no exception caught']";
    "##teamCity[testFinished name='test SECTION' duration='*']";
    "##teamCity[testStarted name='test SECTION mayfail']";
    "##teamCity[blockOpened name='section' description='']";
    "##teamCity[testStdOut name='test SECTION mayfail' out='*testing_reporters.cpp:7|n  failure']";
    "##teamCity[blockClosed name='section']";
    "##teamCity[testStdOut name='test SECTION mayfail' out='*testing_reporters.cpp:7|n  no exception caught']";
    "##teamCity[testFinished name='test SECTION mayfail' duration='*']";
    "##teamCity[testStarted name='test multiple SECTION']";
    "##teamCity[blockOpened name='section 1' description='']";
    "##teamCity[testFailed name='test multiple SECTION' message='*testing_reporters.cpp:7|n  failure 1']";
    "##teamCity[blockClosed name='section 1']";
    "##teamCity[testFailed name='test multiple SECTION' message='*testing_reporters.cpp:7|n  failure 7']";
    "##teamCity[blockOpened name='section 2' description='']";
    "##teamCity[testFailed name='test multiple SECTION' message='*testing_reporters.cpp:7|n  failure 2']";
    "##teamCity[blockOpened name='section 2.1' description='']";
    "##teamCity[testFailed name='test multiple SECTION' message='*testing_reporters.cpp:7|n  failure 3']";
    "##teamCity[blockClosed name='section 2.1']";
    "##teamCity[testFailed name='test multiple SECTION' message='*testing_reporters.cpp:7|n  failure 7']";
    "##teamCity[testFailed name='test multiple SECTION' message='*testing_reporters.cpp:7|n  failure 2']";
    "##teamCity[blockOpened name='section 2.2' description='']";
    "##teamCity[testFailed name='test multiple SECTION' message='*testing_reporters.cpp:7|n  failure 4']";
    "##teamCity[blockOpened name='section 2.2.1' description='']";
    "##teamCity[testFailed name='test multiple SECTION' message='*testing_reporters.cpp:7|n  failure 5']";
    "##teamCity[blockClosed name='section 2.2.1']";
    "##teamCity[testFailed name='test multiple SECTION' message='*testing_reporters.cpp:7|n  failure 6']";
    "##teamCity[blockClosed name='section 2.2']";
    "##teamCity[blockClosed name='section 2']";
    "##teamCity[testFailed name='test multiple SECTION' message='*testing_reporters.cpp:7|n  failure 7']";
    "##teamCity[testStdOut name='test multiple SECTION' out='*testing_reporters.cpp:7|n  no exception caught']";
    "##teamCity[testFinished name='test multiple SECTION' duration='*']";
    "##teamCity[testStarted name='test SECTION & INFO']";
    "##teamCity[blockOpened name='section 1' description='']";
    "##teamCity[testFailed name='test SECTION & INFO' message='*testing_reporters.cpp:7|nwith info 1|nwith info 2|n  failure 1']";
    "##teamCity[blockClosed name='section 1']";
    "##teamCity[testFailed name='test SECTION & INFO' message='*testing_reporters.cpp:7|nwith info 1|n  failure 3']";
    "##teamCity[blockOpened name='section 2' description='']";
    "##teamCity[testFailed name='test SECTION & INFO' message='*testing_reporters.cpp:7|nwith info 1|nwith info 3|n  failure 2']";
    "##teamCity[blockClosed name='section 2']";
    "##teamCity[testFailed name='test SECTION & INFO' message='*testing_reporters.cpp:7|nwith info 1|n  failure 3']";
    "##teamCity[testStdOut name='test SECTION & INFO' out='*testing_reporters.cpp:7|n  no exception caught']";
    "##teamCity[testFinished name='test SECTION & INFO' duration='*']";
    "##teamCity[testStarted name='test SECTION & CAPTURE']";
    "##teamCity[blockOpened name='section 1' description='']";
    "##teamCity[testFailed name='test SECTION & CAPTURE' message='*testing_reporters.cpp:7|nwith i := 1|nwith j := 2|n  failure 1']";
    "##teamCity[blockClosed name='section 1']";
    "##teamCity[testFailed name='test SECTION & CAPTURE' message='*testing_reporters.cpp:7|nwith i := 1|n  failure 3']";
    "##teamCity[blockOpened name='section 2' description='']";
    "##teamCity[testFailed name='test SECTION & CAPTURE' message='*testing_reporters.cpp:7|nwith i := 1|nwith j := 3|n  failure 2']";
    "##teamCity[blockClosed name='section 2']";
    "##teamCity[testFailed name='test SECTION & CAPTURE' message='*testing_reporters.cpp:7|nwith i := 1|n  failure 3']";
    "##teamCity[testStdOut name='test SECTION & CAPTURE' out='*testing_reporters.cpp:7|n  no exception caught']";
    "##teamCity[testFinished name='test SECTION & CAPTURE' duration='*']";
    "##teamCity[testStarted name='test SKIP in SECTION']";
    "##teamCity[blockOpened name='section 1' description='']";
    "##teamCity[blockOpened name='section 2' description='']";
    "##teamCity[testIgnored name='test SKIP in SECTION' message='*testing_reporters.cpp:7|n  stopping here']";
    "##teamCity[blockClosed name='section 2']";
    "##teamCity[blockClosed name='section 1']";
    "##teamCity[testFinished name='test SKIP in SECTION' duration='*']";
    "##teamCity[testStarted name='test escape |||'|n|r|[|]']";
    "##teamCity[testFailed name='test escape |||'|n|r|[|]' message='*reporter_teamcity.cpp:7|n  escape || message |||| || |'|n|r|[|]']";
    "##teamCity[testFinished name='test escape |||'|n|r|[|]' duration='*']";
    "##teamCity[testStarted name='test escape very long']";
    "##teamCity[testFailed name='test escape very long' message='*reporter_teamcity.cpp:7|n  ||||||||||||||||||||||||||||||||||||||||||||||||||||||||||||||||||||||||||||||||||||||||||||||||||||||||||||||||||||||||||||||...']";
    "##teamCity[testFinished name='test escape very long' duration='*']";
    "##teamCity[testSuiteFinished name='test']"
  ]).
Proof. vm_compute. reflexivity. Qed.

(** approval_tests/data/expected/reporter_teamcity_list_tests *)
Example approval_teamcity_list_tests :
  teamcity_approval Gcc ["--reporter"; "teamcity"; "--list-tests"] = Some (lines [
    "test pass";
    "test fail";
    "test mayfail good pass";
    "test mayfail bad pass";
    "test shouldfail good fail";
    "test shouldfail bad pass";
    "test no tags pass";
    "test no tags fail";
    "typed test no tags pass <int>";
    "typed test no tags pass <float>";
    "typed test no tags fail <int>";
    "typed test no tags fail <float>";
    "typed test with tags pass <int>";
    "typed test with tags pass <float>";
    "typed test with tags fail <int>";
    "typed test with tags fail <float>";
    "test fixture pass";
    "test fixture fail";
    "test SUCCEED pass";
    "test FAIL fail";
    "test expression pass";
    "test expression fail";
    "test long expression pass";
    "test long expression fail";
    "test too long expression pass";
    "test too long expression fail";
    "test too long message pass";
    "test too long message fail";
    "test NOTHROW pass";
    "test NOTHROW fail";
    "test THROW pass";
    "test THROW fail";
    "test unexpected throw fail";
    "test unexpected throw in section fail";
    "test unexpected throw in check fail";
    "test unexpected throw in check & section fail";
    "test unexpected throw in check & section mayfail";
    "test SKIP";
    "test INFO";
    "test multiple INFO";
    "test SECTION";
    "test SECTION mayfail";
    "test multiple SECTION";
    "test SECTION & INFO";
    "test SECTION & CAPTURE";
    "test SKIP in SECTION";
    "test escape |||'|n|r|[|]";
    "test escape very long"
  ]).
Proof. vm_compute. reflexivity. Qed.
