(** The test cases that the project itself runs to check its reporters (/repo/tests/testing_reporters.cpp:24-221), as
    declared there: the names, tags and types go through the model of the registration, the texts of expressions,
    matchers and captures through the models of these. What the project expects to be reported is in
    Properties/Approval.v. *)
From Coq Require Import NArith ZArith.
From Verif.Spec Require Import TextSpec FilterSpec ExpressionSpec ValueSpec DeclareSpec ProgramSpec Events.
From Verif.Model Require Import Base Vector StringUtil Filter Run Session Reporters Values Expression Comparison Capture Declare Program.
Local Open Scope list_scope.
Local Open Scope nat_scope.

(** The limits for which the project builds its tests: CMakeLists.txt:236-241, and the default values. *)
Definition approval_limits : Session.limits :=
  mklimits 8 8 131 129 256 130 1024 1024 8 1024 false (quote "*").

(** Every line number is 7. *)
Definition here : nat := 7.
Definition never_throws : nat -> bool := fun _ => false.
Definition always : nat -> bool := fun _ => true.

(** CHECK(a OP b) for operands of built-in types, and for strings compared by [==] and [!=]. *)
Definition equality (o : operator) (a b : value) : bool :=
  match a, b with
  | View s, View t => match o with Equal => seqb s t | NotEqual => negb (seqb s t) | _ => false end
  | _, _ => compare_values o a b
  end.
Definition check_built_in (source : string) (o : operator) (a b : value) (k : prog) : prog :=
  match binary_built_in (AtRunTime None [] []) 128 false true (quote "CHECK") (quote source) equality o a b with
  | Ok e => Check here (IsTrue (fun _ => Expression (x_type e) (x_expected e) (vcontent (x_actual e))) (fun _ => x_success e)) false Nil k
  | Err _ => Act 0 k
  end.
Definition int_ (z : Z) : value := Integer true 32 z.
Definition one_is_two : prog := check_built_in "1 == 2" Equal (int_ 1) (int_ 2) Nil.
Definition fail_check (m : string) (k : prog) : prog := Check here (IsTrue (fun _ => Message (quote m)) never_throws) false Nil k.
Definition fail_with (m : text) : prog := Check here (IsTrue (fun _ => Message m) never_throws) true Nil Nil.
Definition succeed (m : string) (k : prog) : prog := Check here (IsTrue (fun _ => Message (quote m)) always) false Nil k.
Definition many (c : string) : text := flat_map (fun _ => quote c) (seq 0 (2 * 129)).
Definition section (name : string) (b k : prog) : prog := InSection (mksec (quote name) [] here) b k.
Definition info (m : string) (b k : prog) : prog := Capture [fun _ => [quote m]] b k.
Definition capture (name value : string) (b k : prog) : prog :=
  match capture_texts (quote name) [quote value] with Ok l => Capture (map (fun p _ => p) l) b k | Err _ => Act 0 k end.
Definition throw_something (b : bool) : prog := Throw (fun _ => b) (StdExn (quote "I threw")) Nil.
Definition throw_unexpectedly : prog := Throw always (StdExn (quote "unexpected error")) Nil.
Definition check_unexpected : prog :=
  Check here (IsTrue (fun _ => Expression (quote "CHECK") (quote "throw_unexpectedly() == 0") []) never_throws) false throw_unexpectedly Nil.
Definition throws_with (type : string) (accepts : bool) (pattern : string) (b : bool) (k : prog) : prog :=
  let what x := match x with StdExn w => w | _ => [] end in
  Check here (ThrowsMatching (quote type) (fun _ => accepts) (what_match what (quote pattern))
    (fun x => match what_describe what 129 (quote pattern) x (if what_match what (quote pattern) x then Matched else DidNotMatch) with
              | Ok s => vcontent s | Err _ => [] end)) false (throw_something b) k.
Definition wraps : string := "some_very_long_name_that_forces_lines_to_wrap".

Definition plain (name : string) (b : prog) : declaration prog := TestCase (quote name) [] here b.
Definition approval_declarations : list (declaration prog) := [
  TestCase (quote "test pass") (quote "[tag2][tag1]") here Nil;
  TestCase (quote "test fail") (quote "[tag2][tag1]") here one_is_two;
  TestCase (quote "test mayfail good pass") (quote "[tag2][tag1][!mayfail]") here Nil;
  TestCase (quote "test mayfail bad pass") (quote "[tag2][tag1][!mayfail]") here one_is_two;
  TestCase (quote "test shouldfail good fail") (quote "[tag2][tag1][!shouldfail]") here Nil;
  TestCase (quote "test shouldfail bad pass") (quote "[tag2][tag1][!shouldfail]") here one_is_two;
  plain "test no tags pass" Nil;
  plain "test no tags fail" one_is_two;
  TemplateTestCase (quote "typed test no tags pass") [] [quote "int"; quote "float"] here (fun _ => Nil);
  TemplateTestCase (quote "typed test no tags fail") [] [quote "int"; quote "float"] here (fun _ => one_is_two);
  TemplateTestCase (quote "typed test with tags pass") (quote "[tag1]") [quote "int"; quote "float"] here (fun _ => Nil);
  TemplateTestCase (quote "typed test with tags fail") (quote "[tag1]") [quote "int"; quote "float"] here (fun _ => one_is_two);
  TestCaseMethod (quote "MyClass") (quote "test fixture pass") (quote "[tag with space]") here Nil;
  TestCaseMethod (quote "MyClass") (quote "test fixture fail") (quote "[tag with space]") here one_is_two;
  plain "test SUCCEED pass" (succeed "something good" Nil);
  plain "test FAIL fail" (fail_check "something bad" Nil);
  plain "test expression pass" (check_built_in "1 == 1" Equal (int_ 1) (int_ 1) Nil);
  plain "test expression fail" one_is_two;
  plain "test long expression pass" (check_built_in (wraps ++ " == " ++ wraps) Equal (int_ 1) (int_ 1) Nil);
  plain "test long expression fail" (check_built_in (wraps ++ " != " ++ wraps) NotEqual (int_ 1) (int_ 1) Nil);
  plain "test too long expression pass" (check_built_in "super_long_string == super_long_string" Equal (View (many "a")) (View (many "a")) Nil);
  plain "test too long expression fail" (check_built_in "super_long_string != super_long_string" NotEqual (View (many "a")) (View (many "a")) Nil);
  plain "test too long message pass" (fail_with (many "a"));
  plain "test too long message fail" (fail_with (many "a"));
  plain "test NOTHROW pass" (Check here (DoesNotThrow (quote "throw_something(false)")) false (throw_something false) Nil);
  plain "test NOTHROW fail" (Check here (DoesNotThrow (quote "throw_something(true)")) false (throw_something true) Nil);
  plain "test THROW pass" (throws_with "std::runtime_error" true "I threw" true Nil);
  plain "test THROW fail"
    (throws_with "std::runtime_error" true "I threw" false
    (throws_with "std::system_error" false "I threw" true
    (throws_with "std::runtime_error" true "I throws" true Nil)));
  plain "test unexpected throw fail" throw_unexpectedly;
  plain "test unexpected throw in section fail" (section "section 1" (section "section 2" throw_unexpectedly Nil) Nil);
  plain "test unexpected throw in check fail" check_unexpected;
  plain "test unexpected throw in check & section fail" (section "section 1" check_unexpected Nil);
  TestCase (quote "test unexpected throw in check & section mayfail") (quote "[!mayfail]") here (section "section 1" check_unexpected Nil);
  plain "test SKIP" (Skip here (fun _ => quote "not interesting") true Nil);
  plain "test INFO" (info "info" (fail_check "failure" Nil) Nil);
  plain "test multiple INFO"
    (fail_check "failure 1" (info "info 1" (fail_check "failure 2" (info "info 2" (fail_check "failure 3" Nil) (fail_check "failure 4" Nil))) Nil));
  plain "test SECTION" (section "section" (fail_check "failure" Nil) Nil);
  TestCase (quote "test SECTION mayfail") (quote "[!mayfail]") here (section "section" (fail_check "failure" Nil) Nil);
  plain "test multiple SECTION"
    (section "section 1" (fail_check "failure 1" Nil)
    (section "section 2"
      (fail_check "failure 2"
      (section "section 2.1" (fail_check "failure 3" Nil)
      (section "section 2.2"
        (fail_check "failure 4" (section "section 2.2.1" (fail_check "failure 5" Nil) (fail_check "failure 6" Nil))) Nil)))
    (fail_check "failure 7" Nil)));
  plain "test SECTION & INFO"
    (info "info 1"
      (section "section 1" (info "info 2" (fail_check "failure 1" Nil) Nil)
      (section "section 2" (info "info 3" (fail_check "failure 2" Nil) Nil)
      (fail_check "failure 3" Nil))) Nil);
  plain "test SECTION & CAPTURE"
    (capture "i" "1"
      (section "section 1" (capture "j" "2" (fail_check "failure 1" Nil) Nil)
      (section "section 2" (capture "j" "3" (fail_check "failure 2" Nil) Nil)
      (fail_check "failure 3" Nil))) Nil);
  plain "test SKIP in SECTION"
    (section "section 1"
      (section "section 2" (Skip here (fun _ => quote "stopping here") true (section "section 3" (fail_check "failure 1" Nil) Nil)) Nil)
    (section "section 2" (fail_check "failure 2" Nil) Nil))
].

(** approval_tests/reporter_catch2_xml.cpp:15-20 and approval_tests/reporter_teamcity.cpp:15-20: two more tests each. *)
Definition xml_declarations : list (declaration prog) := [
  plain "test escape <>&""'" (fail_with (quote "escape <>&""' in messages"));
  plain "test escape very long" (fail_with (many "&"))
].
Definition teamcity_declarations : list (declaration prog) := [
  TestCase (quote "test escape |'" ++ [ascii_of_nat 10; ascii_of_nat 13] ++ quote "[]") [] here
    (fail_with (quote "escape | message || | '" ++ [ascii_of_nat 10; ascii_of_nat 13] ++ quote "[]"));
  plain "test escape very long" (fail_with (many "|"))
].

(** The file of a test: the path is masked in what the project expects. *)
Definition file_of_event (more : string) (e : Run.event) : text :=
  let file_of id := match find (id_name id) (quote "test escape") with Some _ => quote more | None => quote "*testing_reporters.cpp" end in
  match e with
  | TestCaseStarted id _ | TestCaseEnded id _ _ _ | AssertionFailed id _ _ _ _ _ _ | AssertionSucceeded id _ _ _ _
  | TestCaseSkipped id _ _ _ _ | TestCaseListed id _ => file_of id
  | _ => quote "*testing_reporters.cpp"
  end.

(** What is printed, with all durations shown as [*]; the registry starts with [with_color = false]
    (approval_tests/reporter_console.cpp:18). *)
Definition approval (more : string) (l : list (declaration prog)) (c : compiler) (args : list string) : option text :=
  let file := file_of_event more in
  let duration := fun _ : Run.event => Some (quote "*") in
  let lm := approval_limits in
  match declare_all c 200 130 [] l with
  | Ok tests =>
    let r := mkregistry tests [console_reporter lm file duration; xml_reporter lm file duration; teamcity_reporter lm file duration] Normal false None None false Vacant in
    match main_program lm 20 file duration (fun _ => true) r (quote "test") (map quote args) with
    | Ok (out, _) => Some (console_text out)
    | Err _ => None
    end
  | Err _ => None
  end.
Definition console_approval := approval "" approval_declarations.
Definition xml_approval := approval "*reporter_catch2_xml.cpp" (approval_declarations ++ xml_declarations).
Definition teamcity_approval := approval "*reporter_teamcity.cpp" (approval_declarations ++ teamcity_declarations).
Definition esc : string := String (ascii_of_nat 27) EmptyString.
Definition lines (l : list string) : text := flat_map (fun s => quote s ++ [ascii_of_nat 10]) l.
