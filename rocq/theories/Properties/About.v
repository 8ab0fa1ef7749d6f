(** Property C114: reports name the test that they are about. *)
From Verif.Spec Require Import TextSpec FilterSpec NumberSpec PrintSpec Events VerdictSpec SessionSpec ProgramSpec EscapeSpec ServiceSpec CutSpec CutServiceSpec CutXmlSpec CliSpec AboutSpec.
From Verif.Model Require Import Base Vector StringUtil Print Filter Run Cli File Session Reporters Program.
From Verif.Spec Require Import ProgramClaims LinkClaims FailureClaims.
From Verif.Proofs Require Import ReportExamples ProgramFacts LinkExamples ColourExamples AboutProofs AboutExamples.
Local Open Scope string_scope.
Local Open Scope list_scope.
Local Open Scope nat_scope.

(** ** C114. Whose report it is (Spec/AboutSpec.v)

    Whatever a test does (it does not run other tests: for these see C31), everything that is reported from its start to its end is
    about this test, each failure says whether it is expected or allowed as the tags of this test do, and the state in which the test
    ends is what these events say ([verdict], Spec/VerdictSpec.v). *)
Theorem C114_test :
  forall (cf : config) (fuel : nat) (t : test_case) (before : list event) (st : state),
  cf_verbosity cf = Full -> run cf fuel t before = Ok st ->
  exists body c s may should,
    trace st = before ++ [TestCaseStarted (t_id t) (t_line t)] ++ body ++ [TestCaseEnded (t_id t) (t_line t) c s] /\
    Forall (speaks_of (t_id t) may should) body /\ s = VerdictSpec.verdict body /\
    forall tags, id_tags (t_id t) = tag_string tags -> well_formed (cf_max_tag_length cf) tags -> FilterSpec.tagged tags may should.
Proof. exact run_speaks. Qed.
Print Assumptions C114_test.

(** In a program: the events reported are those of the tests that the filters choose ([the_chosen], Spec/LinkClaims.v), one test
    after another, and those about each test are about it. At lower verbosities some events are missing. *)
Theorem C114_program :
  forall (lm : Session.limits) (fuel : nat) (can_open : text -> bool) (r : registry) (path : text) (argv : list text) (out : list output) (code : nat),
  length argv <= l_max_command_line_args lm -> acceptable argv -> asks_run (setting (read argv)) ->
  main lm fuel can_open r path argv = Ok (out, code) ->
  exists (v : verbosity) (name : text) (is_run : test_case -> bool) (parts : list (test_case * list event)),
    the_chosen lm argv is_run /\ map fst parts = filter is_run (g_tests r) /\
    events_of out = filter (Events.visible v) (events_of_run name (filters (read argv)) (map snd parts)) /\
    Forall (fun x => exists body c s may should,
      snd x = [TestCaseStarted (t_id (fst x)) (t_line (fst x))] ++ body ++ [TestCaseEnded (t_id (fst x)) (t_line (fst x)) c s] /\
      Forall (speaks_of (t_id (fst x)) may should) body /\ s = VerdictSpec.verdict body /\
      forall tags, id_tags (t_id (fst x)) = tag_string tags -> well_formed (l_max_tag_length lm) tags -> FilterSpec.tagged tags may should) parts.
Proof. exact program_speaks. Qed.
Print Assumptions C114_program.

(** The TeamCity report, whatever the lengths of the names and messages: one suite; in it the tests chosen, in the order in which they
    are registered; each starts, then come messages with the same name or about sections, and it ends with the same name. There is a
    message testFailed among them exactly if a check failed, and this was neither expected nor allowed, and testIgnored exactly if the
    test was skipped. The exit code is 1 exactly if a check failed so. *)
Theorem C114_teamcity :
  exists (name_of : nat -> test_id -> text) (suite_of : nat -> text -> list text -> text),
  (forall n id, cut_field teamcity_code n (firstn n (full_name_of (id_name id) (id_type id))) (name_of n id)) /\
  (forall n name filters, cut_field teamcity_code n (fit n (suite_name name filters)) (suite_of n name filters)) /\
  forall (lm : Session.limits) (fuel : nat) (file : event -> text) (duration : event -> option text) (can_open : text -> bool)
    (r : registry) (path : text) (argv : list text) (out : list output) (code : nat),
  length argv <= l_max_command_line_args lm -> acceptable argv -> asks_run (setting (read argv)) -> g_to_file r = false ->
  reporter_asked (teamcity_reporter lm file duration) r argv ->
  main_program lm fuel file duration can_open r path argv = Ok (out, code) ->
  exists (name : text) (is_run : test_case -> bool) (parts : list (test_case * list event)) (tests : list text),
    let suite := suite_of (l_max_message_length lm) name (filters (read argv)) in
    the_chosen lm argv is_run /\ map fst parts = filter is_run (g_tests r) /\ what_happened lm fuel parts /\
    report_goes lm r argv out
      (service_line (quote "testSuiteStarted") [(quote "name", suite)] ++ List.concat tests ++ service_line (quote "testSuiteFinished") [(quote "name", suite)]) /\
    Forall2 (fun x lines => exists messages, lines_about (name_of (l_max_test_name_length lm) (t_id (fst x))) messages lines /\
      (In (quote "testFailed") (map fst messages) <-> exists e, In e (snd x) /\ VerdictSpec.says e = Failed) /\
      (In (quote "testIgnored") (map fst messages) <-> exists e, In e (snd x) /\ VerdictSpec.says e = Skipped)) parts tests /\
    (code = 0 \/ code = 1) /\ (code = 1 <-> a_check_failed parts).
Proof. exact teamcity_speaks. Qed.
Print Assumptions C114_teamcity.

(** The XML report, likewise: one element; in it one element for each test chosen, in the order in which they are registered, with its
    name; in this, elements about sections, checks and skips only; and it says that the test did not succeed exactly if a check failed when
    it was run, and this was neither expected nor allowed. *)
Theorem C114_xml :
  exists name_of : nat -> test_id -> text,
  (forall n id, cut_field xml_entities n (firstn n (full_name_of (id_name id) (id_type id))) (name_of n id)) /\
  forall (lm : Session.limits) (fuel : nat) (file : event -> text) (duration : event -> option text) (can_open : text -> bool)
    (r : registry) (path : text) (argv : list text) (out : list output) (code : nat),
  length argv <= l_max_command_line_args lm -> acceptable argv -> asks_run (setting (read argv)) -> g_to_file r = false ->
  reporter_asked (xml_reporter lm file duration) r argv ->
  main_program lm fuel file duration can_open r path argv = Ok (out, code) ->
  exists (is_run : test_case -> bool) (parts : list (test_case * list event)) (tests : list (list xml_line))
    (declared : text) (about results cases : list (text * text)),
    the_chosen lm argv is_run /\ map fst parts = filter is_run (g_tests r) /\ what_happened lm fuel parts /\
    report_goes lm r argv out (snd (drawn 0
      ([Contents declared; Start (quote "Catch2TestRun") about] ++ List.concat tests ++
       [Empty (quote "OverallResults") results; Empty (quote "OverallResultsCases") cases; Stop (quote "Catch2TestRun")]))) /\
    Forall2 (fun x lines => exists success, xml_about (name_of (l_max_test_name_length lm) (t_id (fst x))) success lines /\
      (success = false <-> exists e, In e (snd x) /\ VerdictSpec.says e = Failed)) parts tests /\
    (code = 0 \/ code = 1) /\ (code = 1 <-> a_check_failed parts).
Proof. exact xml_speaks. Qed.
Print Assumptions C114_xml.

(** A test that may fail, and one that should and does not; and two reports of a program of three tests. *)
Example C114_example :
  events_in tolerated = Some [TestCaseStarted (t_id tolerated) 3; AssertionFailed (t_id tolerated) [] [] (mkloc 4 Exact) (Message (quote "m")) false true;
    AssertionSucceeded (t_id tolerated) [] [] (mkloc 3 Exact) (Message (quote "no exception caught")); TestCaseEnded (t_id tolerated) 3 (mkcounts 2 0 1) AllowedFail] /\
  events_in unfailing = Some [TestCaseStarted (t_id unfailing) 6; User 1; AssertionSucceeded (t_id unfailing) [] [] (mkloc 6 Exact) (Message (quote "no exception caught"));
    AssertionFailed (t_id unfailing) [] [] (mkloc 6 Exact) (Message (quote "expected test to fail")) false false; TestCaseEnded (t_id unfailing) 6 (mkcounts 2 1 0) Failed] /\
  asks ["-r"; "teamcity"] /\ reporter_asked (teamcity_reporter small at_file untimed) library (map quote ["-r"; "teamcity"]) /\ g_to_file library = false /\
  report_of ["-r"; "teamcity"] = feed
   ["##teamCity[testSuiteStarted name='demo']";
    "##teamCity[testStarted name='n']";
    "##teamCity[blockOpened name='s&2' description='']";
    "##teamCity[testFailed name='n' message='f:3|n  CHECK(a < b), got: 3 >= 2']";
    "##teamCity[blockOpened name='s&4' description='']";
    "##teamCity[blockClosed name='s&4']";
    "##teamCity[testFailed name='n' message='f:3|n  CHECK(a < b), got: 3 >= 2']";
    "##teamCity[blockOpened name='s&5' description='']";
    "##teamCity[blockClosed name='s&5']";
    "##teamCity[blockClosed name='s&2']";
    "##teamCity[testFinished name='n']";
    "##teamCity[testStarted name='m']";
    "##teamCity[testFinished name='m']";
    "##teamCity[testStarted name='s']";
    "##teamCity[testIgnored name='s' message='f:10|n  no']";
    "##teamCity[testFinished name='s']";
    "##teamCity[testSuiteFinished name='demo']"] /\
  asks ["-r"; "xml"; "~n"] /\ reporter_asked (xml_reporter small at_file untimed) library (map quote ["-r"; "xml"; "~n"]) /\
  report_of ["-r"; "xml"; "~n"] = feed
   ["<?xml version=""1.0"" encoding=""UTF-8""?>";
    "";
    "<Catch2TestRun name=""demo"" rng-seed=""0"" xml-format-version=""3"" catch2-version=""1.2.snitch"" filters=""&quot;~n&quot;"">";
    "  <TestCase name=""m"" tags=""[x]"" filename=""f"" line=""7"">";
    "    <OverallResult success=""true"" skips=""0""/>";
    "  </TestCase>";
    "  <TestCase name=""s"" tags="""" filename=""f"" line=""9"">";
    "    <Skip filename=""f"" line=""10"">";
    "      no";
    "    </Skip>";
    "    <OverallResult success=""true"" skips=""1""/>";
    "  </TestCase>";
    "  <OverallResults successes=""1"" failures=""0"" expectedFailures=""0"" skips=""1""/>";
    "  <OverallResultsCases successes=""2"" failures=""0"" expectedFailures=""0"" skips=""1""/>";
    "</Catch2TestRun>"].
Proof. exact about_example. Qed.
