(** Reports name the test that they are about (C114): examples. *)
From Verif.Spec Require Import TextSpec FilterSpec NumberSpec PrintSpec Events SessionSpec ProgramSpec ColourSpec XmlSpec ConsoleSpec CliSpec.
From Verif.Model Require Import Base Vector StringUtil Print Filter Run Cli File Session Reporters Program.
From Verif.Spec Require Import ProgramClaims LinkClaims.
From Verif.Proofs Require Import ReportExamples ProgramFacts LinkExamples ColourExamples.
Local Open Scope string_scope.
Local Open Scope list_scope.
Local Open Scope nat_scope.

(** A test that may fail and one that should and does not. *)
Definition at_full : config := config_of small Full.
Definition tolerated : test_case :=
  mktest (mkid (quote "t") (quote "[!mayfail]") [] []) 3 (Check 4 (IsTrue (fun _ => Message (quote "m")) (fun _ => false)) false Nil Nil).
Definition unfailing : test_case := mktest (mkid (quote "u") (quote "[!shouldfail]") [] []) 6 (Act 1 Nil).
Definition events_in (t : test_case) : option (list event) := match run at_full 5 t [] with Ok st => Some (trace st) | Err _ => None end.

Definition feed (l : list string) : text := flat_map (fun s => quote s ++ [ascii_of_nat 10]) l.

Lemma about_example :
  events_in tolerated = Some [TestCaseStarted (t_id tolerated) 3; AssertionFailed (t_id tolerated) [] [] (mkloc 4 Exact) (Message (quote "m")) false true;
    AssertionSucceeded (t_id tolerated) [] [] (mkloc 3 Exact) (Message (quote "no exception caught")); TestCaseEnded (t_id tolerated) 3 (mkcounts 2 0 1) AllowedFail] /\
  events_in unfailing = Some [TestCaseStarted (t_id unfailing) 6; User 1; AssertionSucceeded (t_id unfailing) [] [] (mkloc 6 Exact) (Message (quote "no exception caught"));
    AssertionFailed (t_id unfailing) [] [] (mkloc 6 Exact) (Message (quote "expected test to fail")) false false; TestCaseEnded (t_id unfailing) 6 (mkcounts 2 1 0) Failed] /\
  asks ["-r"; "teamcity"] /\ reporter_asked (teamcity_reporter small at_file untimed) library (map quote ["-r"; "teamcity"]) /\ g_to_file library = false /\
  report_of ["-r"; "teamcity"] = feed
   ["##teamCity[testSuiteStarted name='demo']";
    "##teamCity[testStarted name='n']";
    "##teamCity[blockOpened name='s&2' description='']";
    "##teamCity[testFailed name='n' message='f:3|n  CHECK(a < b), got: 3 >= 2']";
    "##teamCity[blockOpened name='s&4' description='']";
    "##teamCity[blockClosed name='s&4']";
    "##teamCity[testFailed name='n' message='f:3|n  CHECK(a < b), got: 3 >= 2']";
    "##teamCity[blockOpened name='s&5' description='']";
    "##teamCity[blockClosed name='s&5']";
    "##teamCity[blockClosed name='s&2']";
    "##teamCity[testFinished name='n']";
    "##teamCity[testStarted name='m']";
    "##teamCity[testFinished name='m']";
    "##teamCity[testStarted name='s']";
    "##teamCity[testIgnored name='s' message='f:10|n  no']";
    "##teamCity[testFinished name='s']";
    "##teamCity[testSuiteFinished name='demo']"] /\
  asks ["-r"; "xml"; "~n"] /\ reporter_asked (xml_reporter small at_file untimed) library (map quote ["-r"; "xml"; "~n"]) /\
  report_of ["-r"; "xml"; "~n"] = feed
   ["<?xml version=""1.0"" encoding=""UTF-8""?>";
    "";
    "<Catch2TestRun name=""demo"" rng-seed=""0"" xml-format-version=""3"" catch2-version=""1.2.snitch"" filters=""&quot;~n&quot;"">";
    "  <TestCase name=""m"" tags=""[x]"" filename=""f"" line=""7"">";
    "    <OverallResult success=""true"" skips=""0""/>";
    "  </TestCase>";
    "  <TestCase name=""s"" tags="""" filename=""f"" line=""9"">";
    "    <Skip filename=""f"" line=""10"">";
    "      no";
    "    </Skip>";
    "    <OverallResult success=""true"" skips=""1""/>";
    "  </TestCase>";
    "  <OverallResults successes=""1"" failures=""0"" expectedFailures=""0"" skips=""1""/>";
    "  <OverallResultsCases successes=""2"" failures=""0"" expectedFailures=""0"" skips=""1""/>";
    "</Catch2TestRun>"].
Proof.
  split; [vm_compute; reflexivity|]. split; [vm_compute; reflexivity|]. split; [asks_tac|].
  split; [exists (quote "teamcity"), 2; (split; [vm_compute; reflexivity|]); (split; [left; reflexivity|apply first_of; [reflexivity|vm_compute; reflexivity]])|].
  split; [reflexivity|]. split; [vm_compute; reflexivity|]. split; [asks_tac|].
  split; [exists (quote "xml"), 1; (split; [vm_compute; reflexivity|]); (split; [left; reflexivity|apply first_of; [reflexivity|vm_compute; reflexivity]])|].
  vm_compute. reflexivity.
Qed.
