(** A program used in the examples of C107 and C108. *)
From Coq Require Import NArith Lia.
From Verif.Spec Require Import TextSpec FilterSpec PrintSpec EscapeSpec RunSpec TreeSpec Events NumberSpec SessionSpec ProgramSpec XmlSpec ServiceSpec CutSpec CutServiceSpec CutXmlSpec CliSpec.
From Verif.Model Require Import Base Vector StringUtil Integer Print Filter Run Cli File Session Reporters Program.
From Verif.Spec Require Import ProgramClaims LinkClaims.
From Verif.Proofs Require Import Lists ReportExamples ProgramFacts LinkProofs LinkExamples CutExamples.
Local Open Scope string_scope.
Local Open Scope list_scope.
Local Open Scope nat_scope.

(** The name of the test, both sides of a check and the message of the skip are too long, and the characters where they are
    cut have to be encoded. Messages have at most 60 characters, names 40. *)
Definition odd_test : test_case :=
  mktest (mkid (many "n" 30 ++ quote "&[" ++ many "n" 70) [] [] []) 7
    (Check 3 (IsTrue (fun _ => Expression (quote "CHECK") (quote "x < " ++ many "e" 54 ++ quote "<'|") (many "a" 58 ++ quote "&'" ++ many "b" 20)) (fun _ => false)) false Nil
      (Skip 4 (fun _ => many "m" 61) true Nil)).
Definition odd_names : registry := with_order [odd_test].
Definition odd_service : text :=
  let name := many "n" 30 ++ quote "&|[..." in
  flat_map (fun s => s ++ [ascii_of_nat 10])
   [quote "##teamCity[testSuiteStarted name='demo']";
    quote "##teamCity[testStarted name='" ++ name ++ quote "']";
    quote "##teamCity[testFailed name='" ++ name ++ quote "' message='f:3|n  CHECK(x < " ++ many "e" 53 ++ quote "...)|n  got: " ++ many "a" 57 ++ quote "...']";
    quote "##teamCity[testIgnored name='" ++ name ++ quote "' message='f:4|n  " ++ many "m" 57 ++ quote "...']";
    quote "##teamCity[testFinished name='" ++ name ++ quote "']";
    quote "##teamCity[testSuiteFinished name='demo']"].
Definition odd_xml : text :=
  flat_map (fun s => s ++ [ascii_of_nat 10])
   [quote "<?xml version=""1.0"" encoding=""UTF-8""?>"; [];
    quote "<Catch2TestRun name=""demo"" rng-seed=""0"" xml-format-version=""3"" catch2-version=""1.2.snitch"" filters="""">";
    quote "  <TestCase name=""" ++ many "n" 30 ++ quote "&amp;..."" tags="""" filename=""f"" line=""7"">";
    quote "    <Expression success=""false"" type=""CHECK"" filename=""f"" line=""3"">";
    quote "      <Original>"; quote "        x &lt;..."; quote "      </Original>";
    quote "      <Expanded>"; quote "        " ++ many "a" 57 ++ quote "..."; quote "      </Expanded>";
    quote "    </Expression>";
    quote "    <Skip filename=""f"" line=""4"">"; quote "      " ++ many "m" 61; quote "    </Skip>";
    quote "    <OverallResult success=""false"" skips=""0""/>";
    quote "  </TestCase>";
    quote "  <OverallResults successes=""0"" failures=""1"" expectedFailures=""0"" skips=""0""/>";
    quote "  <OverallResultsCases successes=""0"" failures=""1"" expectedFailures=""0"" skips=""0""/>";
    quote "</Catch2TestRun>"].
Lemma odd_service_example :
  g_to_file odd_names = false /\
  asks ["--reporter"; "teamcity"] /\ reporter_asked (teamcity_reporter small at_file untimed) odd_names (map quote ["--reporter"; "teamcity"]) /\
  length (map quote ["--reporter"; "teamcity"]) <= l_max_command_line_args small /\
  said_by odd_names ["--reporter"; "teamcity"] = Some odd_service.
Proof.
  split; [reflexivity|]. split; [asks_tac|]. split; [exists (quote "teamcity"), 2; split; [vm_compute; reflexivity|split; [left; reflexivity|apply first_of; [reflexivity|vm_compute; reflexivity]]]|]. split; [cbn; lia|]. vm_compute. reflexivity.
Qed.
Lemma odd_xml_example :
  g_to_file odd_names = false /\
  asks ["--reporter"; "xml"] /\ reporter_asked (xml_reporter small at_file untimed) odd_names (map quote ["--reporter"; "xml"]) /\
  length (map quote ["--reporter"; "xml"]) <= l_max_command_line_args small /\
  said_by odd_names ["--reporter"; "xml"] = Some odd_xml.
Proof.
  split; [reflexivity|]. split; [asks_tac|]. split; [exists (quote "xml"), 1; split; [vm_compute; reflexivity|split; [left; reflexivity|apply first_of; [reflexivity|vm_compute; reflexivity]]]|]. split; [cbn; lia|]. vm_compute. reflexivity.
Qed.
