(** Property C113: reports for other programs have everything that they need, whatever the verbosity. *)
From Verif.Spec Require Import TextSpec FilterSpec NumberSpec PrintSpec Events SessionSpec ProgramSpec ColourSpec XmlSpec ConsoleSpec CliSpec.
From Verif.Model Require Import Base Vector StringUtil Print Filter Run Cli File Session Reporters Program.
From Verif.Spec Require Import ProgramClaims LinkClaims.
From Verif.Proofs Require Import ReportExamples ProgramFacts LinkExamples ColourProgram ColourExamples LeastExamples.
Local Open Scope string_scope.
Local Open Scope list_scope.
Local Open Scope nat_scope.

(** ** C113. Two command lines with the same filters, for the same program, with the TeamCity or the XML reporter

    Unless exactly one of them asks for the full verbosity, the exit codes and the reports are the same: asking for less than the
    high verbosity, in which tests and sections are said to start and end, takes nothing away; nor do colours and output files. *)
Theorem C113_services :
  forall (lm : Session.limits) (fuel : nat) (file : event -> text) (duration : event -> option text) (p : reporter) (can_open can_open' : text -> bool)
    (r : registry) (path : text) (argv argv' : list text) (out : list output) (code : nat) (out' : list output) (code' : nat),
  p = teamcity_reporter lm file duration \/ p = xml_reporter lm file duration ->
  length argv <= l_max_command_line_args lm -> acceptable argv -> asks_run (setting (read argv)) -> reporter_asked p r argv ->
  length argv' <= l_max_command_line_args lm -> acceptable argv' -> asks_run (setting (read argv')) -> reporter_asked p r argv' ->
  filters (read argv') = filters (read argv) ->
  (asked_verbosity (setting (read argv) (quote "--verbosity")) (g_verbose r) = Full <-> asked_verbosity (setting (read argv') (quote "--verbosity")) (g_verbose r) = Full) ->
  g_to_file r = false ->
  main_program lm fuel file duration can_open r path argv = Ok (out, code) ->
  main_program lm fuel file duration can_open' r path argv' = Ok (out', code') ->
  code' = code /\ exists report, report_goes lm r argv out report /\ report_goes lm r argv' out' report.
Proof. exact services_verbosity. Qed.
Print Assumptions C113_services.

(** If only the second one asks for the full verbosity, the first report is made of the same events as the second one (their texts are
    those of C107 and C108), except the checks that pass: no other event is left out. *)
Theorem C113_full :
  forall (lm : Session.limits) (fuel : nat) (file : event -> text) (duration : event -> option text) (p : reporter) (can_open can_open' : text -> bool)
    (r : registry) (path : text) (argv argv' : list text) (out : list output) (code : nat) (out' : list output) (code' : nat),
  p = teamcity_reporter lm file duration \/ p = xml_reporter lm file duration ->
  length argv <= l_max_command_line_args lm -> acceptable argv -> asks_run (setting (read argv)) -> reporter_asked p r argv ->
  length argv' <= l_max_command_line_args lm -> acceptable argv' -> asks_run (setting (read argv')) -> reporter_asked p r argv' ->
  filters (read argv') = filters (read argv) ->
  asked_verbosity (setting (read argv) (quote "--verbosity")) (g_verbose r) <> Full ->
  asked_verbosity (setting (read argv') (quote "--verbosity")) (g_verbose r) = Full ->
  main lm fuel can_open r path argv = Ok (out, code) -> main lm fuel can_open' r path argv' = Ok (out', code') ->
  code' = code /\ events_of out = filter (fun e => match e with AssertionSucceeded _ _ _ _ _ => false | _ => true end) (events_of out').
Proof. exact services_full. Qed.
Print Assumptions C113_full.

(** A program of three tests: with either of the two reporters, four command lines of which the verbosities are quiet, normal, normal
    and high have the same report, and only the full verbosity makes it longer; with the console reporter, the reports differ. *)
Example C113_example :
  Forall (fun argv => asks argv /\ reporter_asked (xml_reporter small at_file untimed) library (map quote argv)) (with_reporter "xml") /\
  Forall (fun argv => asks argv /\ reporter_asked (teamcity_reporter small at_file untimed) library (map quote argv)) (with_reporter "teamcity") /\
  map (fun argv => asked_verbosity (setting (read (map quote argv)) (quote "--verbosity")) (g_verbose library)) (with_reporter "xml") = [Quiet; Normal; Normal; High] /\
  Forall (fun argv => report_of argv = report_of ["-r"; "xml"]) (with_reporter "xml") /\
  Forall (fun argv => report_of argv = report_of ["-r"; "teamcity"]) (with_reporter "teamcity") /\
  length (report_of ["-r"; "xml"; "-v"; "full"]) = length (report_of ["-r"; "xml"]) + 154 /\
  length (report_of ["-r"; "teamcity"; "-v"; "full"]) = length (report_of ["-r"; "teamcity"]) + 130 /\
  map (fun argv => length (report_of argv)) (with_reporter "console") = [282; 484; 484; 1189].
Proof. exact least_example. Qed.
