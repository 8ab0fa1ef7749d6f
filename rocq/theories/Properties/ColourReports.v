(** Property C112: colours change nothing but colours in the reports of whole programs. *)
From Verif.Spec Require Import TextSpec FilterSpec NumberSpec PrintSpec Events SessionSpec ProgramSpec ColourSpec XmlSpec ConsoleSpec CliSpec.
From Verif.Model Require Import Base Vector StringUtil Print Filter Run Cli File Session Reporters Program.
From Verif.Spec Require Import ProgramClaims LinkClaims.
From Verif.Proofs Require Import ReportExamples ProgramFacts LinkExamples ColourProgram ColourExamples.
Local Open Scope string_scope.
Local Open Scope list_scope.
Local Open Scope nat_scope.

(** ** C112. Two command lines with the same filters and the same verbosity, for the same program

    With the console reporter, if one asks for colours and the other does not ([run_colours], Spec/ColourSpec.v), and one may have an
    output file: the exit codes are the same, and the report with colours, without the sequences that change the colour, is the
    report without colours, in which there is none. The texts of the tests have no such sequences and can be displayed in full. *)
Theorem C112_console :
  forall (lm : Session.limits) (fuel : nat) (file : event -> text) (duration : event -> option text) (can_open can_open' : text -> bool)
    (r : registry) (path : text) (argv argv' : list text) (out : list output) (code : nat) (out' : list output) (code' : nat) (o : list output) (c : nat),
  let full_name := fun id => full_name_of (id_name id) (id_type id) in
  length argv <= l_max_command_line_args lm -> acceptable argv -> asks_run (setting (read argv)) -> console_asked lm file duration r argv ->
  length argv' <= l_max_command_line_args lm -> acceptable argv' -> asks_run (setting (read argv')) -> console_asked lm file duration r argv' ->
  filters (read argv') = filters (read argv) ->
  asked_verbosity (setting (read argv') (quote "--verbosity")) (g_verbose r) = asked_verbosity (setting (read argv) (quote "--verbosity")) (g_verbose r) ->
  setting (read argv) (quote "--reporter") = None \/ setting (read argv) (quote "--reporter") = Some (Some (quote "console")) ->
  setting (read argv') (quote "--reporter") = None \/ setting (read argv') (quote "--reporter") = Some (Some (quote "console")) ->
  run_colours (setting (read argv)) (g_with_color r) = true -> run_colours (setting (read argv')) (g_with_color r) = false ->
  g_to_file r = false -> 32 <= l_max_message_length lm ->
  main_program lm fuel file duration can_open r path argv = Ok (out, code) ->
  main_program lm fuel file duration can_open' r path argv' = Ok (out', code') ->
  main lm fuel can_open r path argv = Ok (o, c) ->
  Forall (displayable id_name id_type full_name duration decimal (l_version lm) (painted true) (l_max_message_length lm) (l_max_test_name_length lm)) (events_of o) ->
  Forall (fun e => Forall colourless (texts_of id_name id_type full_name id_tags file duration (l_version lm) e)) (events_of o) ->
  code' = code /\
  exists coloured plain, report_goes lm r argv out coloured /\ report_goes lm r argv' out' plain /\ uncoloured coloured plain /\ colourless plain.
Proof. exact colours_only. Qed.
Print Assumptions C112_console.

(** With the TeamCity and the XML reporter, whatever either asks for and whatever the lengths of the texts: the reports are the same. *)
Theorem C112_services :
  forall (lm : Session.limits) (fuel : nat) (file : event -> text) (duration : event -> option text) (p : reporter) (can_open can_open' : text -> bool)
    (r : registry) (path : text) (argv argv' : list text) (out : list output) (code : nat) (out' : list output) (code' : nat),
  p = teamcity_reporter lm file duration \/ p = xml_reporter lm file duration ->
  length argv <= l_max_command_line_args lm -> acceptable argv -> asks_run (setting (read argv)) -> reporter_asked p r argv ->
  length argv' <= l_max_command_line_args lm -> acceptable argv' -> asks_run (setting (read argv')) -> reporter_asked p r argv' ->
  filters (read argv') = filters (read argv) ->
  asked_verbosity (setting (read argv') (quote "--verbosity")) (g_verbose r) = asked_verbosity (setting (read argv) (quote "--verbosity")) (g_verbose r) ->
  g_to_file r = false ->
  main_program lm fuel file duration can_open r path argv = Ok (out, code) ->
  main_program lm fuel file duration can_open' r path argv' = Ok (out', code') ->
  code' = code /\ exists report, report_goes lm r argv out report /\ report_goes lm r argv' out' report.
Proof. exact services_colourless. Qed.
Print Assumptions C112_services.

(** A program of three tests, with colours on the console and without in a file: the hypotheses hold, and the reports differ by
    462 characters. *)
Example C112_example :
  Forall (fun argv => asks argv /\ console_asked small at_file untimed library (map quote argv)) [in_colour; in_a_file] /\
  (run_colours (setting (read (map quote in_colour))) (g_with_color library) = true /\ run_colours (setting (read (map quote in_a_file))) (g_with_color library) = false) /\
  Forall (displayable id_name id_type (fun id => full_name_of (id_name id) (id_type id)) untimed decimal (l_version small) (painted true) 60 40) (events_for in_colour) /\
  Forall (fun e => Forall colourless (texts_of id_name id_type (fun id => full_name_of (id_name id) (id_type id)) id_tags at_file untimed (l_version small) e)) (events_for in_colour) /\
  (length (events_for in_colour) = 18 /\ length (report_of in_colour) = length (report_of in_a_file) + 462) /\
  occurs ([ascii_of_nat 27] ++ quote "[1;31mfailed: " ++ [ascii_of_nat 27] ++ quote "[0m") (report_of in_colour) /\
  occurs (quote "failed: running test case ") (report_of in_a_file) /\
  Forall (fun argv => asks argv /\ reporter_asked (xml_reporter small at_file untimed) library (map quote argv)) [["-r"; "xml"; "--color"; "always"]; ["-r"; "xml"; "-o"; "f"]] /\
  report_of ["-r"; "xml"; "--color"; "always"] = report_of ["-r"; "xml"; "-o"; "f"].
Proof. exact colours_example. Qed.
