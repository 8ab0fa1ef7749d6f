(** Property C110: what a program prints before its report. *)
From Verif.Spec Require Import TextSpec FilterSpec PrintSpec Events SessionSpec ProgramSpec ColourSpec ConsoleSpec HelpSpec WarningSpec CliSpec ListingSpec.
From Verif.Model Require Import Base Vector StringUtil Print Filter Run Cli File Session Reporters Program.
From Verif.Spec Require Import ProgramClaims.
From Verif.Proofs Require Import ReportExamples ProgramFacts LinkExamples WarningProgram.
Local Open Scope string_scope.
Local Open Scope list_scope.
Local Open Scope nat_scope.

(** ** C110. The warnings about the command line come first, each once, and there are no others (Spec/WarningSpec.v; [warned] and
    [report_goes] in Spec/ProgramClaims.v)

    Whatever an acceptable command line asks for (a run, a list, the help), and whatever the reporters: the console starts with
    these warnings. *)
Theorem C110_first :
  forall (lm : Session.limits) (fuel : nat) (file : event -> text) (duration : event -> option text) (can_open : text -> bool)
    (r : registry) (path : text) (argv : list text) (out : list output) (code : nat),
  length argv <= l_max_command_line_args lm -> acceptable argv -> main_program lm fuel file duration can_open r path argv = Ok (out, code) ->
  exists warnings rest, warned lm r argv warnings /\ console_text out = List.concat warnings ++ rest.
Proof. exact warns_first. Qed.
Print Assumptions C110_first.

(** In a run and in a listing of tests, all the rest is the report, on the console or in the output file. (What the report is is
    said by C62, C63, C102-C109, in terms of the same [report_goes].) *)
Theorem C110_report :
  forall (lm : Session.limits) (fuel : nat) (file : event -> text) (duration : event -> option text) (can_open : text -> bool)
    (r : registry) (path : text) (argv : list text) (out : list output) (code : nat),
  length argv <= l_max_command_line_args lm -> acceptable argv -> asks_run (setting (read argv)) \/ asks_list (setting (read argv)) -> g_to_file r = false ->
  main_program lm fuel file duration can_open r path argv = Ok (out, code) -> exists report, report_goes lm r argv out report.
Proof. exact report_follows. Qed.
Print Assumptions C110_report.

(** If the command line has nothing unknown, nothing but the report is printed. *)
Theorem C110_silence :
  forall (lm : Session.limits) (r : registry) (argv : list text),
  unknown (read argv) = [] ->
  unknown_word [quote "ansi"; quote "default"; quote "none"] (setting (read argv) (quote "--colour-mode")) = false ->
  unknown_word [quote "always"; quote "default"; quote "never"] (setting (read argv) (quote "--color")) = false ->
  unknown_word [quote "quiet"; quote "normal"; quote "high"; quote "full"] (setting (read argv) (quote "--verbosity")) = false ->
  silently_chosen r argv ->
  forall (out : list output) (report : text), report_goes lm r argv out report <->
    console_text out = (if has_file argv then [] else report) /\ file_text out = (if has_file argv then report else []).
Proof. exact silence. Qed.
Print Assumptions C110_silence.

(** The reporters of the library say nothing when they start. *)
Theorem C110_library :
  forall (lm : Session.limits) (file : event -> text) (duration : event -> option text) (r : registry) (argv : list text) (i : nat) (p : reporter),
  In p [console_reporter lm file duration; teamcity_reporter lm file duration; xml_reporter lm file duration] ->
  setting (read argv) (quote "--reporter") = Some (Some (r_name p)) -> first_named (g_reporters r) i p -> silently_chosen r argv.
Proof. exact library_silent. Qed.
Print Assumptions C110_library.

(** A command line with three warnings, in colour, one with a single one, and one with none. *)
Example C110_example :
  (acceptable (map quote careless) /\ asks_run (setting (read (map quote careless))) /\ length (map quote careless) <= l_max_command_line_args wide) /\
  silently_chosen library (map quote careless) /\
  option_map fst (said_to careless) = Some (coloured_warning " unknown command line argument '--what'" ++
     coloured_warning " unknown color directive; please use one of always|default|never" ++
     coloured_warning " unknown verbosity level; please use one of quiet|normal|high|full") /\
  option_map fst (said_to ["--colour-mode"; "odd"; "-o"; "f"]) = Some (lines_of ["warning: unknown color directive; please use one of ansi|default|none"]) /\
  silently_chosen library (map quote careful) /\
  (acceptable (map quote careful) /\ unknown (read (map quote careful)) = [] /\ has_file (map quote careful) = true) /\
  option_map fst (said_to careful) = Some [] /\ said_to ["--reporter"; "loud"] <> said_to [].
Proof. exact warning_example. Qed.
