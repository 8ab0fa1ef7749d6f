(** Property C105: failed checks. *)
From Coq Require Import Lia.
From Verif.Spec Require Import TextSpec FilterSpec PrintSpec CliSpec Events VerdictSpec TreeSpec XmlSpec SessionSpec ProgramSpec ShardSpec ExpressionSpec FailureSpec.
From Verif.Model Require Import Base Vector StringUtil Print Filter Run Cli File Session Reporters Program.
From Verif.Spec Require Import ProgramClaims LinkClaims FailureClaims.
From Verif.Proofs Require Import ReportExamples ProgramFacts LinkProofs LinkExamples FailureProofs FailureExamples.
Local Open Scope string_scope.
Local Open Scope list_scope.
Local Open Scope nat_scope.

(** ** C105. A failed check is never silent (Spec/FailureSpec.v, Spec/FailureClaims.v). *)

(** Whatever the reporter, the command line and the verbosity: a run that completes has run the tests chosen, has reported every
    check that failed when they ran, and returns 1 exactly if one did. *)
Theorem C105_exit :
  forall (lm : Session.limits) (fuel : nat) (can_open : text -> bool) (r : registry) (path : text) (argv : list text) (out : list output) (code : nat),
  length argv <= l_max_command_line_args lm -> acceptable argv -> asks_run (setting (read argv)) ->
  main lm fuel can_open r path argv = Ok (out, code) ->
  exists (v : verbosity) (name : text) (is_run : test_case -> bool) (parts : list (test_case * list event)) (before after : list output) (k : option nat),
    the_chosen lm argv is_run /\ map fst parts = filter is_run (g_tests r) /\ what_happened lm fuel parts /\
    out = before ++ map (Reported k) (filter (Events.visible v) (events_of_run name (filters (read argv)) (map snd parts))) ++ after /\
    (forall p e, In p parts -> In e (snd p) -> says e = Failed -> In (Reported k e) out) /\
    (code = 0 \/ code = 1) /\ (code = 1 <-> a_check_failed parts).
Proof. exact failure_exit. Qed.
Print Assumptions C105_exit.

(** With the console reporter: the text for each check that failed begins with failed, and has the file and the line, however long
    the names and the messages are. *)
Theorem C105_console :
  forall (lm : Session.limits) (fuel : nat) (file : event -> text) (duration : event -> option text) (can_open : text -> bool) (r : registry)
    (path : text) (argv : list text) (out : list output) (code : nat),
  32 <= l_max_message_length lm -> length argv <= l_max_command_line_args lm -> acceptable argv -> asks_run (setting (read argv)) -> g_to_file r = false ->
  console_asked lm file duration r argv -> main_program lm fuel file duration can_open r path argv = Ok (out, code) ->
  exists colours, report_colours r argv colours /\ every_failure_is_shown (shown_by_console file colours) lm fuel r argv out code.
Proof. exact console_shown. Qed.
Print Assumptions C105_console.

(** With the TeamCity reporter: a message testFailed. *)
Theorem C105_teamcity :
  forall (lm : Session.limits) (fuel : nat) (file : event -> text) (duration : event -> option text) (can_open : text -> bool) (r : registry)
    (path : text) (argv : list text) (out : list output) (code : nat),
  32 <= l_max_message_length lm -> length argv <= l_max_command_line_args lm -> acceptable argv -> asks_run (setting (read argv)) -> g_to_file r = false ->
  reporter_asked (teamcity_reporter lm file duration) r argv -> main_program lm fuel file duration can_open r path argv = Ok (out, code) ->
  every_failure_is_shown (shown_by_teamcity file (l_max_message_length lm)) lm fuel r argv out code.
Proof. exact teamcity_shown. Qed.
Print Assumptions C105_teamcity.

(** With the XML reporter: an element Failure, or an element Expression that did not succeed. *)
Theorem C105_xml :
  forall (lm : Session.limits) (fuel : nat) (file : event -> text) (duration : event -> option text) (can_open : text -> bool) (r : registry)
    (path : text) (argv : list text) (out : list output) (code : nat),
  length argv <= l_max_command_line_args lm -> acceptable argv -> asks_run (setting (read argv)) -> g_to_file r = false ->
  reporter_asked (xml_reporter lm file duration) r argv -> main_program lm fuel file duration can_open r path argv = Ok (out, code) ->
  every_failure_is_shown (shown_by_xml file (l_max_message_length lm)) lm fuel r argv out code.
Proof. exact xml_shown. Qed.
Print Assumptions C105_xml.

(** The three reporters on a program with a test that fails: the hypotheses hold, the exit code is 1, and the text is in the report;
    with a filter that leaves this test out, the exit code is 0. *)
Example C105_case :
  g_to_file library = false /\ 32 <= l_max_message_length small /\
  Forall (fun x => asks (fst x) /\ length (map quote (fst x)) <= l_max_command_line_args small) failure_texts /\
  console_asked small at_file untimed library (map quote ["-v"; "quiet"]) /\
  reporter_asked (teamcity_reporter small at_file untimed) library (map quote ["--reporter"; "teamcity"]) /\
  reporter_asked (xml_reporter small at_file untimed) library (map quote ["--reporter"; "xml"; "-o"; "f"]) /\
  Forall (fun x => exit_of (fst x) = Some 1 /\ exists out, said_by library (fst x) = Some out /\ occurs (snd x) out) failure_texts /\
  (exists p, a_check_failed [p] /\ what_happened small 5 [p] /\ In (fst p) (g_tests library)) /\
  exit_of ["--reporter"; "xml"; "[x]"] = Some 0.
Proof. exact failure_example. Qed.
