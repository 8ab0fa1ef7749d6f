(** Property C115: the end of a report. *)
From Coq Require Import Lia.
From Verif.Spec Require Import TextSpec FilterSpec PrintSpec CliSpec Events VerdictSpec TreeSpec XmlSpec SessionSpec ProgramSpec ShardSpec ExpressionSpec ConsoleSpec FailureSpec EndingSpec.
From Verif.Model Require Import Base Vector StringUtil Print Filter Run Cli File Session Reporters Program.
From Verif.Spec Require Import ProgramClaims LinkClaims FailureClaims EndingClaims.
From Verif.Proofs Require Import ReportExamples ProgramFacts LinkProofs LinkExamples FailureExamples EndingProofs EndingExamples.
Local Open Scope string_scope.
Local Open Scope list_scope.
Local Open Scope nat_scope.

(** ** C115. The last lines of a report agree with what happened and with the exit code (Spec/EndingSpec.v, Spec/EndingClaims.v),
    however long the names and the messages are. *)

(** With the console reporter, at any verbosity but quiet. *)
Theorem C115_console :
  forall (lm : Session.limits) (fuel : nat) (file : event -> text) (duration : event -> option text) (can_open : text -> bool) (r : registry)
    (path : text) (argv : list text) (out : list output) (code : nat),
  32 <= l_max_message_length lm -> (forall e d, duration e = Some d -> length d <= l_max_message_length lm) ->
  length argv <= l_max_command_line_args lm -> acceptable argv -> asks_run (setting (read argv)) -> g_to_file r = false ->
  console_asked lm file duration r argv -> asked_verbosity (setting (read argv) (quote "--verbosity")) (g_verbose r) <> Quiet ->
  main_program lm fuel file duration can_open r path argv = Ok (out, code) ->
  exists colours, report_colours r argv colours /\
    ends_truly (fun told last => exists e, console_ending colours (duration e) told last) lm fuel r argv out code.
Proof. exact console_ends. Qed.
Print Assumptions C115_console.

(** With the XML reporter. *)
Theorem C115_xml :
  forall (lm : Session.limits) (fuel : nat) (file : event -> text) (duration : event -> option text) (can_open : text -> bool) (r : registry)
    (path : text) (argv : list text) (out : list output) (code : nat),
  length argv <= l_max_command_line_args lm -> acceptable argv -> asks_run (setting (read argv)) -> g_to_file r = false ->
  reporter_asked (xml_reporter lm file duration) r argv -> main_program lm fuel file duration can_open r path argv = Ok (out, code) ->
  ends_truly xml_ending lm fuel r argv out code.
Proof. exact xml_ends. Qed.
Print Assumptions C115_xml.

(** A library with a test that fails, one that passes and one that is skipped: the exit code and the end of the report. *)
Example C115_example :
  g_to_file library = false /\ 32 <= l_max_message_length small /\ (forall e d, untimed e = Some d -> length d <= l_max_message_length small) /\
  Forall (fun x => asks (fst (fst x)) /\ length (map quote (fst (fst x))) <= l_max_command_line_args small) endings /\
  Forall (fun argv => console_asked small at_file untimed library (map quote argv) /\
            asked_verbosity (setting (read (map quote argv)) (quote "--verbosity")) (g_verbose library) <> Quiet) [[]; ["n"]; ["--reporter"; "console"; "[x]"]] /\
  reporter_asked (xml_reporter small at_file untimed) library (map quote ["-r"; "xml"; "-o"; "f"]) /\
  Forall (fun x => exit_of (fst (fst x)) = Some (snd (fst x)) /\ exists before, said_by library (fst (fst x)) = Some (before ++ snd x)) endings.
Proof. exact ending_example. Qed.
