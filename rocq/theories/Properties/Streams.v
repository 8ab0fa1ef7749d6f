(** Property C96: what is left of the output of a program that dies, or whose disk is full. *)
From Coq Require Import NArith.
From Verif.Spec Require Import TextSpec FilterSpec PrintSpec EscapeSpec NumberSpec CliSpec Events VerdictSpec SessionSpec ProgramSpec XmlSpec ServiceSpec ConsoleSpec CutSpec CutServiceSpec CutXmlSpec StreamSpec.
From Verif.Model Require Import Base Vector StringUtil Print Filter Run Cli File Session Reporters Program Streams.
From Verif.Spec Require Import ProgramClaims LinkClaims.
From Verif.Proofs Require Import ReportExamples ConsoleProofs ProgramFacts StreamProofs StreamExamples StreamReports.
Local Open Scope string_scope.
Local Open Scope list_scope.
Local Open Scope nat_scope.

(** [main_steps] is a whole program as the calls it makes to the C library, and the code of the tests that it runs, in order.
    [runs true done start w]: [w] is a state that the streams can be in after the calls [done], if no character gets lost;
    what the C library keeps in its buffers, and how long, is arbitrary. The program can die after any of its steps. *)

(** ** The program is the one of C61 to C66 *)
Theorem C96_same_program :
  forall (lm : Session.limits) (fuel : nat) (file : event -> text) (duration : event -> option text) (can_open : text -> bool)
    (r : registry) (path : text) (argv : list text),
  match main_program lm fuel file duration can_open r path argv, main_steps lm fuel file duration can_open r path argv with
  | Ok (out, code), Ok (steps, code') => code' = code /\ written Console steps = console_text out /\ written OutputFile steps = file_text out
  | Err e, Err e' => e' = e
  | _, _ => False
  end.
Proof. exact same_program. Qed.
Print Assumptions C96_same_program.

Theorem C96_same_codes :
  forall (lm : Session.limits) (fuel : nat) (file : event -> text) (duration : event -> option text) (can_open : text -> bool)
    (r : registry) (path : text) (argv : list text) (out : list output) (code : nat) (steps : list step) (code' : nat),
  main lm fuel can_open r path argv = Ok (out, code) -> main_steps lm fuel file duration can_open r path argv = Ok (steps, code') ->
  user_codes steps = codes_in (events_of out).
Proof. exact same_acts. Qed.
Print Assumptions C96_same_codes.

(** ** The output file *)

(** If the program dies in the code of a test, everything written before is in the file. *)
Theorem C96_file :
  forall (lm : Session.limits) (fuel : nat) (file : event -> text) (duration : event -> option text) (can_open : text -> bool)
    (r : registry) (path : text) (argv : list text) (steps : list step) (code : nat) (done : list step) (n : nat) (rest : list step) (w : world),
  g_file r = None -> g_to_file r = false -> main_steps lm fuel file duration can_open r path argv = Ok (steps, code) ->
  steps = done ++ UserCode n :: rest -> runs true done start w ->
  file_left w = if opened done then Some (written OutputFile done) else None.
Proof. exact survives. Qed.
Print Assumptions C96_file.

(** If it dies anywhere else, even in the middle of a call, only the last text written can be incomplete. *)
Theorem C96_anywhere :
  forall (lm : Session.limits) (fuel : nat) (file : event -> text) (duration : event -> option text) (can_open : text -> bool)
    (r : registry) (path : text) (argv : list text) (steps : list step) (code : nat) (done rest : list step) (w : world),
  g_file r = None -> g_to_file r = false -> main_steps lm fuel file duration can_open r path argv = Ok (steps, code) ->
  steps = done ++ rest -> dies true done w ->
  (opened done = false -> file_left w = None) /\
  (opened done = true -> exists earlier part, file_left w = Some (concat earlier ++ part) /\
     (given_to OutputFile done = earlier /\ part = [] \/ exists last, given_to OutputFile done = earlier ++ [last] /\ StreamSpec.begins part last)).
Proof. exact survives_anywhere. Qed.
Print Assumptions C96_anywhere.

(** With the console reporter, the file has the text of every event that happened before the user code in which the program
    died (C60, C62). *)
Theorem C96_report :
  exists shown : nat -> text, (forall n, (N.of_nat n < 2 ^ 64)%N -> NumberSpec.writes 10 (shown n) (N.of_nat n)) /\
  forall (lm : Session.limits) (fuel : nat) (file : event -> text) (duration : event -> option text) (can_open : text -> bool)
    (r : registry) (path : text) (argv : list text) (steps : list step) (code : nat) (out' : list output) (code' : nat),
  let full_name := fun id => full_name_of (id_name id) (id_type id) in
  let fits := fun colours => displayable id_name id_type full_name duration shown (l_version lm) (painted colours) (l_max_message_length lm) (l_max_test_name_length lm) in
  length argv <= l_max_command_line_args lm -> acceptable argv -> asks_run (setting (read argv)) -> g_file r = None -> g_to_file r = false ->
  console_asked lm file duration r argv -> 32 <= l_max_message_length lm -> has_file argv = true ->
  main_steps lm fuel file duration can_open r path argv = Ok (steps, code) -> main lm fuel can_open r path argv = Ok (out', code') ->
  exists colours : bool, report_colours r argv colours /\ forall (before : list event) (n : nat) (after : list event), events_of out' = before ++ User n :: after ->
    Forall (fits colours) before ->
    exists done rest, steps = done ++ UserCode n :: rest /\ user_codes done = codes_in before /\
      forall w, runs true done start w ->
        file_left w = Some (flat_map (event_text id_name id_type full_name id_tags file duration shown (l_version lm) (painted colours)) before).
Proof. exact report_survives_shown. Qed.
Print Assumptions C96_report.

(** With each reporter of the library and texts of any length: the file has exactly the texts of the events that happened
    before (C106, C107, C108). *)
Theorem C96_reports :
  exists (shown : nat -> text) (field : nat -> text -> text) (name_of : nat -> test_id -> text) (suite_of : nat -> text -> list text -> text)
    (xml_field : nat -> text -> text) (xml_name : nat -> test_id -> text) (xml_filters : nat -> list text -> text),
  (forall n, (N.of_nat n < 2 ^ 64)%N -> writes 10 (shown n) (N.of_nat n)) /\
  ((forall n s, cut_field teamcity_code n (fit n s) (field n s)) /\
   (forall n id, cut_field teamcity_code n (firstn n (full_name_of (id_name id) (id_type id))) (name_of n id)) /\
   (forall n name filters, cut_field teamcity_code n (fit n (suite_name name filters)) (suite_of n name filters))) /\
  ((forall n s, cut_field xml_entities n (fit n s) (xml_field n s)) /\
   (forall n id, cut_field xml_entities n (firstn n (full_name_of (id_name id) (id_type id))) (xml_name n id)) /\
   (forall n filters, cut_field xml_entities n (fit n (filters_text filters)) (xml_filters n filters))) /\
  forall (lm : Session.limits) (fuel : nat) (file : event -> text) (duration : event -> option text) (can_open : text -> bool)
    (r : registry) (path : text) (argv : list text) (steps : list step) (code : nat) (out' : list output) (code' : nat),
  let full_name := fun id => full_name_of (id_name id) (id_type id) in
  let mm := l_max_message_length lm in let mn := l_max_test_name_length lm in
  length argv <= l_max_command_line_args lm -> acceptable argv -> asks_run (setting (read argv)) -> g_file r = None -> g_to_file r = false ->
  has_file argv = true ->
  main_steps lm fuel file duration can_open r path argv = Ok (steps, code) -> main lm fuel can_open r path argv = Ok (out', code') ->
  (console_asked lm file duration r argv -> exists colours : bool, report_colours r argv colours /\ file_keeps steps (events_of out')
     (flat_map (cut_text mm mn colours id_name id_type full_name id_tags file duration shown (l_version lm)))) /\
  (reporter_asked (teamcity_reporter lm file duration) r argv -> file_keeps steps (events_of out')
     (flat_map (service_text mm (field mm) (name_of mn) (suite_of mm) file duration shown))) /\
  (reporter_asked (xml_reporter lm file duration) r argv -> file_keeps steps (events_of out')
     (fun l => snd (drawn 0 (flat_map (xml_lines (xml_field mm) (xml_name mn) (xml_filters mm) id_tags id_fixture file duration shown (l_version lm)) l)))).
Proof. exact reports_survive. Qed.
Print Assumptions C96_reports.

(** The program of [C96_example], with the XML and TeamCity reporters. *)
Example C96_reports_example :
  asks ["--reporter"; "xml"; "-o"; "out"] /\ has_file (map quote ["--reporter"; "xml"; "-o"; "out"]) = true /\ g_file crashing = None /\ g_to_file crashing = false /\
  reporter_asked (xml_reporter small at_file untimed) crashing (map quote ["--reporter"; "xml"; "-o"; "out"]) /\
  asks ["--reporter"; "teamcity"; "-o"; "out"] /\ has_file (map quote ["--reporter"; "teamcity"; "-o"; "out"]) = true /\
  reporter_asked (teamcity_reporter small at_file untimed) crashing (map quote ["--reporter"; "teamcity"; "-o"; "out"]) /\
  (exists done rest, steps_in ["--reporter"; "xml"; "-o"; "out"] = Some (done ++ UserCode 7 :: rest, 1) /\
     written OutputFile done = lines_of ["<?xml version=""1.0"" encoding=""UTF-8""?>"; "";
       "<Catch2TestRun name=""demo"" rng-seed=""0"" xml-format-version=""3"" catch2-version=""1.2.snitch"" filters="""">";
       "  <TestCase name=""t"" tags="""" filename=""f"" line=""1"">"; "    <Expression success=""false"" type=""CHECK"" filename=""f"" line=""2"">";
       "      <Original>"; "        a &lt; b"; "      </Original>"; "      <Expanded>"; "        3 &gt;= 2"; "      </Expanded>"; "    </Expression>"] /\
     exists w, runs true done start w) /\
  (exists done rest, steps_in ["--reporter"; "teamcity"; "-o"; "out"] = Some (done ++ UserCode 7 :: rest, 1) /\
     written OutputFile done = lines_of ["##teamCity[testSuiteStarted name='demo']"; "##teamCity[testStarted name='t']";
       "##teamCity[testFailed name='t' message='f:2|n  CHECK(a < b), got: 3 >= 2']"] /\
     exists w, runs true done start w).
Proof. exact reports_example. Qed.

(** ** Programs that end by themselves *)
Theorem C96_end :
  forall (lm : Session.limits) (fuel : nat) (file : event -> text) (duration : event -> option text) (can_open : text -> bool)
    (r : registry) (path : text) (argv : list text) (steps : list step) (code : nat) (w w' : world),
  g_file r = None -> g_to_file r = false -> main_steps lm fuel file duration can_open r path argv = Ok (steps, code) ->
  runs true steps start w -> ends true w w' ->
  console_left w' = written Console steps /\ file_left w' = (if opened steps then Some (written OutputFile steps) else None) /\
  (* and the program has closed the file *)
  the_file w' = (if opened steps then IsClosed (written OutputFile steps) else NoFile).
Proof. exact ends_well. Qed.
Print Assumptions C96_end.

(** ** The console *)

(** Partial: what is left on the console is only the beginning of what was printed, and all of it if nothing waits in the
    buffer. *)
Theorem C96_console_partial :
  forall (done : list step) (w : world),
  (dies true done w -> StreamSpec.begins (console_left w) (written Console done)) /\
  (runs true done start w -> waiting (console w) = [] -> console_left w = written Console done).
Proof. exact console_remains. Qed.
Print Assumptions C96_console_partial.

(** The full claim is false: [stdout] is never flushed. Whatever the program, wherever it dies, there is an execution that
    leaves nothing on the console, not even the message of [terminate_with]. *)
Theorem C96_console_refuted :
  forall (lm : Session.limits) (fuel : nat) (file : event -> text) (duration : event -> option text) (can_open : text -> bool)
    (r : registry) (path : text) (argv : list text) (steps : list step) (code : nat) (done rest : list step) (message : text),
  g_file r = None -> g_to_file r = false -> main_steps lm fuel file duration can_open r path argv = Ok (steps, code) ->
  steps = done ++ rest ->
  exists w, runs true (done ++ terminate_steps message) start w /\ console_left w = [].
Proof. exact nothing_on_console. Qed.
Print Assumptions C96_console_refuted.

(** ** A full disk *)

(** That a program which ends with success has written its report is false if characters can be lost: the program does not
    look at what the C library answers. Whatever the program, the file may be empty in the end; the exit code is the same. *)
Theorem C96_full_disk_refuted :
  forall (lm : Session.limits) (fuel : nat) (file : event -> text) (duration : event -> option text) (can_open : text -> bool)
    (r : registry) (path : text) (argv : list text) (steps : list step) (code : nat),
  g_file r = None -> g_to_file r = false -> main_steps lm fuel file duration can_open r path argv = Ok (steps, code) ->
  opened steps = true ->
  exists w w', runs false steps start w /\ ends false w w' /\ file_left w' = Some [].
Proof. exact full_disk. Qed.
Print Assumptions C96_full_disk_refuted.

(** TEST_CASE("t") { CHECK(a < b), which fails; user code 7 } with [--out out]: if user code 7 kills the program, the failure
    is in the file. With [m] instead, the program ends with success. *)
Example C96_example :
  asks ["-o"; "out"] /\ has_file (map quote ["-o"; "out"]) = true /\ console_asked small at_file untimed crashing (map quote ["-o"; "out"]) /\
  (exists before after, events_in ["-o"; "out"] = before ++ User 7 :: after /\
     forall colours, Forall (displayable id_name id_type (fun id => full_name_of (id_name id) (id_type id)) untimed decimal (l_version small) (painted colours) 60 40) before) /\
  (exists done rest, steps_in ["-o"; "out"] = Some (done ++ UserCode 7 :: rest, 1) /\ opened done = true /\ user_codes done = [] /\
     written OutputFile done = lines_of ["starting demo with snitch v1.2"; "=========================================="; "failed: running test case ""t""";
       "          at f:2"; "          CHECK(a < b), got: 3 >= 2"] /\ (exists w, runs true done start w)) /\
  (exists done rest, steps_in [] = Some (done ++ UserCode 7 :: rest, 1) /\ opened done = false /\ length (given_to Console done) = 7) /\
  (exists steps, steps_in ["-o"; "out"; "m"] = Some (steps, 0) /\ opened steps = true /\ written OutputFile steps <> []).
Proof. exact crash_example. Qed.
