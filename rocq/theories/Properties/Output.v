(** Property C102: options about the output do not change what is tested. *)
From Coq Require Import NArith Lia.
From Verif.Spec Require Import TextSpec FilterSpec PrintSpec NumberSpec CliSpec Events VerdictSpec SessionSpec ProgramSpec ConsoleSpec StreamSpec.
From Verif.Model Require Import Base Vector StringUtil Print Filter Run Cli File Session Reporters Program.
From Verif.Spec Require Import ProgramClaims.
From Verif.Proofs Require Import ReportExamples ConsoleProofs ProgramFacts OutputProofs.
Local Open Scope string_scope.
Local Open Scope list_scope.
Local Open Scope nat_scope.

(** Two command lines for the same program, both of which ask for a run, with the same filters: the other options, and where
    they are, may differ, and so may the files that can be opened. If both programs complete, the exit codes are the same;
    the same user code is executed, in the same order; the same failures and skipped tests are reported, in the same order;
    one of the two reports is the other without some kinds of events. If no reporter is asked for, or the console reporter, then the
    one with the lower verbosity has less: exactly the events that its verbosity admits. *)
Theorem C102_events :
  forall (lm : Session.limits) (fuel : nat) (can_open can_open' : text -> bool) (r : registry) (path : text) (argv argv' : list text)
    (out : list output) (code : nat) (out' : list output) (code' : nat),
  length argv <= l_max_command_line_args lm -> acceptable argv -> asks_run (setting (read argv)) ->
  length argv' <= l_max_command_line_args lm -> acceptable argv' -> asks_run (setting (read argv')) ->
  filters (read argv') = filters (read argv) ->
  main lm fuel can_open r path argv = Ok (out, code) -> main lm fuel can_open' r path argv' = Ok (out', code') ->
  code' = code /\ codes_in (events_of out') = codes_in (events_of out) /\
  filter (Events.visible Quiet) (events_of out') = filter (Events.visible Quiet) (events_of out) /\
  (exists v, events_of out = filter (Events.visible v) (events_of out') \/ events_of out' = filter (Events.visible v) (events_of out)) /\
  (setting (read argv) (quote "--reporter") = None \/ (exists file duration, console_asked lm file duration r argv) ->
   setting (read argv') (quote "--reporter") = None \/ (exists file duration, console_asked lm file duration r argv') ->
   let v := asked_verbosity (setting (read argv) (quote "--verbosity")) (g_verbose r) in
   let v' := asked_verbosity (setting (read argv') (quote "--verbosity")) (g_verbose r) in
   vlevel v <= vlevel v' -> events_of out = filter (Events.visible v) (events_of out')).
Proof. exact same_tests. Qed.
Print Assumptions C102_events.

(** If one of them completes, so does the other, if its output file can be opened and the reporters can be started. *)
Theorem C102_completes :
  forall (lm : Session.limits) (fuel : nat) (can_open can_open' : text -> bool) (r : registry) (path : text) (argv argv' : list text)
    (out : list output) (code : nat),
  length argv <= l_max_command_line_args lm -> acceptable argv -> asks_run (setting (read argv)) ->
  length argv' <= l_max_command_line_args lm -> acceptable argv' -> asks_run (setting (read argv')) ->
  filters (read argv') = filters (read argv) ->
  Forall starts (g_reporters r) ->
  (forall f, setting (read argv') (quote "--out") = Some (Some f) -> ~ In zero f /\ length f <= l_max_path_length lm /\ can_open' f = true) ->
  main lm fuel can_open r path argv = Ok (out, code) -> exists out', main lm fuel can_open' r path argv' = Ok (out', code).
Proof. exact also_completes. Qed.
Print Assumptions C102_completes.

(** With the console reporter, the two reports are made of the texts of the same events (C60): each of those that its
    verbosity admits, with colours or without; on the console or in a file. *)
Theorem C102_texts :
  exists shown : nat -> text, (forall n, (N.of_nat n < 2 ^ 64)%N -> writes 10 (shown n) (N.of_nat n)) /\
  forall (lm : Session.limits) (fuel : nat) (file : event -> text) (duration : event -> option text) (can_open can_open' : text -> bool)
    (r : registry) (path : text) (argv argv' : list text) (out : list output) (code : nat) (out' : list output) (code' : nat),
  let full_name := fun id => full_name_of (id_name id) (id_type id) in
  let fits := fun colours => displayable id_name id_type full_name duration shown (l_version lm) (painted colours) (l_max_message_length lm) (l_max_test_name_length lm) in
  let texts := fun colours => flat_map (event_text id_name id_type full_name id_tags file duration shown (l_version lm) (painted colours)) in
  let asked := fun argv => asked_verbosity (setting (read argv) (quote "--verbosity")) (g_verbose r) in
  length argv <= l_max_command_line_args lm -> acceptable argv -> asks_run (setting (read argv)) -> console_asked lm file duration r argv ->
  length argv' <= l_max_command_line_args lm -> acceptable argv' -> asks_run (setting (read argv')) -> console_asked lm file duration r argv' ->
  filters (read argv') = filters (read argv) -> g_to_file r = false -> 32 <= l_max_message_length lm ->
  main_program lm fuel file duration can_open r path argv = Ok (out, code) ->
  main_program lm fuel file duration can_open' r path argv' = Ok (out', code') ->
  code' = code /\
  exists (all : list event) (colours colours' : bool) (report report' : text),
    report_goes lm r argv out report /\ report_goes lm r argv' out' report' /\ report_colours r argv colours /\ report_colours r argv' colours' /\
    (Forall (fits colours) all -> report = texts colours (filter (Events.visible (asked argv)) all)) /\
    (Forall (fits colours') all -> report' = texts colours' (filter (Events.visible (asked argv')) all)).
Proof. exact same_reports_shown. Qed.
Print Assumptions C102_texts.

(** Quiet; full, in a file, with colours and the filter elsewhere; XML: command lines for the same run. *)
Example C102_example :
  let quiet := ["-v"; "quiet"; "~[x]"] in
  let full := ["~[x]"; "--color"; "always"; "-v"; "full"; "-o"; "out"] in
  let as_xml := ["--reporter"; "xml"; "~[x]"] in
  asks quiet /\ asks full /\ asks as_xml /\
  filters (read (map quote full)) = filters (read (map quote quiet)) /\ filters (read (map quote as_xml)) = filters (read (map quote quiet)) /\
  filters (read (map quote quiet)) = [quote "~[x]"] /\
  console_asked small at_file untimed library (map quote quiet) /\ console_asked small at_file untimed library (map quote full) /\
  Forall starts (g_reporters library) /\
  map (fun l => length (events_for l)) [quiet; full; as_xml] = [3; 16; 15] /\
  map (fun l => option_map snd (printed_by l)) [quiet; full; as_xml] = [Some 1; Some 1; Some 1] /\
  events_for quiet = filter (Events.visible Quiet) (events_for full).
Proof.
  cbv zeta. split; [asks_tac|]. split; [asks_tac|]. split; [asks_tac|]. split; [vm_compute; reflexivity|]. split; [vm_compute; reflexivity|].
  split; [vm_compute; reflexivity|]. split; [left; split; vm_compute; reflexivity|]. split; [left; split; vm_compute; reflexivity|].
  split; [eapply Forall_impl; [|exact (library_reporters small at_file untimed)]; intros p H; apply H|]. split; [vm_compute; reflexivity|].
  split; vm_compute; reflexivity.
Qed.
