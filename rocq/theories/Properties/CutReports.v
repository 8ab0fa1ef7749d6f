(** Properties C107 and C108: what the TeamCity and XML reporters print, whatever the lengths of the texts. *)
From Coq Require Import NArith Lia.
From Verif.Spec Require Import TextSpec FilterSpec PrintSpec EscapeSpec RunSpec TreeSpec Events NumberSpec SessionSpec ProgramSpec XmlSpec ServiceSpec CutSpec CutServiceSpec CutXmlSpec CliSpec.
From Verif.Model Require Import Base Vector StringUtil Integer Print Filter Run Cli File Session Reporters Program.
From Verif.Spec Require Import ProgramClaims LinkClaims.
From Verif.Proofs Require Import ReportExamples ProgramFacts LinkProofs LinkExamples CutExamples CutService CutXml CutReportExamples.
Local Open Scope string_scope.
Local Open Scope list_scope.
Local Open Scope nat_scope.

(** ** C107. The TeamCity reporter (Spec/CutServiceSpec.v)

    There is one way to print a text, a full name and the name of a suite, which depends on the limit and on this text only:
    encoded, and cut if there is no room. With any limits, the report of any events is exactly the messages with these values,
    and so is the report of a whole program. *)
Theorem C107_teamcity :
  exists (shown : nat -> text) (field : nat -> text -> text) (name_of : nat -> test_id -> text) (suite_of : nat -> text -> list text -> text),
  (forall n, (N.of_nat n < 2 ^ 64)%N -> writes 10 (shown n) (N.of_nat n)) /\
  (forall n s, cut_field teamcity_code n (fit n s) (field n s)) /\
  (forall n id, cut_field teamcity_code n (firstn n (full_name_of (id_name id) (id_type id))) (name_of n id)) /\
  (forall n name filters, cut_field teamcity_code n (fit n (suite_name name filters)) (suite_of n name filters)) /\
  (forall (mm mn : nat) (file : event -> text) (duration : event -> option text) (l : list event),
   exists out, tc_reports mm mn file duration l = Ok out /\
     List.concat out = flat_map (service_text mm (field mm) (name_of mn) (suite_of mm) file duration shown) l) /\
  (forall (lm : Session.limits) (fuel : nat) (file : event -> text) (duration : event -> option text) (can_open : text -> bool)
     (r : registry) (path : text) (argv : list text) (out : list output) (code : nat) (out' : list output) (code' : nat),
   length argv <= l_max_command_line_args lm -> acceptable argv -> asks_run (setting (read argv)) -> g_to_file r = false ->
   reporter_asked (teamcity_reporter lm file duration) r argv ->
   main_program lm fuel file duration can_open r path argv = Ok (out, code) ->
   main lm fuel can_open r path argv = Ok (out', code') ->
   code = code' /\
   report_goes lm r argv out
     (flat_map (service_text (l_max_message_length lm) (field (l_max_message_length lm)) (name_of (l_max_test_name_length lm)) (suite_of (l_max_message_length lm)) file duration shown) (events_of out'))).
Proof. exact service_exact. Qed.
Print Assumptions C107_teamcity.

(** The name of the test, both sides of a check and the message of a skip are too long; the characters where they are cut have
    to be encoded. *)
Example C107_example :
  g_to_file odd_names = false /\
  asks ["--reporter"; "teamcity"] /\ reporter_asked (teamcity_reporter small at_file untimed) odd_names (map quote ["--reporter"; "teamcity"]) /\
  length (map quote ["--reporter"; "teamcity"]) <= l_max_command_line_args small /\
  said_by odd_names ["--reporter"; "teamcity"] = Some odd_service.
Proof. exact odd_service_example. Qed.

(** ** C108. The XML reporter (Spec/CutXmlSpec.v)

    As C107. The report of any events, from any number of open elements, is exactly these lines with this indentation, if the
    reporter does not fail: it fails when an element ends that was not started, and when there are more failed checks than
    checks (C42). *)
Theorem C108_xml :
  exists (shown : nat -> text) (field : nat -> text -> text) (name_of : nat -> test_id -> text) (filters_of : nat -> list text -> text),
  (forall n, (N.of_nat n < 2 ^ 64)%N -> writes 10 (shown n) (N.of_nat n)) /\
  (forall n s, cut_field xml_entities n (fit n s) (field n s)) /\
  (forall n id, cut_field xml_entities n (firstn n (full_name_of (id_name id) (id_type id))) (name_of n id)) /\
  (forall n filters, cut_field xml_entities n (fit n (filters_text filters)) (filters_of n filters)) /\
  (forall (mm mn : nat) (version : text) (file : event -> text) (duration : event -> option text) (l : list event) (level level' : nat) (out : list text),
   xml_reports mm mn version file duration l level = Ok (level', out) ->
   drawn level (flat_map (xml_lines (field mm) (name_of mn) (filters_of mm) id_tags id_fixture file duration shown version) l) = (level', List.concat out)) /\
  (forall (lm : Session.limits) (fuel : nat) (file : event -> text) (duration : event -> option text) (can_open : text -> bool)
     (r : registry) (path : text) (argv : list text) (out : list output) (code : nat) (out' : list output) (code' : nat),
   length argv <= l_max_command_line_args lm -> acceptable argv -> asks_run (setting (read argv)) -> g_to_file r = false ->
   reporter_asked (xml_reporter lm file duration) r argv ->
   main_program lm fuel file duration can_open r path argv = Ok (out, code) ->
   main lm fuel can_open r path argv = Ok (out', code') ->
   code = code' /\
   report_goes lm r argv out
     (snd (drawn 0 (flat_map (xml_lines (field (l_max_message_length lm)) (name_of (l_max_test_name_length lm)) (filters_of (l_max_message_length lm))
                                id_tags id_fixture file duration shown (l_version lm)) (events_of out'))))).
Proof. exact xml_exact. Qed.
Print Assumptions C108_xml.

(** The same program. The message of the skip is printed whole. *)
Example C108_example :
  g_to_file odd_names = false /\
  asks ["--reporter"; "xml"] /\ reporter_asked (xml_reporter small at_file untimed) odd_names (map quote ["--reporter"; "xml"]) /\
  length (map quote ["--reporter"; "xml"]) <= l_max_command_line_args small /\
  said_by odd_names ["--reporter"; "xml"] = Some odd_xml.
Proof. exact odd_xml_example. Qed.
