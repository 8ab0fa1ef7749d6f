(** What is left of the report of a program that dies, with each reporter and texts of any length (C96). *)
From Coq Require Import NArith.
From Verif.Spec Require Import TextSpec FilterSpec PrintSpec EscapeSpec RunSpec TreeSpec Events NumberSpec SessionSpec ProgramSpec XmlSpec ServiceSpec CutSpec CutServiceSpec CutXmlSpec StreamSpec CliSpec.
From Verif.Model Require Import Base Vector StringUtil Integer Print Filter Run Cli File Session Reporters Program Streams.
From Verif.Spec Require Import ProgramClaims LinkClaims.
From Verif.Proofs Require Import Lists ReportExamples EndToEndProofs WholeProofs ProgramFacts LinkExamples CutProofs CutProgram CutService CutXml StreamProofs StreamExamples WarningProofs.
Local Open Scope string_scope.
Local Open Scope list_scope.
Local Open Scope nat_scope.

Theorem reports_survive :
  exists (shown : nat -> text) (field : nat -> text -> text) (name_of : nat -> test_id -> text) (suite_of : nat -> text -> list text -> text)
    (xml_field : nat -> text -> text) (xml_name : nat -> test_id -> text) (xml_filters : nat -> list text -> text),
  (forall n, (N.of_nat n < 2 ^ 64)%N -> writes 10 (shown n) (N.of_nat n)) /\
  ((forall n s, cut_field teamcity_code n (fit n s) (field n s)) /\
   (forall n id, cut_field teamcity_code n (firstn n (full_name_of (id_name id) (id_type id))) (name_of n id)) /\
   (forall n name filters, cut_field teamcity_code n (fit n (suite_name name filters)) (suite_of n name filters))) /\
  ((forall n s, cut_field xml_entities n (fit n s) (xml_field n s)) /\
   (forall n id, cut_field xml_entities n (firstn n (full_name_of (id_name id) (id_type id))) (xml_name n id)) /\
   (forall n filters, cut_field xml_entities n (fit n (filters_text filters)) (xml_filters n filters))) /\
  forall (lm : Session.limits) (fuel : nat) (file : event -> text) (duration : event -> option text) (can_open : text -> bool)
    (r : registry) (path : text) (argv : list text) (steps : list step) (code : nat) (out' : list output) (code' : nat),
  let full_name := fun id => full_name_of (id_name id) (id_type id) in
  let mm := l_max_message_length lm in let mn := l_max_test_name_length lm in
  length argv <= l_max_command_line_args lm -> acceptable argv -> asks_run (setting (read argv)) -> g_file r = None -> g_to_file r = false ->
  has_file argv = true ->
  main_steps lm fuel file duration can_open r path argv = Ok (steps, code) -> main lm fuel can_open r path argv = Ok (out', code') ->
  (console_asked lm file duration r argv -> exists colours : bool, report_colours r argv colours /\ file_keeps steps (events_of out')
     (flat_map (cut_text mm mn colours id_name id_type full_name id_tags file duration shown (l_version lm)))) /\
  (reporter_asked (teamcity_reporter lm file duration) r argv -> file_keeps steps (events_of out')
     (flat_map (service_text mm (field mm) (name_of mn) (suite_of mm) file duration shown))) /\
  (reporter_asked (xml_reporter lm file duration) r argv -> file_keeps steps (events_of out')
     (fun l => snd (drawn 0 (flat_map (xml_lines (xml_field mm) (xml_name mn) (xml_filters mm) id_tags id_fixture file duration shown (l_version lm)) l)))).
Proof.
  exists decimal, tc_field, tc_name, tc_suite, CutXml.xml_field, xml_full, CutXml.xml_filters. split; [exact decimal_reads|].
  split; [split; [apply field_made|split; [apply name_made|apply suite_made]]|]. split; [split; [apply xml_field_made|split; [apply xml_name_made|apply xml_filters_made]]|].
  cbv zeta. intros lm fuel file duration can_open r path argv steps code out' code' L ACC AR GF TF HF M M'.
  destruct (texts_survive lm fuel file duration can_open r path argv steps code out' code' L ACC AR GF TF HF M M') as (printed & args & r1 & out1 & fs & pr & su & P & C & RS & K).
  split; [|split].
  - intros CA. exists (g_with_color r1). split; [exact (colours_chosen lm file duration can_open r path argv printed args r1 out1 L P C CA)|]. intros before n after EV. destruct (K _ _ _ EV) as (done & rest & r5 & texts & ES & UC & RL & F). exists done, rest. split; [exact ES|]. split; [exact UC|].
    intros w R. rewrite (F w R). f_equal. destruct (console_registry _ _ _ _ _ _ _ _ _ _ _ L CA P C _ _ _ RL) as (c & c' & E). unfold mm, mn in E.
    destruct (events_give (l_max_message_length lm) (l_max_test_name_length lm) (l_version lm) (g_with_color r1) file duration before c) as (o & E' & KK).
    { intros I. apply (run_no_listing _ _ _ _ _ _ _ _ _ RS). rewrite EV. apply in_or_app. now left. }
    rewrite E in E'. injection E' as _ <-. exact KK.
  - intros (arg & i & SR & N & FN) before n after EV. destruct (K _ _ _ EV) as (done & rest & r5 & texts & ES & UC & RL & F). exists done, rest. split; [exact ES|]. split; [exact UC|].
    intros w R. rewrite (F w R). f_equal.
    destruct (chosen_registry lm file duration can_open r path argv printed args r1 out1 arg (teamcity_reporter lm file duration) L P C SR (ex_intro _ i FN) N) as (_ & X).
    destruct (X eq_refl) as (i' & R1 & S1). pose proof (teamcity_selected_reports lm file duration _ _ _ _ _ R1 S1 RL) as E.
    destruct (services_given (l_max_message_length lm) (l_max_test_name_length lm) file duration before) as (o & E1 & E2). unfold mm, mn in E. rewrite E in E1. injection E1 as ->. exact E2.
  - intros (arg & i & SR & N & FN) before n after EV. destruct (K _ _ _ EV) as (done & rest & r5 & texts & ES & UC & RL & F). exists done, rest. split; [exact ES|]. split; [exact UC|].
    intros w R. rewrite (F w R). f_equal.
    destruct (chosen_registry lm file duration can_open r path argv printed args r1 out1 arg (xml_reporter lm file duration) L P C SR (ex_intro _ i FN) N) as (X & _).
    destruct (X eq_refl) as (i' & R1 & S1). destruct (xml_selected_reports lm file duration _ _ _ _ _ _ R1 S1 RL) as (k & E).
    unfold mm, mn in E. apply draws_reports in E. now rewrite E.
Qed.

Lemma died_so l done rest code what : steps_in l = Some (done ++ UserCode 7 :: rest, code) -> written OutputFile done = what ->
  exists done rest, steps_in l = Some (done ++ UserCode 7 :: rest, code) /\ written OutputFile done = what /\ exists w, runs true done start w.
Proof. intros H W. exists done, rest. split; [exact H|]. split; [exact W|]. exact (crash_possible _ _ _ _ H). Qed.
Definition steps_of_run (l : list string) : list step := match steps_in l with Some (s, _) => s | None => [] end.
Lemma reports_example :
  asks ["--reporter"; "xml"; "-o"; "out"] /\ has_file (map quote ["--reporter"; "xml"; "-o"; "out"]) = true /\ g_file crashing = None /\ g_to_file crashing = false /\
  reporter_asked (xml_reporter small at_file untimed) crashing (map quote ["--reporter"; "xml"; "-o"; "out"]) /\
  asks ["--reporter"; "teamcity"; "-o"; "out"] /\ has_file (map quote ["--reporter"; "teamcity"; "-o"; "out"]) = true /\
  reporter_asked (teamcity_reporter small at_file untimed) crashing (map quote ["--reporter"; "teamcity"; "-o"; "out"]) /\
  (exists done rest, steps_in ["--reporter"; "xml"; "-o"; "out"] = Some (done ++ UserCode 7 :: rest, 1) /\
     written OutputFile done = lines_of ["<?xml version=""1.0"" encoding=""UTF-8""?>"; "";
       "<Catch2TestRun name=""demo"" rng-seed=""0"" xml-format-version=""3"" catch2-version=""1.2.snitch"" filters="""">";
       "  <TestCase name=""t"" tags="""" filename=""f"" line=""1"">"; "    <Expression success=""false"" type=""CHECK"" filename=""f"" line=""2"">";
       "      <Original>"; "        a &lt; b"; "      </Original>"; "      <Expanded>"; "        3 &gt;= 2"; "      </Expanded>"; "    </Expression>"] /\
     exists w, runs true done start w) /\
  (exists done rest, steps_in ["--reporter"; "teamcity"; "-o"; "out"] = Some (done ++ UserCode 7 :: rest, 1) /\
     written OutputFile done = lines_of ["##teamCity[testSuiteStarted name='demo']"; "##teamCity[testStarted name='t']";
       "##teamCity[testFailed name='t' message='f:2|n  CHECK(a < b), got: 3 >= 2']"] /\
     exists w, runs true done start w).
Proof.
  split; [asks_tac|]. split; [vm_compute; reflexivity|]. split; [reflexivity|]. split; [reflexivity|]. split; [exists (quote "xml"), 1; split; [vm_compute; reflexivity|split; [left; reflexivity|apply first_of; [reflexivity|vm_compute; reflexivity]]]|].
  split; [asks_tac|]. split; [vm_compute; reflexivity|]. split; [exists (quote "teamcity"), 2; split; [vm_compute; reflexivity|split; [left; reflexivity|apply first_of; [reflexivity|vm_compute; reflexivity]]]|]. split.
  - apply died_so with (done := until_code 7 (steps_of_run ["--reporter"; "xml"; "-o"; "out"])) (rest := after_code 7 (steps_of_run ["--reporter"; "xml"; "-o"; "out"])); vm_compute; reflexivity.
  - apply died_so with (done := until_code 7 (steps_of_run ["--reporter"; "teamcity"; "-o"; "out"])) (rest := after_code 7 (steps_of_run ["--reporter"; "teamcity"; "-o"; "out"])); vm_compute; reflexivity.
Qed.
