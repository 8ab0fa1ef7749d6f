(** Property C104: tests added to a program, or removed from it. *)
From Coq Require Import Lia.
From Verif.Spec Require Import TextSpec FilterSpec PrintSpec CliSpec Events VerdictSpec TreeSpec SessionSpec ProgramSpec ShardSpec ExpressionSpec.
From Verif.Model Require Import Base Vector StringUtil Print Filter Run Cli File Session Reporters Program.
From Verif.Spec Require Import ProgramClaims LinkClaims.
From Verif.Proofs Require Import ReportExamples ProgramFacts LinkProofs LinkExamples AddProofs AddExamples.
Local Open Scope string_scope.
Local Open Scope list_scope.
Local Open Scope nat_scope.

(** ** C104. Adding tests to a program changes nothing for the others (Spec/LinkClaims.v). *)

(** If the filters do not choose the tests that are added, a run has the same events, prints the same text and returns the same
    exit code; it also stops in the same way if it does not complete. *)
Theorem C104_unselected :
  forall (lm : Session.limits) (fuel : nat) (file : event -> text) (duration : event -> option text) (can_open : text -> bool)
    (extra : test_case -> bool) (r r' : registry) (path : text) (argv : list text),
  with_extra extra r r' -> length argv <= l_max_command_line_args lm -> acceptable argv -> asks_run (setting (read argv)) ->
  Forall (fun t => extra t = true -> not_chosen lm argv t) (g_tests r') ->
  main lm fuel can_open r' path argv = main lm fuel can_open r path argv /\
  main_program lm fuel file duration can_open r' path argv = main_program lm fuel file duration can_open r path argv.
Proof. exact unselected_ignored. Qed.
Print Assumptions C104_unselected.

(** If the larger program completes, so does the smaller one. Its events are those of the larger one without what is reported
    about the tests that were added, and its last event has the sums for the others. If the larger one succeeds, so does it. *)
Theorem C104_added :
  forall (lm : Session.limits) (fuel : nat) (can_open : text -> bool) (extra : test_case -> bool) (r r' : registry) (path : text) (argv : list text)
    (out' : list output) (code' : nat),
  with_extra extra r r' -> length argv <= l_max_command_line_args lm -> acceptable argv -> asks_run (setting (read argv)) ->
  main lm fuel can_open r' path argv = Ok (out', code') ->
  exists (out : list output) (code : nat) (v : verbosity) (name : text) (is_run : test_case -> bool) (parts : list (test_case * list event))
    (before after : list output) (k : option nat),
    main lm fuel can_open r path argv = Ok (out, code) /\ (code' = 0 -> code = 0) /\
    the_chosen lm argv is_run /\ map fst parts = filter is_run (g_tests r') /\ Forall about_this_test parts /\
    out' = before ++ map (Reported k) (filter (Events.visible v) (events_of_run name (filters (read argv)) (map snd parts))) ++ after /\
    out = before ++ map (Reported k) (filter (Events.visible v) (events_of_run name (filters (read argv)) (map snd (filter (fun x => negb (extra (fst x))) parts)))) ++ after.
Proof. exact added_main. Qed.
Print Assumptions C104_added.

(** If the smaller program completes, and each of the tests that are added completes when it is run alone, so does the larger
    program. *)
Theorem C104_completes :
  forall (lm : Session.limits) (fuel : nat) (can_open : text -> bool) (extra : test_case -> bool) (r r' : registry) (path : text) (argv : list text)
    (out : list output) (code : nat),
  with_extra extra r r' -> length argv <= l_max_command_line_args lm -> acceptable argv -> asks_run (setting (read argv)) ->
  Forall (fun t => extra t = true -> (exists tags, id_tags (t_id t) = tag_string tags /\ well_formed (l_max_tag_length lm) tags) /\
            length (full_name_of (id_name (t_id t)) (id_type (t_id t))) <= l_max_test_name_length lm /\
            exists st, run (config_of lm Full) fuel t [] = Ok st) (g_tests r') ->
  main lm fuel can_open r path argv = Ok (out, code) -> exists out' code', main lm fuel can_open r' path argv = Ok (out', code').
Proof. exact added_completes. Qed.
Print Assumptions C104_completes.

(** The text of the report of a run, by each of the reporters of the library: there are a beginning, a text for each test, and an
    end for each summary, such that the report of any program with these reporters, whatever its tests, is the beginning, the
    texts of the tests that are run, in order, and the end for the summary of their verdicts. Partial: with the XML reporter, for
    tests in which no section is left open. *)
Theorem C104_texts_partial :
  forall (lm : Session.limits) (fuel : nat) (file : event -> text) (duration : event -> option text) (can_open : text -> bool)
    (r : registry) (path : text) (argv : list text),
  length argv <= l_max_command_line_args lm -> acceptable argv -> asks_run (setting (read argv)) -> g_to_file r = false ->
  console_asked lm file duration r argv \/ reporter_asked (teamcity_reporter lm file duration) r argv \/ reporter_asked (xml_reporter lm file duration) r argv ->
  exists (is_run : test_case -> bool) (verdicts : test_case -> list (test_id * counts * case_state)) (name before : text) (piece : test_case -> text) (after : event -> text),
    the_chosen lm argv is_run /\
    forall (r' : registry) (out : list output) (code : nat),
    same_but_tests r r' -> (reporter_asked (xml_reporter lm file duration) r argv -> Forall (ends_sections lm fuel) (g_tests r')) ->
    main_program lm fuel file duration can_open r' path argv = Ok (out, code) ->
    let tests := filter is_run (g_tests r') in
    report_goes lm r argv out (before ++ flat_map piece tests ++ after (summary_of name (filters (read argv)) (flat_map verdicts tests))).
Proof. exact texts_shape. Qed.
Print Assumptions C104_texts_partial.

(** With the XML reporter, a failed check after a section that stays open (C40) changes the indentation of what is reported about
    the tests after it: a line of the smaller report is not in the larger one. *)
Theorem C104_xml_refuted :
  exists (lm : Session.limits) (fuel : nat) (file : event -> text) (duration : event -> option text) (can_open : text -> bool)
    (extra : test_case -> bool) (r r' : registry) (argv : list text) (out out' : list output) (code code' : nat),
  with_extra extra r r' /\ reporter_asked (xml_reporter lm file duration) r argv /\
  main_program lm fuel file duration can_open r (quote "demo") argv = Ok (out, code) /\
  main_program lm fuel file duration can_open r' (quote "demo") argv = Ok (out', code') /\
  let line := ascii_of_nat 10 :: quote "  <TestCase name=""m""" in
  occurs line (console_text out) /\ ~ occurs line (console_text out').
Proof. exact xml_depends_on_others. Qed.
Print Assumptions C104_xml_refuted.

(** A program of three tests, and the same without the one tagged [x]: with a filter that excludes this tag nothing changes. *)
Example C104_unselected_case :
  with_extra is_extra fewer library /\ length (g_tests library) = 3 /\ length (g_tests fewer) = 2 /\
  Forall (fun t => is_extra t = true -> not_chosen small (map quote ["~[x]"]) t) (g_tests library) /\ asks ["~[x]"] /\
  said_by library ["~[x]"] = said_by fewer ["~[x]"] /\ said_by library ["~[x]"] <> None.
Proof. exact fewer_example. Qed.
(** Without this filter the reports of the larger program are longer, with each of the reporters; both programs succeed with a
    filter that chooses only the test that was added, and the larger one fails without filters. *)
Example C104_added_case :
  Forall (fun t => is_extra t = true -> (exists tags, id_tags (t_id t) = tag_string tags /\ well_formed (l_max_tag_length small) tags) /\
            length (full_name_of (id_name (t_id t)) (id_type (t_id t))) <= l_max_test_name_length small /\
            exists st, run (config_of small Full) 5 t [] = Ok st) (g_tests library) /\
  Forall (fun argv => asks argv /\ length (map quote argv) <= l_max_command_line_args small) orders_tried /\
  Forall (fun argv => exists a b, said_by fewer argv = Some a /\ said_by library argv = Some b /\ length a < length b /\ 100 <= length a) orders_tried /\
  code_of library ["[x]"] = Some 0 /\ code_of fewer ["[x]"] = Some 0 /\ code_of library [] = Some 1.
Proof. exact more_example. Qed.
