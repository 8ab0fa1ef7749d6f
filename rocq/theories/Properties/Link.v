(** Property C103: the order in which the files of a program are linked. *)
From Coq Require Import Permutation Lia.
From Verif.Spec Require Import TextSpec FilterSpec PrintSpec CliSpec Events VerdictSpec TreeSpec SessionSpec ProgramSpec DeclareSpec StreamSpec.
From Verif.Model Require Import Base Vector StringUtil Print Filter Run Cli File Session Reporters Program Declare.
From Verif.Spec Require Import ProgramClaims LinkClaims.
From Verif.Proofs Require Import ReportExamples ProgramFacts LinkProofs LinkTags LinkTexts LinkExamples.
Local Open Scope string_scope.
Local Open Scope list_scope.
Local Open Scope nat_scope.

(** ** C103. The tests of a program are registered in the order in which its files are linked, which is not specified. *)

(** The same tests are registered in any order of the declarations, or registration fails in all orders. *)
Theorem C103_registered :
  forall (c : compiler) (max_tests max_name : nat) (ds ds' : list (declaration prog)), Permutation ds ds' -> Forall (declarable c) ds ->
  (forall tests, declare_all c max_tests max_name [] ds = Ok tests ->
     exists tests', declare_all c max_tests max_name [] ds' = Ok tests' /\ Permutation tests tests') /\
  (forall e, declare_all c max_tests max_name [] ds = Err e -> declare_all c max_tests max_name [] ds' = Err e).
Proof. exact declared_perm. Qed.
Print Assumptions C103_registered.

(** If one program completes, so does the other, with the same exit code and the same events but for the order of the tests
    (Spec/LinkClaims.v), for any command line without --list-tags; this includes runs, lists of tests, and errors. *)
Theorem C103_events :
  forall (lm : Session.limits) (fuel : nat) (can_open : text -> bool) (r r' : registry) (path : text) (argv : list text) (out : list output) (code : nat),
  relinked r r' -> length argv <= l_max_command_line_args lm -> setting (read argv) (quote "--list-tags") = None ->
  main lm fuel can_open r path argv = Ok (out, code) ->
  exists (before after : list output) (k : option nat) (events events' : list event) (out' : list output),
    main lm fuel can_open r' path argv = Ok (out', code) /\
    out = before ++ map (Reported k) events ++ after /\ out' = before ++ map (Reported k) events' ++ after /\
    (events = events' \/ same_but_order events events').
Proof. exact main_perm. Qed.
Print Assumptions C103_events.

(** With --list-tags as well, if both complete. The tags are well-formed. *)
Theorem C103_tags_partial :
  forall (lm : Session.limits) (fuel : nat) (can_open : text -> bool) (r r' : registry) (path : text) (argv : list text)
    (out : list output) (code : nat) (out' : list output) (code' : nat),
  relinked r r' -> length argv <= l_max_command_line_args lm ->
  Forall (fun t => exists tags, id_tags (t_id t) = tag_string tags /\ well_formed (l_max_tag_length lm) tags) (g_tests r) ->
  main lm fuel can_open r path argv = Ok (out, code) -> main lm fuel can_open r' path argv = Ok (out', code') ->
  code' = code /\ exists (before after : list output) (k : option nat) (events events' : list event),
    out = before ++ map (Reported k) events ++ after /\ out' = before ++ map (Reported k) events' ++ after /\
    (events = events' \/ same_but_order events events').
Proof. exact main_tags. Qed.
Print Assumptions C103_tags_partial.

(** One may complete while the other reads a destroyed buffer. *)
Theorem C103_tags_refuted :
  exists (lm : Session.limits) (r r' : registry) (argv : list text), relinked r r' /\
  Forall (fun t => exists tags, id_tags (t_id t) = tag_string tags /\ well_formed (l_max_tag_length lm) tags) (g_tests r) /\
  forall fuel can_open, (exists out, main lm fuel can_open r (quote "demo") argv = Ok (out, 0)) /\ main lm fuel can_open r' (quote "demo") argv = Err UB.
Proof. exact tags_depend_on_order. Qed.
Print Assumptions C103_tags_refuted.

(** The text of the report of a run, by each of the reporters of the library, is made of a beginning, a text for each of the
    tests that are run, and an end; these are the same in both programs. Partial: with the XML reporter, for tests in which no
    section is left open. *)
Theorem C103_texts_partial :
  forall (lm : Session.limits) (fuel : nat) (file : event -> text) (duration : event -> option text) (can_open : text -> bool)
    (r r' : registry) (path : text) (argv : list text) (out : list output) (code : nat),
  relinked r r' -> length argv <= l_max_command_line_args lm -> acceptable argv -> asks_run (setting (read argv)) -> g_to_file r = false ->
  (console_asked lm file duration r argv \/ reporter_asked (teamcity_reporter lm file duration) r argv \/
   (reporter_asked (xml_reporter lm file duration) r argv /\ Forall (ends_sections lm fuel) (g_tests r))) ->
  main_program lm fuel file duration can_open r path argv = Ok (out, code) ->
  exists (out' : list output) (is_run : test_case -> bool) (text_about : test_case -> text) (before after : text),
    main_program lm fuel file duration can_open r' path argv = Ok (out', code) /\
    report_goes lm r argv out (before ++ flat_map text_about (filter is_run (g_tests r)) ++ after) /\
    report_goes lm r' argv out' (before ++ flat_map text_about (filter is_run (g_tests r')) ++ after).
Proof. exact texts_perm. Qed.
Print Assumptions C103_texts_partial.

(** In general the XML reports even differ in length: what follows an aborted section is indented more. *)
Theorem C103_xml_refuted :
  exists (lm : Session.limits) (fuel : nat) (file : event -> text) (duration : event -> option text) (can_open : text -> bool)
    (r r' : registry) (argv : list text) (out out' : list output) (code : nat),
  relinked r r' /\ reporter_asked (xml_reporter lm file duration) r argv /\
  main_program lm fuel file duration can_open r (quote "demo") argv = Ok (out, code) /\
  main_program lm fuel file duration can_open r' (quote "demo") argv = Ok (out', code) /\
  length (console_text out) <> length (console_text out').
Proof. exact xml_depends_on_order. Qed.
Print Assumptions C103_xml_refuted.

Example C103_example :
  relinked library backwards /\ Forall (ends_sections small 5) (g_tests library) /\
  Forall (fun t => exists tags, id_tags (t_id t) = tag_string tags /\ well_formed (l_max_tag_length small) tags) (g_tests library) /\
  Forall (fun argv => asks argv /\ length (map quote argv) <= l_max_command_line_args small) orders_tried /\
  console_asked small at_file untimed library (map quote ["-v"; "high"]) /\
  reporter_asked (teamcity_reporter small at_file untimed) library (map quote ["--reporter"; "teamcity"]) /\
  reporter_asked (xml_reporter small at_file untimed) library (map quote ["--reporter"; "xml"; "-o"; "f"]) /\
  (* Both complete, and say different things of the same length. *)
  Forall (fun argv => exists a b, said_by library argv = Some a /\ said_by backwards argv = Some b /\ a <> b /\ length a = length b /\ 100 <= length a) orders_tried /\
  said_by library ["--list-tags"] = said_by backwards ["--list-tags"] /\ said_by library ["--list-tags"] <> None.
Proof. exact orders_example. Qed.
