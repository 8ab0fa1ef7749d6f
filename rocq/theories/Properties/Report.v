(** Properties C42, C43: what the XML reporter prints about a whole run. *)
From Coq Require Import NArith.
From Verif.Spec Require Import TextSpec FilterSpec EscapeSpec NumberSpec Events VerdictSpec RunSpec TreeSpec SessionSpec XmlSpec.
From Verif.Model Require Import Base Vector StringUtil Filter Run Session Reporters.
From Verif.Proofs Require Import EscapeProofs XmlProofs ReportProofs ReportExamples XmlLevel.
Local Open Scope list_scope.
Local Open Scope nat_scope.

(** ** C42. The report is an XML document *)

(** At verbosity high or full, the XML reporter prints a document (Spec/XmlSpec.v) whose single element describes the
    run: tests, in them sections, in them sections and assertions, properly nested, with their names, source locations
    and counters. The level of indentation is zero again at the end. The tests are those whose events are properly
    nested (C24): without abort, or with aborts but no two sections side by side in the same one. The texts that are
    escaped fit, those that are not have no special character ([readable]). *)
Theorem C42_run_partial :
  exists shown : nat -> text, (forall n, (N.of_nat n < 2 ^ 64)%N -> writes 10 (shown n) (N.of_nat n)) /\
  forall (lm : Session.limits) (fuel : nat) (v : verbosity) (predicate : test_id -> res bool) (tests : list test_case) (name : text)
    (filters : list text) (events : list event) (success : bool)
    (mm mn : nat) (version : text) (file : event -> text) (duration : event -> option text),
  let full_name := fun id => full_name_of (id_name id) (id_type id) in
  vlevel High <= vlevel v ->
  Forall (fun t =>
    (exists tags may should, id_tags (t_id t) = tag_string tags /\ well_formed (l_max_tag_length lm) tags /\ tagged tags may should) /\
    (plain (t_body t) \/ regular (t_body t) /\ narrow (t_body t)) /\
    nesting (t_body t) <= l_max_nested lm /\ scopes (t_body t) <= S (l_max_nested lm) /\ capturing (t_body t) <= l_max_captures lm /\ Nat.max 1 (leaves (t_body t)) <= fuel) tests ->
  run_selected_tests lm fuel v tests name filters predicate = Ok (events, success) ->
  Forall (readable full_name id_tags id_fixture file duration mm mn) events -> harmless version ->
  exists root out,
    told_run full_name id_tags file duration shown version events root /\
    xml_reports mm mn version file duration events 0 = Ok (0, out) /\ document root (concat out).
Proof. exact xml_run. Qed.
Print Assumptions C42_run_partial.

(** More generally, for all tests, regular or not, whose events are properly nested when run alone... *)
Theorem C42_nested_partial :
  exists shown : nat -> text, (forall n, (N.of_nat n < 2 ^ 64)%N -> writes 10 (shown n) (N.of_nat n)) /\
  forall (lm : Session.limits) (fuel : nat) (v : verbosity) (predicate : test_id -> res bool) (tests : list test_case) (name : text)
    (filters : list text) (events : list event) (success : bool)
    (mm mn : nat) (version : text) (file : event -> text) (duration : event -> option text),
  let full_name := fun id => full_name_of (id_name id) (id_type id) in
  vlevel High <= vlevel v ->
  Forall (fun t => forall st, run (config_of lm Full) fuel t [] = Ok st -> nested (brackets (trace st))) tests ->
  run_selected_tests lm fuel v tests name filters predicate = Ok (events, success) ->
  Forall (readable full_name id_tags id_fixture file duration mm mn) events -> harmless version ->
  exists root out,
    told_run full_name id_tags file duration shown version events root /\
    xml_reports mm mn version file duration events 0 = Ok (0, out) /\ document root (concat out).
Proof. exact orderly_document. Qed.
Print Assumptions C42_nested_partial.

(** ... and for all tests at all, and all texts: whenever the report is made, its level at the end is the number of
    sections that were started and not ended; so it is zero if and only if they have all ended. *)
Theorem C42_level :
  forall (lm : Session.limits) (fuel : nat) (v : verbosity) (tests : list test_case) (name : text) (filters : list text)
    (predicate : test_id -> res bool) (events : list event) (success : bool)
    (mm mn : nat) (version : text) (file : event -> text) (duration : event -> option text) (level : nat) (out : list text),
  vlevel High <= vlevel v ->
  run_selected_tests lm fuel v tests name filters predicate = Ok (events, success) ->
  xml_reports mm mn version file duration events 0 = Ok (level, out) ->
  level + ends_in (fun _ => true) (brackets events) = starts_in (fun _ => true) (brackets events).
Proof. exact final_level. Qed.
Print Assumptions C42_level.

Example C42_level_example :
  match run_selected_tests small 5 Full [failing_test] (quote "p") [] (fun _ => Ok true) with
  | Ok (events, _) => (starts_in (fun _ => true) (brackets events), ends_in (fun _ => true) (brackets events))
  | _ => (0, 0)
  end = (2, 1) /\
  match report_of failing_test with Ok (level, _) => Some level | _ => None end = Some 1.
Proof. split; vm_compute; reflexivity. Qed.

(** The same as in the first theorem for any sequence of events with the structure of a run... *)
Theorem C42_document_partial :
  exists shown : nat -> text, (forall n, (N.of_nat n < 2 ^ 64)%N -> writes 10 (shown n) (N.of_nat n)) /\
  forall (mm mn : nat) (version : text) (file : event -> text) (duration : event -> option text) (events : list event) (root : node),
  let full_name := fun id => full_name_of (id_name id) (id_type id) in
  told_run full_name id_tags file duration shown version events root ->
  Forall (readable full_name id_tags id_fixture file duration mm mn) events -> harmless version ->
  exists out, xml_reports mm mn version file duration events 0 = Ok (0, out) /\ document root (concat out).
Proof. exact xml_document. Qed.
Print Assumptions C42_document_partial.

(** ... and for a listing. *)
Theorem C42_listing :
  exists shown : nat -> text, (forall n, (N.of_nat n < 2 ^ 64)%N -> writes 10 (shown n) (N.of_nat n)) /\
  forall (mm mn : nat) (version : text) (file : event -> text) (duration : event -> option text) (tests : list (test_id * nat)) (events : list event) (root : node),
  let full_name := fun id => full_name_of (id_name id) (id_type id) in
  (events, root) = told_listing full_name id_tags id_fixture file shown tests ->
  Forall (readable full_name id_tags id_fixture file duration mm mn) events ->
  exists out, xml_reports mm mn version file duration events 0 = Ok (0, out) /\ document root (concat out).
Proof. exact xml_listing. Qed.
Print Assumptions C42_listing.

(** All the hypotheses hold of a test with a failed check and sections within a section, whose texts have special
    characters. *)
Example C42_example :
  match run_selected_tests small 5 Full [nested_test] (quote "p") [] (fun _ => Ok true) with
  | Ok (events, _) =>
    Forall (readable (fun id => full_name_of (id_name id) (id_type id)) id_tags id_fixture (fun _ => quote "f") (fun _ => None) 100 20) events /\
    length events = 13
  | Err _ => False
  end /\
  plain (t_body nested_test) /\ nesting (t_body nested_test) = 2 /\ leaves (t_body nested_test) = 2 /\ capturing (t_body nested_test) = 0 /\
  match report_of nested_test with
  | Ok (0, out) => exists a b, concat out = a ++ quote "      <Expression success=" ++ [ascii_of_nat 34] ++ quote "false" ++ [ascii_of_nat 34] ++ b
  | _ => False
  end.
Proof. exact nested_readable. Qed.

(** The hypotheses on messages are needed: the message of SKIP is not escaped... *)
Theorem C42_refuted_skip :
  exists out, report_of skipping_test = Ok (0, out) /\ forall root, ~ document root (concat out).
Proof. exact skip_document. Qed.
Print Assumptions C42_refuted_skip.

(** ... and so are those on aborts: some element is not closed. *)
Theorem C42_refuted_abort : exists level out, report_of failing_test = Ok (S level, out).
Proof. exact abort_level. Qed.
Print Assumptions C42_refuted_abort.

(** ** C43. Counters *)

(** In the events of every run, whatever the tests and the verbosity, the failures are among the assertions and the
    tests that failed, failed as allowed, or were skipped, are among the tests run... *)
Theorem C43_bounds :
  forall (lm : Session.limits) (fuel : nat) (v : verbosity) (predicate : test_id -> res bool) (tests : list test_case) (name : text)
    (filters : list text) (events : list event) (success : bool),
  run_selected_tests lm fuel v tests name filters predicate = Ok (events, success) ->
  Forall (fun e =>
    match e with
    | SectionEnded _ _ c | TestCaseEnded _ _ c _ => n_failed c + n_allowed c <= n_all c
    | TestRunEnded _ _ run failed allowed skipped c _ => n_failed c + n_allowed c <= n_all c /\ failed + allowed + skipped <= run
    | _ => True
    end) events.
Proof. exact (fun lm fuel v predicate tests name filters events success => run_sound lm fuel v tests name filters predicate events success). Qed.
Print Assumptions C43_bounds.

(** ... so the subtractions made by the XML reporter never wrap around: it reports each of these events, within an
    element, without error. *)
Theorem C43_no_wrap :
  forall (lm : Session.limits) (fuel : nat) (v : verbosity) (predicate : test_id -> res bool) (tests : list test_case) (name : text)
    (filters : list text) (events : list event) (success : bool)
    (mm mn : nat) (version : text) (file : event -> text) (duration : event -> option text),
  run_selected_tests lm fuel v tests name filters predicate = Ok (events, success) ->
  Forall (fun e => forall level, exists level' out, xml_report mm mn version file duration e (S level) = Ok (level', out)) events.
Proof. exact xml_no_wrap. Qed.
Print Assumptions C43_no_wrap.

(** In the summary of a run at full verbosity, what is left without the failures is the number of assertions reported
    as succeeded, and the number of tests that ended with success or skipped. *)
Theorem C43_totals :
  forall (lm : Session.limits) (fuel : nat) (predicate : test_id -> res bool) (tests : list test_case) (name : text)
    (filters : list text) (events : list event) (success : bool),
  run_selected_tests lm fuel Full tests name filters predicate = Ok (events, success) ->
  exists name' filters' run failed allowed skipped c,
    hd_error (rev events) = Some (TestRunEnded name' filters' run failed allowed skipped c success) /\
    n_failed c + n_allowed c + length (filter (fun e => match e with AssertionSucceeded _ _ _ _ _ => true | _ => false end) events) = n_all c /\
    failed + allowed + length (filter (fun x => match snd x with Success | Skipped => true | _ => false end) (ended events)) = run.
Proof. exact (fun lm fuel predicate tests name filters events success => run_totals lm fuel tests name filters predicate events success). Qed.
Print Assumptions C43_totals.

(** This is false of sections: the counters of a section that contains others are those of the last pass only. *)
Theorem C43_sections_refuted :
  exists before inside c after,
    run_selected_tests small 5 Full [nested_test] (quote "p") [] (fun _ => Ok true) =
      Ok (before ++ [SectionStarted (in_test 2)] ++ inside ++ [SectionEnded (in_test 2) false c] ++ after, false) /\
    n_all c = 1 /\ length (filter is_assertion inside) = 2.
Proof. exact section_counts. Qed.
Print Assumptions C43_sections_refuted.

Example C43_example :
  exists events, run_selected_tests small 5 Full [nested_test; skipping_test] (quote "p") [] (fun _ => Ok true) = Ok (events, false) /\
    hd_error (rev events) = Some (TestRunEnded (quote "p") [] 2 1 0 1 (mkcounts 3 2 0) false) /\
    length (filter is_assertion events) = 3 /\ length (ended events) = 2.
Proof. exact two_tests. Qed.
