(** Words used in the statements about the order in which the files of a program are linked (C103). These speak about the
    registry of the model. *)
From Coq Require Import Permutation.
From Verif.Spec Require Import TextSpec FilterSpec CliSpec Events VerdictSpec TreeSpec SessionSpec ProgramSpec ShardSpec.
From Verif.Model Require Import Base Vector StringUtil Filter Run Session.
From Verif.Spec Require Import ProgramClaims.
Local Open Scope string_scope.
Local Open Scope list_scope.

(** Two programs that differ only in their tests; and in the order in which these are registered. *)
Definition same_but_tests (r r' : registry) : Prop :=
  g_reporters r' = g_reporters r /\ g_verbose r' = g_verbose r /\ g_with_color r' = g_with_color r /\
  g_reporter r' = g_reporter r /\ g_file r' = g_file r /\ g_to_file r' = g_to_file r /\ g_storage r' = g_storage r.
Definition relinked (r r' : registry) : Prop :=
  Permutation (g_tests r) (g_tests r') /\ same_but_tests r r'.

(** All that is reported about one test: when it is listed, and when it is run. *)
Definition about_one_test (part : list event) : Prop :=
  exists id line, part = [TestCaseListed id line] \/
    exists body c s, part = [TestCaseStarted id line] ++ body ++ [TestCaseEnded id line c s] /\ Forall (fun e => inner e = true) body.

(** The same events, but for the order of the tests: the first and the last events are the same, and so is all that is
    reported about each test. At lower verbosities some events are missing in both. *)
Definition same_but_order (l l' : list event) : Prop :=
  exists (v : verbosity) (first last : event) (parts parts' : list (list event)),
    Forall about_one_test parts /\ Permutation parts parts' /\
    l = filter (Events.visible v) ([first] ++ List.concat parts ++ [last]) /\
    l' = filter (Events.visible v) ([first] ++ List.concat parts' ++ [last]).

(** The option --reporter asks for this reporter. *)
Definition reporter_asked (p : reporter) (r : registry) (argv : list text) : Prop :=
  exists arg i, setting (read argv) (quote "--reporter") = Some (Some arg) /\ names arg (r_name p) /\ first_named (g_reporters r) i p.

(** As many sections are reported to end as to start, when this test is run. *)
Definition ends_sections (lm : limits) (fuel : nat) (t : test_case) : Prop :=
  forall st, run (config_of lm Full) fuel t [] = Ok st ->
    starts_in (fun _ => true) (brackets (trace st)) = ends_in (fun _ => true) (brackets (trace st)).

(** The second program has the tests of the first and those that are [extra]. *)
Definition with_extra (extra : test_case -> bool) (r r' : registry) : Prop :=
  g_tests r = filter (fun t => negb (extra t)) (g_tests r') /\ same_but_tests r r'.

(** A test, and all that is reported when it is run. *)
Definition about_this_test (x : test_case * list event) : Prop :=
  exists body c s, snd x = [TestCaseStarted (t_id (fst x)) (t_line (fst x))] ++ body ++ [TestCaseEnded (t_id (fst x)) (t_line (fst x)) c s] /\
    Forall (fun e => inner e = true) body.

(** The events of a run: the first, all that is reported about each test, and the last, which has the sums. *)
Definition events_of_run (name : text) (fs : list text) (parts : list (list event)) : list event :=
  [TestRunStarted name fs] ++ List.concat parts ++ [summary_of name fs (ended (List.concat parts))].

(** The tests that the filters of this command line choose. Nothing is said of tests with ill-formed tags or too long names. *)
Definition the_chosen (lm : limits) (argv : list text) (is_run : test_case -> bool) : Prop :=
  forall t tags, id_tags (t_id t) = tag_string tags -> well_formed (l_max_tag_length lm) tags ->
    length (full_name_of (id_name (t_id t)) (id_type (t_id t))) <= l_max_test_name_length lm ->
    (is_run t = true <-> chosen (full_name_of (id_name (t_id t)) (id_type (t_id t))) tags (filters (read argv))).

(** A test whose tags are well-formed and whose name is not too long, and that the filters of this command line do not choose. *)
Definition not_chosen (lm : limits) (argv : list text) (t : test_case) : Prop :=
  exists tags, id_tags (t_id t) = tag_string tags /\ well_formed (l_max_tag_length lm) tags /\
    length (full_name_of (id_name (t_id t)) (id_type (t_id t))) <= l_max_test_name_length lm /\
    ~ chosen (full_name_of (id_name (t_id t)) (id_type (t_id t))) tags (filters (read argv)).
