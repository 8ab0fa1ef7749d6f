(** Words used in the statements about the end of reports (C115). These speak about the registry of the model. *)
From Verif.Spec Require Import TextSpec FilterSpec CliSpec Events VerdictSpec XmlSpec TreeSpec SessionSpec ProgramSpec ShardSpec EndingSpec.
From Verif.Model Require Import Base Vector StringUtil Filter Run Session.
From Verif.Spec Require Import ProgramClaims LinkClaims FailureClaims.
Local Open Scope list_scope.

(** The tests that the filters choose are run; the last part of the report is as told by [ending], given what was reported for
    each of them; and the exit code is 0 if no test failed, and 1 otherwise. Nothing is said if there are 2^64 tests or checks. *)
Definition ends_truly (ending : list (list event) -> text -> Prop) (lm : limits) (fuel : nat) (r : registry) (argv : list text) (out : list output) (code : nat) : Prop :=
  exists (is_run : test_case -> bool) (parts : list (test_case * list event)) (before last : text),
    let told := map snd parts in
    the_chosen lm argv is_run /\ map fst parts = filter is_run (g_tests r) /\ what_happened lm fuel parts /\
    report_goes lm r argv out (before ++ last) /\
    (in_range (length told) -> in_range (checks told) -> ending told last) /\
    code = (if tests_with Failed told =? 0 then 0 else 1).
