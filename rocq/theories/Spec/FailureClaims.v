(** Words used in the statements about failed checks (C105). These speak about the registry of the model. *)
From Verif.Spec Require Import TextSpec FilterSpec CliSpec Events VerdictSpec XmlSpec TreeSpec SessionSpec ProgramSpec ShardSpec FailureSpec.
From Verif.Model Require Import Base Vector StringUtil Filter Run Session.
From Verif.Spec Require Import ProgramClaims LinkClaims.
Local Open Scope list_scope.

(** Each of these tests, and what happened when it was run. *)
Definition what_happened (lm : limits) (fuel : nat) (parts : list (test_case * list event)) : Prop :=
  Forall (fun p => exists st, run (config_of lm Full) fuel (fst p) [] = Ok st /\ trace st = snd p) parts.

(** In one of these tests a check failed, and this was neither expected nor allowed by the tags of the test. *)
Definition a_check_failed (parts : list (test_case * list event)) : Prop :=
  exists p e, In p parts /\ In e (snd p) /\ says e = Failed.

(** The tests that the filters choose are run; the report is made of one text for each event reported, and the one for a failed
    check shows it; no failed check is left out; and the exit code is 1 exactly if there was one. *)
Definition every_failure_is_shown (shown : event -> text -> Prop) (lm : limits) (fuel : nat) (r : registry) (argv : list text) (out : list output) (code : nat) : Prop :=
  exists (v : verbosity) (name : text) (is_run : test_case -> bool) (parts : list (test_case * list event)) (pieces : list text),
    let reported := filter (Events.visible v) (events_of_run name (filters (read argv)) (map snd parts)) in
    the_chosen lm argv is_run /\ map fst parts = filter is_run (g_tests r) /\ what_happened lm fuel parts /\
    report_goes lm r argv out (List.concat pieces) /\
    Forall2 (fun e p => says e = Failed -> in_range (failure_line e) -> shown e p) reported pieces /\
    (forall p e, In p parts -> In e (snd p) -> says e = Failed -> In e reported) /\
    (code = 0 \/ code = 1) /\ (code = 1 <-> a_check_failed parts).
