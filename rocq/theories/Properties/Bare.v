(** Property C74: builds without exceptions. *)
From Verif.Spec Require Import TextSpec FilterSpec Events StopSpec BareSpec.
From Verif.Model Require Import Base Vector StringUtil Filter Run Session Bare.
From Verif.Proofs Require Import BareProofs.
Local Open Scope string_scope.
Local Open Scope list_scope.
Local Open Scope nat_scope.

(** ** C74. A build without exceptions runs the tests as a build with exceptions, until a check aborts the test *)
Theorem C74_case :
  forall (cf : config) (fuel : nat) (t : test_case) (before before' : list event) (st : state),
  exceptionless (t_body t) -> run cf fuel t before = Ok st ->
  exists st' (terminated : bool) E E', bare_run cf fuel t before' = Ok (st', terminated) /\
    trace st = before ++ E /\ trace st' = before' ++ E' /\
    if terminated then cut_case E E' else same_case (cf_verbosity cf) E E' /\ status st' = status st /\
      asserts st = (if is_skipped (status st) then asserts st' else one_more (asserts st')).
Proof. exact bare_run_same. Qed.
Print Assumptions C74_case.

(** With the macros that do not abort, the program is not terminated. *)
Theorem C74_run :
  forall (lm : limits) (fuel : nat) (v : verbosity) (tests : list test_case) (name : text) (filters : list text)
         (predicate : test_id -> res bool) (events : list event) (success : bool),
  Forall (fun t => exceptionless (t_body t)) tests ->
  run_selected_tests lm fuel v tests name filters predicate = Ok (events, success) ->
  exists bare_events result, bare_run_selected_tests lm fuel v tests name filters predicate = Ok (bare_events, result) /\
    same_run v success events bare_events result /\ (Forall (fun t => lenient (t_body t)) tests -> result = Some success).
Proof. exact bare_selected. Qed.
Print Assumptions C74_run.

(** The first test has a check that itself runs checks; the second fails a REQUIRE; the third is not reached. *)
Definition outer : test_case :=
  mktest (mkid (quote "a") [] [] []) 1
    (InSection (mksec (quote "s") [] 2)
       (Check 3 (IsTrue (fun _ => Message (quote "x")) (fun _ => false)) false
          (Check 4 (IsTrue (fun _ => Message (quote "y")) (fun _ => true)) false Nil Nil) Nil) Nil).
Definition required : test_case :=
  mktest (mkid (quote "b") [] [] []) 6
    (InSection (mksec (quote "s") [] 7)
       (Check 8 (IsTrue (fun _ => Message (quote "z")) (fun _ => false)) true Nil (Act 9 Nil)) Nil).
Definition demo_limits : limits := mklimits 5 5 40 60 20 40 8 32 3 12 false (quote "1.2").
Definition demo (v : verbosity) (tests : list test_case) :=
  bare_run_selected_tests demo_limits 5 v tests (quote "demo") [] (fun _ => Ok true).

Example C74_example :
  Forall (fun t => exceptionless (t_body t)) [outer; required; outer] /\
  (exists events, run_selected_tests demo_limits 5 High [outer; required; outer] (quote "demo") [] (fun _ => Ok true) = Ok (events, false)) /\
  demo High [outer; required; outer] =
    Ok ([TestRunStarted (quote "demo") []; TestCaseStarted (t_id outer) 1; SectionStarted (mksec (quote "s") [] 2);
         AssertionFailed (t_id outer) [mksec (quote "s") [] 2] [] (mkloc 3 Exact) (Message (quote "x")) false false;
         SectionEnded (mksec (quote "s") [] 2) false (mkcounts 2 1 0);
         TestCaseEnded (t_id outer) 1 (mkcounts 2 1 0) Failed;
         TestCaseStarted (t_id required) 6; SectionStarted (mksec (quote "s") [] 7);
         AssertionFailed (t_id required) [mksec (quote "s") [] 7] [] (mkloc 8 Exact) (Message (quote "z")) false false], None) /\
  lenient (t_body outer) /\ ~ lenient (t_body required) /\
  demo Normal [outer; outer] =
    Ok ([TestRunStarted (quote "demo") [];
         AssertionFailed (t_id outer) [mksec (quote "s") [] 2] [] (mkloc 3 Exact) (Message (quote "x")) false false;
         AssertionFailed (t_id outer) [mksec (quote "s") [] 2] [] (mkloc 3 Exact) (Message (quote "x")) false false;
         TestRunEnded (quote "demo") [] 2 2 0 0 (mkcounts 4 2 0) false], Some false).
Proof.
  split; [repeat constructor|]. split; [eexists; vm_compute; reflexivity|]. split; [vm_compute; reflexivity|].
  split; [cbn; tauto|]. split; [cbn; intros [[[=] _] _]|vm_compute; reflexivity].
Qed.
