(** Builds without exceptions (C74; README.md:1002-1012): what differs from a build with exceptions.
    No reference to the model. *)
From Coq Require Import Arith Ascii String Bool List.
From Verif.Spec Require Import TextSpec FilterSpec Events StopSpec.
Import ListNotations.
Local Open Scope list_scope.

(** Test bodies that can be compiled without exceptions: they throw nothing, catch nothing, and do not use the macros
    that check exceptions, which are not defined. *)
Fixpoint exceptionless (p : prog) : Prop :=
  match p with
  | Nil => True
  | Act _ k | Skip _ _ _ k => exceptionless k
  | Check _ (IsTrue _ _) _ e k => exceptionless e /\ exceptionless k
  | InSection _ b k | Capture _ b k => exceptionless b /\ exceptionless k
  | Check _ _ _ _ _ | Throw _ _ _ | Catch _ _ _ _ => False
  end.

(** Test bodies that use only the macros which do not abort: CHECK*, SUCCEED, FAIL_CHECK, SKIP_CHECK. *)
Fixpoint lenient (p : prog) : Prop :=
  match p with
  | Nil => True
  | Act _ k | Throw _ _ k => lenient k
  | Skip _ _ abort k => abort = false /\ lenient k
  | Check _ _ abort e k => abort = false /\ lenient e /\ lenient k
  | InSection _ b k | Capture _ b k | Catch _ _ b k => lenient b /\ lenient k
  end.

Definition one_more (c : counts) : counts := mkcounts (S (n_all c)) (n_failed c) (n_allowed c).

Section Bare.
Context {ID : Type}.
Notation event := (event ID).
Variable v : verbosity.

(** Without exceptions, the location of an assertion is always said to be exact. *)
Definition exactly (e : event) : event :=
  match e with
  | AssertionFailed id sections captures l what expected allowed =>
    AssertionFailed id sections captures (mkloc (loc_line l) Exact) what expected allowed
  | AssertionSucceeded id sections captures l what => AssertionSucceeded id sections captures (mkloc (loc_line l) Exact) what
  | _ => e
  end.

(** The two lists of events of one test that ran to its end, with and without exceptions: the first has an
    additional assertion, near the end, which says that no exception was caught (unless the test was skipped). *)
Inductive same_case : list event -> list event -> Prop :=
| Same_skipped events id line c :
    let all := events ++ filter (visible v) [TestCaseEnded id line c Skipped] in
    same_case all (map exactly all)
| Same_noted events id line conclusion c s :
    s <> Skipped -> Forall (aftermath true) conclusion -> length conclusion <= 1 ->
    same_case
      (events ++ filter (visible v) [AssertionSucceeded id [] [] (mkloc line Exact) (Message (quote "no exception caught"))] ++
       conclusion ++ filter (visible v) [TestCaseEnded id line (one_more c) s])
      (map exactly events ++ conclusion ++ filter (visible v) [TestCaseEnded id line c s]).

(** Those of a test that is aborted: without exceptions nothing comes after the check or skip that aborts. *)
Definition cut_case (with_exceptions without : list event) : Prop :=
  exists events should rest, with_exceptions = events ++ rest /\ without = map exactly events /\ Forall (aftermath should) rest.

(** Those of a whole run, and its result ([None] if the program was terminated). *)
Inductive same_run (success : bool) : list event -> list event -> option bool -> Prop :=
| Same_run name filters cases bare_cases run failed allowed skipped c c' :
    Forall2 same_case cases bare_cases ->
    length cases = run ->
    c = mkcounts (n_all c' + (run - skipped)) (n_failed c') (n_allowed c') ->
    same_run success
      (filter (visible v) [TestRunStarted name filters] ++ concat cases ++
       filter (visible v) [TestRunEnded name filters run failed allowed skipped c success])
      (filter (visible v) [TestRunStarted name filters] ++ concat bare_cases ++
       filter (visible v) [TestRunEnded name filters run failed allowed skipped c' success])
      (Some success)
| Cut_run name filters cases bare_cases last bare_last later :
    Forall2 same_case cases bare_cases -> cut_case last bare_last ->
    same_run success
      (filter (visible v) [TestRunStarted name filters] ++ concat cases ++ last ++ later)
      (filter (visible v) [TestRunStarted name filters] ++ concat bare_cases ++ bare_last)
      None.
End Bare.
