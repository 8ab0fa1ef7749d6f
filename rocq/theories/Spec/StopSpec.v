(** REQUIRE, FAIL and SKIP leave the test case at once (C71). No reference to the model. *)
From Coq Require Import Arith Ascii String Bool List.
From Verif.Spec Require Import TextSpec FilterSpec Events.
Import ListNotations.
Local Open Scope list_scope.

(** No check or skip of [p] stands at this line. *)
Fixpoint absent (line : nat) (p : prog) : Prop :=
  match p with
  | Nil => True
  | Act _ k | Throw _ _ k => absent line k
  | Check l _ _ e k => l <> line /\ absent line e /\ absent line k
  | Skip l _ _ k => l <> line /\ absent line k
  | InSection _ b k | Capture _ b k | Catch _ _ b k => absent line b /\ absent line k
  end.

(** The checks and skips of [p] at this line are of the REQUIRE family (FAIL, SKIP), and they are neither in code that a
    check on exceptions evaluates nor in a [try] block whose handler catches the exceptions of REQUIRE. *)
Fixpoint stopping (line : nat) (p : prog) : Prop :=
  match p with
  | Nil => True
  | Act _ k | Throw _ _ k => stopping line k
  | Check l w abort e k =>
    (l = line -> abort = true) /\ match w with IsTrue _ _ => stopping line e | _ => absent line e end /\ stopping line k
  | Skip l _ abort k => (l = line -> abort = true) /\ stopping line k
  | InSection _ b k | Capture _ b k => stopping line b /\ stopping line k
  | Catch accepts _ b k => (absent line b \/ accepts AbortExn = false /\ stopping line b) /\ stopping line k
  end.

(** The event reports a failure or a skip at this line. *)
Definition stops {ID} (line : nat) (e : event ID) : bool :=
  match e with
  | AssertionFailed _ _ _ l _ _ _ | TestCaseSkipped _ _ _ l _ => loc_line l =? line
  | _ => false
  end.

(** What may still be reported about a test case that has been stopped: its sections and itself end, and if it was
    expected to fail the conclusion on that. In particular no code of the user, no check and no section follows. *)
Definition aftermath {ID} (should : bool) (e : event ID) : Prop :=
  match e with
  | SectionEnded _ _ _ | TestCaseEnded _ _ _ _ => True
  | AssertionSucceeded _ _ _ _ what | AssertionFailed _ _ _ _ what _ _ =>
    should = true /\ what = Message (quote "expected test to fail")
  | _ => False
  end.
