(** Vocabulary for test execution (C17-C31): what a test body does, and what is reported about it.
    No reference to the model of the framework. *)
From Coq Require Import Arith Ascii String Bool List.
From Verif.Spec Require Import TextSpec.
Import ListNotations.
Local Open Scope list_scope.

(** ** Test bodies.
    A test body is C++ code; what matters here is which snitch constructs it goes through, what they evaluate
    to, and which exceptions are thrown. Since the body is run several times (once per leaf section), everything
    that may change from one pass to the next is a function of the index of the pass. Loops and function calls
    appear unrolled. The last argument of each construct is the code that follows. *)

Record section_id := mksec { sec_name : text; sec_description : text; sec_line : nat }.

(** Exceptions: the one thrown by REQUIRE, FAIL and SKIP to leave the test; exceptions derived from
    [std::exception], with the result of [what()]; all others. *)
Inductive exn := AbortExn | StdExn (what : text) | OtherExn.

(** Payload of an assertion: a message, or an expression (macro, source text, text with evaluated operands). *)
Inductive payload := Message (m : text) | Expression (macro expected actual : text).

(** What a check asks of the code [e] it evaluates. *)
Inductive expectation :=
| IsTrue (what : nat -> payload) (outcome : nat -> bool)
    (** CHECK(e), REQUIRE(e), CHECK_THAT...: evaluated to success in pass [n] iff [outcome n = true], then described by
        [what n].
        SUCCEED and FAIL are the constant cases, with no code to evaluate. *)
| Throws (type : text) (accepts : exn -> bool)
    (** CHECK_THROWS_AS(e, type): [accepts] tells which exceptions [catch (const type&)] catches. *)
| ThrowsMatching (type : text) (accepts matches : exn -> bool) (describe : exn -> text)
    (** CHECK_THROWS_MATCHES(e, type, matcher). *)
| DoesNotThrow (source : text).
    (** CHECK_NOTHROW(e). *)

Inductive prog :=
| Nil
| Act (n : nat) (k : prog)
    (** user code with an observable effect, identified by [n]. *)
| Throw (when : nat -> bool) (x : exn) (k : prog)
    (** user code that throws in the passes given by [when]. *)
| Check (line : nat) (w : expectation) (abort : bool) (e k : prog)
    (** a check on the evaluation of [e]; [abort] for the REQUIRE family. *)
| Skip (line : nat) (message : nat -> text) (abort : bool) (k : prog)
    (** SKIP ([abort]) and SKIP_CHECK. *)
| InSection (s : section_id) (b k : prog)
    (** SECTION(s) { b } k. *)
| Capture (texts : list (nat -> list text)) (b k : prog)
    (** { CAPTURE(...) or INFO(...); b } k: one text per captured value, given in pieces. *)
| Catch (accepts : exn -> bool) (notify : bool) (b k : prog).
    (** try { b } catch (...) { } k, with or without a call to [notify_exception_handled()] in the handler. *)

(** ** Events *)
Inductive location_type := Exact | SectionScope | TestCaseScope | InCheck.
Record location := mkloc { loc_line : nat; loc_type : location_type }.

(** Final state of a test case. *)
Inductive case_state := Success | Failed | AllowedFail | Skipped.

(** Number of assertions: all, failed, failed but allowed to. *)
Record counts := mkcounts { n_all : nat; n_failed : nat; n_allowed : nat }.

Inductive event {ID : Type} :=
| TestRunStarted (name : text) (filters : list text)
| TestRunEnded (name : text) (filters : list text) (run failed allowed_failed skipped : nat) (c : counts) (success : bool)
| TestCaseStarted (id : ID) (line : nat)
| TestCaseEnded (id : ID) (line : nat) (c : counts) (s : case_state)
| SectionStarted (s : section_id)
| SectionEnded (s : section_id) (skipped : bool) (c : counts)
| AssertionFailed (id : ID) (sections : list section_id) (captures : list text) (l : location) (what : payload)
                  (expected allowed : bool)
| AssertionSucceeded (id : ID) (sections : list section_id) (captures : list text) (l : location) (what : payload)
| TestCaseSkipped (id : ID) (sections : list section_id) (captures : list text) (l : location) (message : text)
| ListTestRunStarted
| ListTestRunEnded
| TestCaseListed (id : ID) (line : nat)
| User (n : nat). (** not a report: the effect of [Act n]. *)
Arguments event : clear implicits.

(** Verbosity levels, in increasing order. *)
Inductive verbosity := Quiet | Normal | High | Full.
Definition vlevel (v : verbosity) : nat := match v with Quiet => 0 | Normal => 1 | High => 2 | Full => 3 end.

(** The smallest verbosity at which an event is reported (README.md, command-line option --verbosity). *)
Definition min_verbosity {ID} (e : event ID) : verbosity :=
  match e with
  | TestRunStarted _ _ | TestRunEnded _ _ _ _ _ _ _ _ => Normal
  | TestCaseStarted _ _ | TestCaseEnded _ _ _ _ | SectionStarted _ | SectionEnded _ _ _ => High
  | AssertionSucceeded _ _ _ _ _ => Full
  | AssertionFailed _ _ _ _ _ _ _ | TestCaseSkipped _ _ _ _ _ => Quiet
  | ListTestRunStarted | ListTestRunEnded | TestCaseListed _ _ | User _ => Quiet
  end.
Definition visible {ID} (v : verbosity) (e : event ID) : bool := vlevel (min_verbosity e) <=? vlevel v.

(** Tally of the assertions reported in a list of events: a failure is allowed if the event says that the
    test is allowed or expected to fail. *)
Definition tally1 {ID} (e : event ID) (c : counts) : counts :=
  match e with
  | AssertionSucceeded _ _ _ _ _ => mkcounts (S (n_all c)) (n_failed c) (n_allowed c)
  | AssertionFailed _ _ _ _ _ expected allowed =>
    if expected || allowed
    then mkcounts (S (n_all c)) (n_failed c) (S (n_allowed c))
    else mkcounts (S (n_all c)) (S (n_failed c)) (n_allowed c)
  | _ => c
  end.
Definition tally {ID} (l : list (event ID)) : counts := fold_right tally1 (mkcounts 0 0 0) l.
