(** Property C77: handlers of failed assertions that throw. *)
From Coq Require Import Lia.
From Verif.Spec Require Import TextSpec FilterSpec Events RunSpec VerdictSpec ThrowingSpec.
From Verif.Model Require Import Base Vector StringUtil Filter Run Throwing.
From Verif.Proofs Require Import RunFacts ThrowingProofs ThrowingFacts.
Local Open Scope string_scope.
Local Open Scope list_scope.
Local Open Scope nat_scope.

(** [throwing_run raised size_max cf fuel t before] runs the test [t] when the handler of failed assertions throws [raised m] for
    the message [m]; [run] when the handler ends the program. *)

(** ** C77. With a handler that throws, a statement that exceeds a limit of the library is a [throw] statement *)

(** A test that stays within the limits runs the same, whatever the handler. *)
Theorem C77_same :
  forall (raised : text -> exn) (size_max : nat) (cf : config) (fuel : nat) (t : test_case) (before : list event) (st : state),
  run cf fuel t before = Ok st -> throwing_run raised size_max cf fuel t before = Ok st.
Proof. exact run_same. Qed.
Print Assumptions C77_same.

(** A test whose code does not catch the exception has the events, the counts and the outcome of the test in which the
    sections that are too deep, and the captures that are too many, are [throw] statements. *)
Theorem C77_throw_partial :
  forall (raised : text -> exn) (size_max : nat) (cf : config) (fuel : nat) (id : test_id) (line : nat) (p : prog)
         (before : list event) (st : state) (tags : list text) (may should : bool),
  id_tags id = tag_string tags -> well_formed (cf_max_tag_length cf) tags -> tagged tags may should ->
  lets_through (cf_max_nested cf) (cf_max_captures cf) p -> (should = true -> single p) ->
  run cf fuel (mktest id line (limited raised (cf_max_nested cf) (cf_max_captures cf) p)) before = Ok st ->
  exists st', throwing_run raised size_max cf fuel (mktest id line p) before = Ok st' /\
    trace st' = trace st /\ asserts st' = asserts st /\ status st' = status st.
Proof. exact as_throw. Qed.
Print Assumptions C77_throw_partial.

(** For regular tests, the events are those that the documentation promises for the latter test (C19): in particular the
    program is not terminated, and the run does not depend on what the exception leaves behind. *)
Theorem C77_specification_partial :
  forall (raised : text -> exn) (size_max : nat) (cf : config) (fuel : nat) (id : test_id) (line : nat) (p : prog)
         (before : list event) (tags : list text) (may should : bool),
  cf_verbosity cf = Full -> id_tags id = tag_string tags -> well_formed (cf_max_tag_length cf) tags -> tagged tags may should ->
  regular p -> lets_through (cf_max_nested cf) (cf_max_captures cf) p -> (should = true -> single p) ->
  let q := limited raised (cf_max_nested cf) (cf_max_captures cf) p in
  scopes q <= S (cf_max_nested cf) -> Nat.max 1 (leaves p) <= fuel ->
  exists st, throwing_run raised size_max cf fuel (mktest id line p) before = Ok st /\
    trace st = before ++ fst (behave_case id may should (cf_max_capture_length cf) (cf_max_message_length cf) line q).
Proof. exact throwing_specification. Qed.
Print Assumptions C77_specification_partial.

Definition failing (line : nat) (k : prog) : prog :=
  Check line (IsTrue (fun _ => Message (quote "x")) (fun _ => false)) false Nil k.
Definition limits_of (nested captures : nat) : config := mkconfig Full nested captures 20 80 20.
Definition thrown (m : text) : exn := StdExn m.
Definition should_tag : test_id := mkid (quote "t") (quote "[!shouldfail]") [] [].

(** The sections of the second pass go one level too deep; those of the first do not. *)
Definition deep : prog :=
  InSection (sec "a" 2) (InSection (sec "b" 3) (failing 4 Nil) (InSection (sec "c" 5) (InSection (sec "d" 6) (failing 7 Nil) Nil) Nil)) (Act 8 Nil).
Example C77_example :
  lets_through 2 2 deep /\ regular deep /\ single deep /\ scopes (limited thrown 2 2 deep) <= 3 /\ leaves deep <= 5 /\
  match throwing_run thrown 100 (limits_of 2 2) 5 (mktest plain_id 1 deep) [] with
  | Ok st => trace st =
      [TestCaseStarted plain_id 1; SectionStarted (sec "a" 2); SectionStarted (sec "b" 3);
       AssertionFailed plain_id [sec "a" 2; sec "b" 3] [] (mkloc 4 Exact) (Message (quote "x")) false false;
       SectionEnded (sec "b" 3) false (mkcounts 1 1 0); User 8; SectionStarted (sec "c" 5);
       AssertionFailed plain_id [sec "a" 2; sec "c" 5] [] (mkloc 5 SectionScope)
         (Message (quote "unexpected std::exception caught; message: max number of nested sections reached")) false false;
       SectionEnded (sec "c" 5) false (mkcounts 1 1 0); SectionEnded (sec "a" 2) false (mkcounts 1 1 0);
       TestCaseEnded plain_id 1 (mkcounts 2 2 0) Failed]
  | Err _ => False
  end.
Proof. vm_compute. repeat split; repeat constructor. Qed.

Example C77_example_captures :
  let p := Capture [fun _ => [quote "b"]] (Capture [fun _ => [quote "c"]; fun _ => [quote "d"]] (Act 3 Nil) Nil) Nil in
  lets_through 2 2 p /\ regular p /\
  match throwing_run thrown 100 (limits_of 2 2) 5 (mktest plain_id 1 p) [] with
  | Ok st => trace st =
      [TestCaseStarted plain_id 1;
       AssertionFailed plain_id [] [quote "b"; quote "c"] (mkloc 1 TestCaseScope)
         (Message (quote "unexpected std::exception caught; message: max number of captures reached")) false false;
       TestCaseEnded plain_id 1 (mkcounts 1 1 0) Failed]
  | Err _ => False
  end.
Proof. vm_compute. repeat split; repeat constructor. Qed.

Example C77_example_same : exists st, run (limits_of 3 2) 5 (mktest plain_id 1 deep) [] = Ok st.
Proof. eexists. vm_compute. reflexivity. Qed.

(** ** Findings: what the exception leaves behind when the test catches it *)

(** [SECTION("a") { try { SECTION("b") {} } catch (...) { notify } }  SECTION("c") { CHECK(false); }] with one level
    of sections: the section "c", which is not nested, is "nested too deep", and its check does not run. *)
Theorem C77_sections_refuted :
  exists (raised : text -> exn) (size_max : nat) (cf : config) (st st' : state),
  let a := Catch (fun _ => true) true (InSection (sec "b" 3) Nil Nil) Nil in
  let p := InSection (sec "a" 2) a (InSection (sec "c" 4) (failing 5 Nil) Nil) in
  run cf 5 (mktest plain_id 1 (limited raised (cf_max_nested cf) (cf_max_captures cf) p)) [] = Ok st /\
  throwing_run raised size_max cf 5 (mktest plain_id 1 p) [] = Ok st' /\
  In (AssertionFailed plain_id [sec "c" 4] [] (mkloc 5 Exact) (Message (quote "x")) false false) (trace st) /\
  trace st' =
    [TestCaseStarted plain_id 1; SectionStarted (sec "a" 2); SectionEnded (sec "a" 2) false (mkcounts 0 0 0);
     AssertionFailed plain_id [] [] (mkloc 1 TestCaseScope)
       (Message (quote "unexpected std::exception caught; message: max number of nested sections reached")) false false;
     TestCaseEnded plain_id 1 (mkcounts 1 1 0) Failed].
Proof. exists thrown, 100, (limits_of 1 2). do 2 eexists. vm_compute. repeat split; tauto. Qed.
Print Assumptions C77_sections_refuted.

(** Two innermost sections, "b" and "d", in one pass over the body: the code before them ([Act 9]) runs once, not twice. *)
Theorem C77_passes_refuted :
  exists (raised : text -> exn) (size_max : nat) (cf : config) (st st' : state),
  let p := Act 9 (InSection (sec "a" 2)
    (InSection (sec "b" 3) (Catch (fun _ => true) true (InSection (sec "c" 4) Nil Nil) Nil) (InSection (sec "d" 5) (Act 6 Nil) Nil)) Nil) in
  run cf 5 (mktest plain_id 1 (limited raised (cf_max_nested cf) (cf_max_captures cf) p)) [] = Ok st /\
  throwing_run raised size_max cf 5 (mktest plain_id 1 p) [] = Ok st' /\
  filter (fun e => match e with User _ => true | _ => false end) (trace st) = [User 9; User 9; User 6] /\
  filter (fun e => match e with User _ => true | _ => false end) (trace st') = [User 9; User 6].
Proof. exists thrown, 100, (limits_of 2 2). do 2 eexists. vm_compute. repeat split. Qed.
Print Assumptions C77_passes_refuted.

(** [try { CAPTURE(b, c, d); } catch (...) { notify }  CHECK(false);] with room for two captures: the check shows
    the values of "b" and "c", although no capture is in scope. *)
Theorem C77_captures_refuted :
  exists (raised : text -> exn) (size_max : nat) (cf : config) (st st' : state),
  let p := Catch (fun _ => true) true (Capture [fun _ => [quote "b"]; fun _ => [quote "c"]; fun _ => [quote "d"]] Nil Nil) (failing 3 Nil) in
  run cf 5 (mktest plain_id 1 (limited raised (cf_max_nested cf) (cf_max_captures cf) p)) [] = Ok st /\
  throwing_run raised size_max cf 5 (mktest plain_id 1 p) [] = Ok st' /\
  In (AssertionFailed plain_id [] [] (mkloc 3 Exact) (Message (quote "x")) false false) (trace st) /\
  In (AssertionFailed plain_id [] [quote "b"; quote "c"] (mkloc 3 Exact) (Message (quote "x")) false false) (trace st').
Proof. exists thrown, 100, (limits_of 2 2). do 2 eexists. vm_compute. repeat split; tauto. Qed.
Print Assumptions C77_captures_refuted.

(** [CAPTURE(b, c, d)] in a test tagged [!shouldfail], with room for two captures: the report that the test failed as
    expected, made after the test has ended, shows "b" and "c". *)
Theorem C77_shouldfail_refuted :
  exists (raised : text -> exn) (size_max : nat) (cf : config) (st st' : state),
  let p := Capture [fun _ => [quote "b"]; fun _ => [quote "c"]; fun _ => [quote "d"]] Nil Nil in
  let expected captures := AssertionSucceeded should_tag [] captures (mkloc 1 Exact) (Message (quote "expected test to fail")) in
  lets_through (cf_max_nested cf) (cf_max_captures cf) p /\
  run cf 5 (mktest should_tag 1 (limited raised (cf_max_nested cf) (cf_max_captures cf) p)) [] = Ok st /\
  throwing_run raised size_max cf 5 (mktest should_tag 1 p) [] = Ok st' /\
  In (expected []) (trace st) /\ In (expected [quote "b"; quote "c"]) (trace st').
Proof. exists thrown, 100, (limits_of 2 2). do 2 eexists. vm_compute. repeat split; tauto. Qed.
Print Assumptions C77_shouldfail_refuted.
