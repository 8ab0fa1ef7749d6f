(** Property C80: code of the test in destructors. *)
From Verif.Spec Require Import TextSpec FilterSpec Events RunSpec VerdictSpec TreeSpec UnwindingSpec AttemptSpec.
From Verif.Model Require Import Base Vector StringUtil Filter Run Unwinding.
From Verif.Proofs Require Import FilterProofs TreeProofs RunFacts WitnessProofs UnwindingFacts UnwindingLife UnwindingSafety AttemptProofs.

(** ** Bodies used in the examples *)
Definition chk (line : nat) (ok : bool) : nat * (nat -> payload) * (nat -> bool) := (line, fun _ => Message (quote "m"), fun _ => ok).
Definition require (line : nat) (ok : bool) (k : gprog) : gprog := GCheck line (IsTrue (fun _ => Message (quote "r")) (fun _ => ok)) true GNil k.
Definition id0 : test_id := mkid (quote "t") (tag_string []) [] [].
(** { fixture f, with act 1 in its constructor, act 2 and CHECK(false) in its destructor; SECTION("A") { REQUIRE(ok); } SECTION("B") {} } *)
Definition fixture (ok : bool) : gprog :=
  with_fixture (GAct 1 GNil) (GAct 2 (checks [chk 9 false])) (GInSection (sec "A" 1) (require 2 ok GNil) (GInSection (sec "B" 3) GNil GNil)).
Lemma no_tags : id_tags id0 = tag_string [] /\ well_formed 20 [] /\ tagged [] false false.
Proof. repeat split; vm_compute; try constructor; intuition discriminate. Qed.

(** ** C80. When no exception leaves the blocks of the objects, the code of their destructors is executed as if it were written at
    the end of these blocks: C19-C28 apply to such test cases. *)
Theorem C80_inline :
  forall (cf : config) (fuel : nat) (id : test_id) (line : nat) (p : gprog) (before : list event),
  undisturbed p -> unwinding_run cf fuel id line p before = run cf fuel (mktest id line (inlined p)) before.
Proof. exact run_inlined. Qed.
Print Assumptions C80_inline.

Example C80_inline_example :
  let p := with_fixture (GAct 1 GNil) (GAct 2 (checks [chk 9 false])) (GInSection (sec "A" 1) (checks [chk 2 true]) (GInSection (sec "B" 3) GNil GNil)) in
  undisturbed p /\
  inlined p = Act 1 (InSection (sec "A" 1) (Check 2 (IsTrue (fun _ => Message (quote "m")) (fun _ => true)) false Nil Nil) (InSection (sec "B" 3) Nil
    (Act 2 (Check 9 (IsTrue (fun _ => Message (quote "m")) (fun _ => false)) false Nil Nil)))) /\
  match unwinding_run small 3 id0 5 p [] with Ok st => filter (concerns [1; 2]) (trace st) = [User 1; User 2; User 1; User 2] /\ n_failed (asserts st) = 2 | Err _ => False end.
Proof. split; [cbn; intuition|]. split; [reflexivity|]. vm_compute. auto. Qed.

(** Whatever the body, its destructors and the exceptions: the counters and the final state are those of C19, C20 and C21. *)
Theorem C80_counters :
  forall (cf : config) (fuel : nat) (id : test_id) (line : nat) (p : gprog) (before : list event) (st : state) (tags : list text) (may should : bool),
  cf_verbosity cf = Full -> id_tags id = tag_string tags -> well_formed (cf_max_tag_length cf) tags -> tagged tags may should ->
  unwinding_run cf fuel id line p before = Ok st ->
  exists body c s,
    trace st = before ++ [TestCaseStarted id line] ++ body ++ [TestCaseEnded id line c s] /\
    n_all c = length (filter is_assertion body) /\
    n_failed c + n_allowed c = length (filter is_failure body) /\
    n_failed c + n_allowed c <= n_all c /\
    (may = false -> should = false -> n_allowed c = 0) /\
    (may = true -> n_failed c = 0) /\
    (may = false -> should = true -> n_failed c <= 1).
Proof. exact unwinding_counters. Qed.
Print Assumptions C80_counters.

Theorem C80_final_state :
  forall (cf : config) (fuel : nat) (id : test_id) (line : nat) (p : gprog) (before : list event) (st : state) (tags : list text) (may should : bool),
  cf_verbosity cf = Full -> id_tags id = tag_string tags -> well_formed (cf_max_tag_length cf) tags -> tagged tags may should ->
  unwinding_run cf fuel id line p before = Ok st ->
  exists body last c s,
    trace st = before ++ [TestCaseStarted id line] ++ body ++ last ++ [TestCaseEnded id line c s] /\
    (last = [] \/ exists e, last = [e] /\ should = true /\
      let l := mkloc line Exact in let m := Message (quote "expected test to fail") in
      (e = AssertionSucceeded id [] [] l m \/ e = AssertionFailed id [] [] l m false may)) /\
    (~ skips body ->
      (should = true -> last <> []) /\
      (may = false -> should = false -> (fails body -> s = Failed) /\ (~ fails body -> s = Success)) /\
      (may = true -> should = false -> (fails body -> s = AllowedFail) /\ (~ fails body -> s = Success)) /\
      (may = false -> should = true -> (fails body -> s = AllowedFail) /\ (~ fails body -> s = Failed)) /\
      (may = true -> should = true -> s = AllowedFail)).
Proof. exact unwinding_final_state. Qed.
Print Assumptions C80_final_state.

Theorem C80_skip :
  forall (cf : config) (fuel : nat) (id : test_id) (line : nat) (p : gprog) (before : list event) (st : state) (tags : list text) (may should : bool),
  cf_verbosity cf = Full -> id_tags id = tag_string tags -> well_formed (cf_max_tag_length cf) tags -> tagged tags may should ->
  unwinding_run cf fuel id line p before = Ok st ->
  exists body c s,
    trace st = before ++ [TestCaseStarted id line] ++ body ++ [TestCaseEnded id line c s] /\
    forall earlier e later, body = earlier ++ e :: later -> is_skip e = true -> ~ fails earlier ->
      s = Skipped /\ n_all c = length (filter is_assertion earlier) /\ Forall (fun e => is_assertion e = false) later.
Proof. exact unwinding_skip. Qed.
Print Assumptions C80_skip.

(** The failed REQUIRE ends the first pass; the CHECK of the destructor is counted. SKIP in a body silences the destructor. *)
Example C80_counters_example :
  cf_verbosity small = Full /\ cf_max_tag_length small = 20 /\
  match unwinding_run small 3 id0 5 (fixture false) [] with
  | Ok st => filter is_failure (trace st) = [AssertionFailed id0 [sec "A" 1] [] (mkloc 2 Exact) (Message (quote "r")) false false;
                                             AssertionFailed id0 [sec "A" 1] [] (mkloc 2 Exact) (Message (quote "m")) false false] /\
             status st = IFailed /\ asserts st = mkcounts 2 2 0
  | Err _ => False end /\
  match unwinding_run small 3 id0 5 (GScope (checks [chk 9 false]) (GSkip 3 (fun _ => quote "s") true GNil) GNil) [] with
  | Ok st => status st = ISkipped /\ asserts st = mkcounts 0 0 0
  | Err _ => False end.
Proof. vm_compute. auto 10. Qed.

(** An object made at the beginning of each pass (a fixture of TEST_CASE_METHOD) is destroyed exactly once, at the end of the pass,
    whatever the body throws. *)
Theorem C80_fixture :
  forall (cf : config) (fuel : nat) (id : test_id) (line : nat) (made gone : nat) (p : gprog) (before : list event) (st : state),
  without [made; gone] p ->
  unwinding_run cf fuel id line (with_fixture (GAct made GNil) (GAct gone GNil) p) before = Ok st ->
  exists n events, 1 <= n /\ trace st = before ++ events /\ filter (concerns [made; gone]) events = concat (repeat [User made; User gone] n).
Proof. exact fixture_run. Qed.
Print Assumptions C80_fixture.

Example C80_fixture_example :
  let p ok := GInSection (sec "A" 1) (require 2 ok GNil) (GInSection (sec "B" 3) GNil GNil) in
  without [1; 2] (p true) /\ without [1; 2] (p false) /\
  match unwinding_run small 3 id0 5 (with_fixture (GAct 1 GNil) (GAct 2 GNil) (p true)) [] with
  | Ok st => filter (concerns [1; 2]) (trace st) = [User 1; User 2; User 1; User 2] | Err _ => False end /\
  match unwinding_run small 3 id0 5 (with_fixture (GAct 1 GNil) (GAct 2 GNil) (p false)) [] with
  | Ok st => filter (concerns [1; 2]) (trace st) = [User 1; User 2] | Err _ => False end.
Proof. vm_compute. intuition discriminate. Qed.

(** Checks of all kinds in a destructor conclude the same whether or not an exception is in flight, and whatever the block of the
    object did: the checks between the effects [m] and [m'] of the destructor all report what they should, in order, unless the
    test case was skipped. [earlier] has one effect [m] for each earlier pass. *)
Theorem C80_conclusions :
  forall (cf : config) (fuel : nat) (id : test_id) (line m m' : nat) (l : list (nat * expectation * option exn)) (p : gprog) (before : list event) (st : state),
  cf_verbosity cf = Full -> without [m; m'] p -> m <> m' -> Forall catches l ->
  unwinding_run cf fuel id line (GScope (GAct m (attempts l (GAct m' GNil))) p GNil) before = Ok st ->
  exists ev, trace st = before ++ ev /\ In (User m) ev /\
  forall earlier later, ev = earlier ++ User m :: later ->
  exists inside rest, later = inside ++ User m' :: rest /\
    (skips earlier /\ filter is_assertion inside = [] \/
     map said (filter is_assertion inside) = map (due (cf_max_message_length cf) (length (filter (concerns [m]) earlier))) l).
Proof. exact attempts_run. Qed.
Print Assumptions C80_conclusions.

Example C80_conclusions_example :
  let l := [(9, DoesNotThrow (quote "f()"), None); (10, DoesNotThrow (quote "g()"), Some OtherExn); (11, Throws (quote "E") (fun _ => true), Some OtherExn);
            (12, Throws (quote "E") (fun _ => true), None); (13, IsTrue (fun _ => Message (quote "m")) (fun pass => pass =? 0), None)] in
  let p := GInSection (sec "A" 1) (GThrow (fun _ => true) OtherExn GNil) (GInSection (sec "B" 3) GNil GNil) in
  without [1; 2] p /\ Forall catches l /\
  match unwinding_run small 3 id0 5 (GScope (GAct 1 (attempts l (GAct 2 GNil))) p GNil) [] with
  | Ok st => map said (filter is_assertion (trace st)) = map (due (cf_max_message_length small) 0) l ++ [Some (false, Message (quote "unexpected unknown exception caught"))] /\
             map said (filter is_assertion (trace st)) =
               [Some (true, Message (quote "f() did not throw")); Some (false, Message (quote "expected g() not to throw but it threw an unknown exception"));
                Some (true, Message (quote "E was thrown as expected")); Some (false, Message (quote "E expected but no exception thrown"));
                Some (true, Message (quote "m")); Some (false, Message (quote "unexpected unknown exception caught"))]
  | Err _ => False end.
Proof. split; [cbn; intuition discriminate|]. split; [repeat constructor|]. vm_compute. auto. Qed.

(** Within the limits (those of the body with the destructors at the end of their blocks), no assertion of the framework fails; and
    the program is ended only by an exception that leaves a destructor. *)
Theorem C80_within_limits :
  forall (cf : config) (fuel : nat) (id : test_id) (line : nat) (p : gprog) (before : list event) (tags : list text) (may should : bool),
  id_tags id = tag_string tags -> well_formed (cf_max_tag_length cf) tags -> tagged tags may should ->
  nesting (inlined p) <= cf_max_nested cf -> scopes (inlined p) <= S (cf_max_nested cf) -> capturing (inlined p) <= cf_max_captures cf ->
  unwinding_run cf fuel id line p before = Err Fuel \/ (exists st, unwinding_run cf fuel id line p before = Ok st) \/
  (unwinding_run cf fuel id line p before = Err Terminate /\ ~ calm p).
Proof. exact unwinding_limits. Qed.
Print Assumptions C80_within_limits.

(** A failed REQUIRE in a destructor ends the program, where a failed CHECK lets it continue. *)
Theorem C80_required_in_destructor :
  forall (cf : config) (fuel : nat) (id : test_id) (line l : nat) (what : nat -> payload) (d b k : gprog) (before : list event) (st : state),
  unwinding_run cf fuel id line (GScope (GCheck l (IsTrue what (fun _ => false)) false GNil d) b k) before = Ok st ->
  unwinding_run cf fuel id line (GScope (GCheck l (IsTrue what (fun _ => false)) true GNil d) b k) before = Err Terminate.
Proof. exact required_terminates. Qed.
Print Assumptions C80_required_in_destructor.

Example C80_limits_example :
  calm (fixture false) /\ nesting (inlined (fixture false)) = 1 /\ scopes (inlined (fixture false)) = 2 /\ capturing (inlined (fixture false)) = 0 /\
  ~ calm (GScope (require 9 false GNil) (require 2 false GNil) GNil) /\
  match unwinding_run small 3 id0 5 (GScope (checks [chk 9 false]) (require 2 false GNil) GNil) [] with Ok st => asserts st = mkcounts 2 2 0 | Err _ => False end /\
  unwinding_run small 3 id0 5 (GScope (GCheck 9 (IsTrue (fun _ => Message (quote "m")) (fun _ => false)) true GNil GNil) (require 2 false GNil) GNil) [] = Err Terminate.
Proof. repeat split; try (vm_compute; auto; reflexivity). cbn. intuition discriminate. Qed.

(** It is not so that checks are always reported with the place where they are written. An exception that leaves the block of an object
    destroyed in section [s]: all checks of the destructor are reported at the line of the first, and the exception itself is reported
    as thrown in that check. *)
Theorem C80_place_refuted :
  forall (cf : config) (fuel : nat) (id : test_id) (line : nat) (s : section_id) (line1 : nat) (what1 : nat -> payload) (outcome1 : nat -> bool)
         (l : list (nat * (nat -> payload) * (nat -> bool))) (x : exn) (before : list event) (st : state) (tags : list text) (may should : bool),
  cf_verbosity cf = Full -> id_tags id = tag_string tags -> well_formed (cf_max_tag_length cf) tags -> tagged tags may should -> x <> AbortExn ->
  unwinding_run cf fuel id line (GInSection s (GScope (checks ((line1, what1, outcome1) :: l)) (GThrow (fun _ => true) x GNil) GNil) GNil) before = Ok st ->
  exists what last, trace st = before ++ [TestCaseStarted id line; SectionStarted s] ++
    map (reported id [s] [] line1 should may 0) ((line1, what1, outcome1) :: l) ++
    [AssertionFailed id [s] [] (mkloc line1 InCheck) what should may] ++ last.
Proof. exact thrown_case. Qed.
Print Assumptions C80_place_refuted.

(** A REQUIRE that fails at [line0]: all checks of the destructor are reported at [line0]. *)
Theorem C80_required_place_refuted :
  forall (cf : config) (fuel : nat) (id : test_id) (line : nat) (s : section_id) (line0 : nat) (what0 : nat -> payload)
         (l : list (nat * (nat -> payload) * (nat -> bool))) (before : list event) (st : state) (tags : list text) (may should : bool),
  cf_verbosity cf = Full -> id_tags id = tag_string tags -> well_formed (cf_max_tag_length cf) tags -> tagged tags may should ->
  unwinding_run cf fuel id line (GInSection s (GScope (checks l) (GCheck line0 (IsTrue what0 (fun _ => false)) true GNil GNil) GNil) GNil) before = Ok st ->
  exists last, trace st = before ++ [TestCaseStarted id line; SectionStarted s; AssertionFailed id [s] [] (mkloc line0 Exact) (what0 0) should may] ++
    map (reported id [s] [] line0 should may 0) l ++ last.
Proof. exact required_case. Qed.
Print Assumptions C80_required_place_refuted.

(** A section in a destructor executed because of a failed REQUIRE is reported as started and never as ended. *)
Theorem C80_section_refuted :
  forall (cf : config) (fuel : nat) (id : test_id) (line l : nat) (what : nat -> payload) (s : section_id) (before : list event)
         (tags : list text) (may should : bool),
  cf_verbosity cf = Full -> id_tags id = tag_string tags -> well_formed (cf_max_tag_length cf) tags -> tagged tags may should ->
  1 <= cf_max_nested cf -> 1 <= fuel ->
  exists st last c f,
  unwinding_run cf fuel id line (GScope (GInSection s GNil GNil) (GCheck l (IsTrue what (fun _ => false)) true GNil GNil) GNil) before = Ok st /\
  trace st = before ++ [TestCaseStarted id line; AssertionFailed id [] [] (mkloc l Exact) (what 0) should may; SectionStarted s] ++ last ++ [TestCaseEnded id line c f] /\
  Forall (fun e => exists i m, e = AssertionSucceeded id [] [] i m) last.
Proof. exact section_case. Qed.
Print Assumptions C80_section_refuted.

Example C80_place_example :
  (** lines 9 and 10 in the destructor; an exception *)
  (let p := GInSection (sec "A" 1) (GScope (checks [chk 9 true; chk 10 false]) (GThrow (fun _ => true) (StdExn (quote "oops")) GNil) GNil) GNil in
   match unwinding_run small 3 id0 5 p [] with
   | Ok st => filter is_failure (trace st) =
       [AssertionFailed id0 [sec "A" 1] [] (mkloc 9 Exact) (Message (quote "m")) false false;
        AssertionFailed id0 [sec "A" 1] [] (mkloc 9 InCheck) (Message (quote "unexpected std::exception caught; message: oops")) false false]
   | Err _ => False end) /\
  (** a failed REQUIRE at line 2 *)
  (let p := GInSection (sec "A" 1) (GScope (checks [chk 9 true; chk 10 false]) (require 2 false GNil) GNil) GNil in
   match unwinding_run small 3 id0 5 p [] with
   | Ok st => filter is_assertion (trace st) =
       [AssertionFailed id0 [sec "A" 1] [] (mkloc 2 Exact) (Message (quote "r")) false false;
        AssertionSucceeded id0 [sec "A" 1] [] (mkloc 2 Exact) (Message (quote "m"));
        AssertionFailed id0 [sec "A" 1] [] (mkloc 2 Exact) (Message (quote "m")) false false]
   | Err _ => False end) /\
  (** an exception that leaves section "A" and a capture: the check of the destructor, outside of them, is reported with both *)
  (let p := GScope (checks [chk 9 false]) (GInSection (sec "A" 1) (GCapture [fun _ => [quote "x"]] (GThrow (fun _ => true) OtherExn GNil) GNil) GNil) GNil in
   match unwinding_run small 3 id0 5 p [] with
   | Ok st => filter is_failure (trace st) =
       [AssertionFailed id0 [sec "A" 1] [quote "x"] (mkloc 1 Exact) (Message (quote "m")) false false;
        AssertionFailed id0 [sec "A" 1] [quote "x"] (mkloc 1 SectionScope) (Message (quote "unexpected unknown exception caught")) false false]
   | Err _ => False end).
Proof. vm_compute. auto. Qed.
