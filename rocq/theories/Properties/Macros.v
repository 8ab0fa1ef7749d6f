(** Property C67: the check macros. *)
From Verif.Spec Require Import TextSpec FilterSpec ExpressionSpec Events RunSpec VerdictSpec MacroSpec.
From Verif.Model Require Import Base Vector StringUtil Filter Run Expression Macros.
From Verif.Proofs Require Import FilterProofs RunFacts MacroProofs MacroFacts.

(** ** C67. A test written with the macros of the library makes exactly the assertions that the macros are documented to
    make ([meaning], Spec/MacroSpec.v): the run is the same, whatever its outcome. *)
Theorem C67_macros :
  forall (cf : config) (max_expr : nat) (decompose_all : bool) (fuel : nat) (id : test_id) (line : nat) (b : code) (before : list event),
  proper (cf_max_message_length cf) b ->
  run_code cf max_expr decompose_all fuel id line b before =
  run cf fuel (mktest id line (meaning max_expr decompose_all b)) before.
Proof. exact macros_mean. Qed.
Print Assumptions C67_macros.

(** Hence every event of the run is known (C22). *)
Theorem C67_events :
  forall (cf : config) (max_expr : nat) (decompose_all : bool) (fuel : nat) (id : test_id) (line : nat) (b : code) (before : list event)
    (tags : list text) (may should : bool),
  proper (cf_max_message_length cf) b ->
  cf_verbosity cf = Full -> id_tags id = tag_string tags -> well_formed (cf_max_tag_length cf) tags -> tagged tags may should ->
  let p := meaning max_expr decompose_all b in
  regular p -> nesting p <= cf_max_nested cf -> scopes p <= S (cf_max_nested cf) -> capturing p <= cf_max_captures cf -> Nat.max 1 (leaves p) <= fuel ->
  exists st, run_code cf max_expr decompose_all fuel id line b before = Ok st /\
    trace st = before ++ fst (behave_case id may should (cf_max_capture_length cf) (cf_max_message_length cf) line p).
Proof. exact macros_events. Qed.
Print Assumptions C67_events.

(** Each macro, on its own: which assertion it makes in pass [pass], with which verdict, and how the test goes on. Here
    [said] is what is reported for the evaluations of the argument, in turn: the test ends at the first failure of a
    macro of the REQUIRE family. *)
Theorem C67_condition :
  forall (id : test_id) (may should : bool) (max_capture max_message max_expr : nat) (decompose_all : bool) (pass : nat) (cx : context)
    (target : option nat) (line : nat) (abort positive : bool) (source : text) (ev : evaluation condition) (k : code) (s : case_state),
  let behave := behave id may should max_capture max_message pass in
  let name := macro_name ev abort (if positive then [] else quote "_FALSE") in
  let said := map (fun '(suffix, _, v) =>
    (Bool.eqb (holds (v pass)) positive, shown_condition max_expr decompose_all (name ++ suffix) source positive (v pass))) (evaluations ev) in
  behave cx target (meaning max_expr decompose_all (Do line abort (Holds positive source ev) Done k)) s =
  in_turn id may should cx line abort said s (behave cx target (meaning max_expr decompose_all k)).
Proof. exact condition_alone. Qed.
Print Assumptions C67_condition.


Theorem C67_that :
  forall (id : test_id) (may should : bool) (max_capture max_message max_expr : nat) (decompose_all : bool) (pass : nat) (cx : context)
    (target : option nat) (line : nat) (abort : bool) (value matcher : text) (ev : evaluation match_request) (k : code) (s : case_state),
  let behave := behave id may should max_capture max_message pass in
  let name := macro_name ev abort (quote "_THAT") in
  let said := map (fun '(suffix, _, v) =>
    let matched := matches (r_matcher (v pass)) (r_value (v pass)) in
    (matched, Events.Expression (name ++ suffix) (value ++ quote ", " ++ matcher)
                (fit max_expr (describe (r_matcher (v pass)) (r_value (v pass)) (status_of matched))))) (evaluations ev) in
  behave cx target (meaning max_expr decompose_all (Do line abort (That value matcher ev) Done k)) s =
  in_turn id may should cx line abort said s (behave cx target (meaning max_expr decompose_all k)).
Proof. exact that_alone. Qed.
Print Assumptions C67_that.

(** All the kinds of macros in one test (Proofs/MacroFacts.v), with captures, sections and exceptions. *)
Example C67_example :
  let p := meaning 30 false every_macro in
  let both := ["x := 0"; "f(y, z)..."]%string in
  let three := ["x := 1"; "f(y, z)..."; "pass 1"]%string in
  let last := [(13, true, [], ["E was thrown as expected"]);
               (14, false, [], ["could not match caught E with expecte..."]);
               (15, false, [], ["expected f() not to throw but it threw an unknown exception"]);
               (16, false, [], ["E expected but no exception thrown"])]%string in
  proper 40 every_macro /\ (regular p /\ nesting p <= 3 /\ scopes p <= 4 /\ capturing p <= 3 /\ Nat.max 1 (leaves p) <= 5) /\
  reports (run_code roomy 30 false 5 plain_id 1 every_macro []) = Some (
    [(3, false, both, ["CHECK"; "x < 2"; "2 >= 2"]);
     (4, false, both, ["CHECK_FALSE"; "y"; "?"]);
     (5, true, both, ["CHECK"; "a && b"; ""]);
     (6, true, both, ["CONSTEVAL_CHECK"; "4 == even"; ""]);
     (7, true, both, ["CONSTEXPR_CHECK[compile-time]"; "1 > c"; ""]);
     (7, false, both, ["CONSTEXPR_CHECK[run-time]"; "1 > c"; "1 <= 1"])]%string ++ last ++
    [(9, false, three, ["CHECK_THAT"; "n, even"; "3 is odd"]);
     (10, true, three, ["CONSTEVAL_REQUIRE_THAT"; "n, even"; "2 is even"]);
     (11, true, three, ["ok"]);
     (12, false, three, ["no"])]%string ++ last ++
    [(1, true, [], ["no exception caught"])]%string).
Proof.
  cbv zeta. split; [exact every_macro_proper|]. split; [|vm_compute; reflexivity].
  split; [cbn; intuition|]. vm_compute. lia.
Qed.

(** A failed CONSTEXPR_REQUIRE at compile time: there is no second assertion, and the test ends. *)
Example C67_constexpr_example :
  reports (run_code roomy 30 true 5 plain_id 1
    (Do 2 true (Holds true (quote "1 > c") (BothTimes (compared Greater 1 2) (fun pass => compared Greater 1 0))) Done (Effect 3 Done)) []) =
  Some [(2, false, [], ["CONSTEXPR_REQUIRE[compile-time]"; "1 > c"; "1 <= 2"])]%string.
Proof. vm_compute. reflexivity. Qed.
