(** Property C86: ways of writing a test that are documented to be equivalent. *)
From Verif.Spec Require Import TextSpec FilterSpec ExpressionSpec Events MacroSpec EquivalenceSpec.
From Verif.Model Require Import Base Vector StringUtil Filter Run Expression Macros.
From Verif.Proofs Require Import RunFacts MacroFacts EquivalenceProofs ContinuingProofs EquivalenceFacts.

(** ** C86. A test body is rewritten anywhere, any number of times, with a documented rule ([rewritten],
    Spec/EquivalenceSpec.v). [proper]: as in C67. *)

(** One CAPTURE of several values, or one CAPTURE for each: the runs are the same, whatever their outcome. *)
Theorem C86_capture :
  forall (cf : config) (max_expr : nat) (decompose_all : bool) (fuel : nat) (id : test_id) (line : nat) (b b' : code) (before : list event),
  rewritten captures_split b b' -> proper (cf_max_message_length cf) b -> proper (cf_max_message_length cf) b' ->
  run_code cf max_expr decompose_all fuel id line b before = run_code cf max_expr decompose_all fuel id line b' before.
Proof. exact capture_equivalent. Qed.
Print Assumptions C86_capture.

(** CHECK_FALSE or CHECK of the negation, CHECK_THAT or CHECK of ==, also with REQUIRE, CONSTEXPR_ and CONSTEVAL_: the
    same events, but for the texts of the expressions reported. *)
Theorem C86_check :
  forall (cf : config) (max_expr : nat) (decompose_all : bool) (fuel : nat) (id : test_id) (line : nat) (b b' : code) (before : list event),
  rewritten check_rewritten b b' -> proper (cf_max_message_length cf) b -> proper (cf_max_message_length cf) b' ->
  match run_code cf max_expr decompose_all fuel id line b before, run_code cf max_expr decompose_all fuel id line b' before with
  | Ok st, Ok st' => map (in_payload no_texts) (trace st) = map (in_payload no_texts) (trace st')
  | Err e, Err e' => e = e'
  | _, _ => False
  end.
Proof. exact texts_equivalent. Qed.
Print Assumptions C86_check.

(** CONSTEVAL_CHECK or CHECK of constants, CONSTEXPR_CHECK or both in turn: the same events, but for the names of the
    macros. *)
Theorem C86_evaluation :
  forall (cf : config) (max_expr : nat) (decompose_all : bool) (fuel : nat) (id : test_id) (line : nat) (b b' : code) (before : list event),
  rewritten evaluated_when b b' -> proper (cf_max_message_length cf) b -> proper (cf_max_message_length cf) b' ->
  match run_code cf max_expr decompose_all fuel id line b before, run_code cf max_expr decompose_all fuel id line b' before with
  | Ok st, Ok st' => map (in_payload no_macro) (trace st) = map (in_payload no_macro) (trace st')
  | Err e, Err e' => e = e'
  | _, _ => False
  end.
Proof. exact macros_equivalent. Qed.
Print Assumptions C86_evaluation.

(** REQUIRE or CHECK (and so on): the same events, but for the names of the macros, up to the first failure or SKIP;
    hence in the whole run if there is none, in one run or in the other. *)
Theorem C86_until :
  forall (cf : config) (max_expr : nat) (decompose_all : bool) (fuel : nat) (id : test_id) (line : nat) (b : code) (st st' : state),
  proper (cf_max_message_length cf) b ->
  run_code cf max_expr decompose_all fuel id line b [] = Ok st ->
  run_code cf max_expr decompose_all fuel id line (continuing b) [] = Ok st' ->
  map (in_payload no_macro) (until_stop (trace st)) = map (in_payload no_macro) (until_stop (trace st')).
Proof. exact continuing_until. Qed.
Print Assumptions C86_until.

Theorem C86_no_failure :
  forall (cf : config) (max_expr : nat) (decompose_all : bool) (fuel : nat) (id : test_id) (line : nat) (b : code),
  proper (cf_max_message_length cf) b ->
  let strict := run_code cf max_expr decompose_all fuel id line b [] in
  let relaxed := run_code cf max_expr decompose_all fuel id line (continuing b) [] in
  (forall st, strict = Ok st -> Forall (fun e => stops e = false) (trace st) ->
   exists st', relaxed = Ok st' /\ map (in_payload no_macro) (trace st') = map (in_payload no_macro) (trace st)) /\
  (forall st', relaxed = Ok st' -> Forall (fun e => stops e = false) (trace st') ->
   exists st, strict = Ok st /\ map (in_payload no_macro) (trace st) = map (in_payload no_macro) (trace st')).
Proof. exact continuing_quiet. Qed.
Print Assumptions C86_no_failure.

(** The example of C67 with separate captures. *)
Example C86_capture_example :
  rewritten captures_split every_macro captured_apart /\ proper 40 every_macro /\ proper 40 captured_apart /\
  every_macro <> captured_apart /\
  exists st, run_code roomy 30 false 5 plain_id 1 captured_apart [] = Ok st /\ length (trace st) = 28.
Proof.
  split; [exact captured_apart_rewritten|]. split; [exact every_macro_proper|]. split; [exact captured_apart_proper|].
  split; [discriminate|]. eexists. split; vm_compute; reflexivity.
Qed.

(** The verdicts are the same, the texts are not: only the first form shows the operands of the first check, and with
    matchers, == leaves out a description that is longer than an expression may be, instead of cutting it. *)
Example C86_check_example :
  rewritten check_rewritten with_false_and_that with_not_and_equal /\
  proper 40 with_false_and_that /\ proper 40 with_not_and_equal /\
  reports (run_code roomy 5 false 5 plain_id 1 with_false_and_that []) = Some
    [(3, false, [], ["CHECK_FALSE"; "y"; "1"]); (4, false, [], ["REQUIRE_THAT"; "n, even"; "3 ..."])]%string /\
  reports (run_code roomy 5 false 5 plain_id 1 with_not_and_equal []) = Some
    [(3, false, [], ["CHECK"; "!(y)"; ""]); (4, false, [], ["REQUIRE"; "n == even"; ""])]%string.
Proof.
  split; [exact check_example_rewritten|]. destruct check_example_proper as [P P'].
  split; [exact P|]. split; [exact P'|]. split; vm_compute; reflexivity.
Qed.

Example C86_evaluation_example :
  rewritten evaluated_when (constexpr_test 0 1) (in_two_steps 0 1) /\
  reports (run_code roomy 30 true 5 plain_id 1 (constexpr_test 0 1) []) = Some
    [(2, true, [], ["CONSTEXPR_REQUIRE[compile-time]"; "1 > c"; "1 > 0"]);
     (2, false, [], ["CONSTEXPR_REQUIRE[run-time]"; "1 > c"; "1 <= 1"])]%string /\
  reports (run_code roomy 30 true 5 plain_id 1 (in_two_steps 0 1) []) = Some
    [(2, true, [], ["REQUIRE"; "1 > c"; "1 > 0"]); (2, false, [], ["REQUIRE"; "1 > c"; "1 <= 1"])]%string.
Proof. split; [apply constexpr_rewritten|]. split; vm_compute; reflexivity. Qed.

(** With REQUIRE the test ends at the failure, with CHECK it goes on. *)
Example C86_until_example :
  reports (run_code roomy 30 true 5 plain_id 1 (continuing (constexpr_test 2 1)) []) = Some
    [(2, false, [], ["CONSTEXPR_CHECK[compile-time]"; "1 > c"; "1 <= 2"]);
     (2, false, [], ["CONSTEXPR_CHECK[run-time]"; "1 > c"; "1 <= 1"]);
     (1, true, [], ["no exception caught"])]%string /\
  reports (run_code roomy 30 true 5 plain_id 1 (constexpr_test 2 1) []) = Some
    [(2, false, [], ["CONSTEXPR_REQUIRE[compile-time]"; "1 > c"; "1 <= 2"])]%string /\
  (exists st, run_code roomy 30 true 5 plain_id 1 (constexpr_test 0 0) [] = Ok st /\ Forall (fun e => stops e = false) (trace st)).
Proof. split; [|split]; [vm_compute; reflexivity..|]. eexists. split; [vm_compute; reflexivity|]. repeat constructor. Qed.
