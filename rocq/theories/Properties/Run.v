(** Properties C19-C28, C30, C56: execution of a test case. *)
From Verif.Spec Require Import TextSpec FilterSpec Events RunSpec VerdictSpec TreeSpec AbortSpec StopSpec PathSpec.
From Verif.Model Require Import Base Vector StringUtil Filter Run.
From Verif.Proofs Require Import FilterProofs TreeProofs RunFacts PrefixProofs StopProofs PathProofs PathEvents WitnessProofs.

(** ** Test bodies used in the examples *)

(** { CAPTURE(x); SECTION("A") { CHECK(...); SECTION("B") { act 7; } SECTION("C") { act 8; } } } act 9;
    the check succeeds in the second pass only. *)
Definition demo : prog :=
  Capture [fun _ => [quote "x"; quote " := "; quote "1"]]
    (InSection (sec "A" 1)
      (Check 2 (IsTrue (fun _ => Message (quote "m")) (fun pass => pass =? 1)) false Nil
        (InSection (sec "B" 3) (Act 7 Nil) (InSection (sec "C" 4) (Act 8 Nil) Nil)))
      Nil)
    (Act 9 Nil).

(** SECTION("A") { CAPTURE(x); throw in the second pass; SECTION("B") {} SECTION("C") {} } *)
Definition throwing : prog :=
  InSection (sec "A" 1)
    (Capture [fun _ => [quote "x := 1"]]
      (Throw (fun pass => pass =? 1) (StdExn (quote "oops"))
        (InSection (sec "B" 3) Nil (InSection (sec "C" 4) Nil Nil))) Nil)
    Nil.

Definition tagged_id (tags : list text) : test_id := mkid (quote "t") (tag_string tags) [] [].

Lemma demo_tags : well_formed 20 [quote "a"; quote "!mayfail"] /\ tagged [quote "a"; quote "!mayfail"] true false /\
  well_formed 20 [quote "!shouldfail"] /\ tagged [quote "!shouldfail"] false true /\ well_formed 20 [] /\ tagged [] false false.
Proof.
  assert (W : forall l, Forall (fun t => no_brackets t /\ dotted t = false) l -> well_formed 20 l).
  { intros l H. unfold well_formed. eapply Forall_impl; [|exact H]. intros t [H1 H2]. split; [exact H1|]. rewrite H2. discriminate. }
  assert (T : forall l may should, (may = true <-> In (quote "[!mayfail]") (tags_of l)) -> (should = true <-> In (quote "[!shouldfail]") (tags_of l)) ->
    tagged l may should) by (intros l may should H1 H2; split; assumption).
  repeat match goal with |- _ /\ _ => split end; try apply W; try apply T; vm_compute; try (intuition discriminate);
  repeat match goal with |- Forall _ (_ :: _) => constructor end; try constructor; try reflexivity; try (intuition discriminate).
Qed.

(** ** C19. Counters *)
Theorem C19_counters :
  forall (cf : config) (fuel : nat) (t : test_case) (before : list event) (st : state) (tags : list text) (may should : bool),
  cf_verbosity cf = Full ->
  id_tags (t_id t) = tag_string tags -> well_formed (cf_max_tag_length cf) tags -> tagged tags may should ->
  run cf fuel t before = Ok st ->
  exists body c s,
    trace st = before ++ [TestCaseStarted (t_id t) (t_line t)] ++ body ++ [TestCaseEnded (t_id t) (t_line t) c s] /\
    n_all c = length (filter is_assertion body) /\
    n_failed c + n_allowed c = length (filter is_failure body) /\
    n_failed c + n_allowed c <= n_all c /\
    (may = false -> should = false -> n_allowed c = 0) /\
    (may = true -> n_failed c = 0) /\
    (may = false -> should = true -> n_failed c <= 1).
Proof. exact counters. Qed.
Print Assumptions C19_counters.

(** The number of assertions is the number of checks executed, plus one ("no exception caught"), plus one for tests
    expected to fail. *)
Theorem C19_number_of_checks :
  forall (cf : config) (fuel : nat) (id : test_id) (line : nat) (p : prog) (before : list event) (tags : list text) (may should : bool),
  cf_verbosity cf = Full -> id_tags id = tag_string tags -> well_formed (cf_max_tag_length cf) tags -> tagged tags may should ->
  plain p -> nesting p <= cf_max_nested cf -> scopes p <= S (cf_max_nested cf) -> capturing p <= cf_max_captures cf -> Nat.max 1 (leaves p) <= fuel ->
  exists st body c s,
    run cf fuel (mktest id line p) before = Ok st /\
    trace st = before ++ [TestCaseStarted id line] ++ body ++ [TestCaseEnded id line c s] /\
    n_all c = length (filter (fun x => match x with Checked _ _ => true | Did _ => false end)
                             (flat_map (fun j => visit [] (Some j) p) (seq 0 (Nat.max 1 (leaves p))))) +
              1 + (if should then 1 else 0).
Proof. exact number_of_checks. Qed.
Print Assumptions C19_number_of_checks.

Example C19_example :
  plain demo /\ leaves demo = 2 /\
  option_map fst (shown_counts (run small 2 (mktest (tagged_id [quote "a"; quote "!mayfail"]) 5 demo) [])) = Some (mkcounts 3 0 1) /\
  option_map fst (shown_counts (run small 2 (mktest (tagged_id [quote "!shouldfail"]) 5 demo) [])) = Some (mkcounts 4 0 1) /\
  option_map fst (shown_counts (run small 2 (mktest (tagged_id []) 5 demo) [])) = Some (mkcounts 3 1 0).
Proof. split; [cbn; intuition discriminate|]. repeat split; vm_compute; reflexivity. Qed.

(** ** C20. Final state. [last] is the conclusion on tests expected to fail. *)
Theorem C20_final_state :
  forall (cf : config) (fuel : nat) (t : test_case) (before : list event) (st : state) (tags : list text) (may should : bool),
  cf_verbosity cf = Full -> id_tags (t_id t) = tag_string tags -> well_formed (cf_max_tag_length cf) tags -> tagged tags may should ->
  run cf fuel t before = Ok st ->
  exists body last c s,
    trace st = before ++ [TestCaseStarted (t_id t) (t_line t)] ++ body ++ last ++ [TestCaseEnded (t_id t) (t_line t) c s] /\
    (last = [] \/ exists e, last = [e] /\ should = true /\
      let l := mkloc (t_line t) Exact in let m := Message (quote "expected test to fail") in
      (e = AssertionSucceeded (t_id t) [] [] l m \/ e = AssertionFailed (t_id t) [] [] l m false may)) /\
    (~ skips body ->
      (should = true -> last <> []) /\
      (may = false -> should = false -> (fails body -> s = Failed) /\ (~ fails body -> s = Success)) /\
      (may = true -> should = false -> (fails body -> s = AllowedFail) /\ (~ fails body -> s = Success)) /\
      (may = false -> should = true -> (fails body -> s = AllowedFail) /\ (~ fails body -> s = Failed)) /\
      (may = true -> should = true -> s = AllowedFail)).
Proof. exact final_state. Qed.
Print Assumptions C20_final_state.

Example C20_example :
  option_map snd (shown_counts (run small 2 (mktest (tagged_id []) 5 demo) [])) = Some IFailed /\
  option_map snd (shown_counts (run small 2 (mktest (tagged_id [quote "!mayfail"]) 5 demo) [])) = Some IAllowedFail /\
  option_map snd (shown_counts (run small 2 (mktest (tagged_id [quote "!shouldfail"]) 5 demo) [])) = Some IAllowedFail /\
  option_map snd (shown_counts (run small 2 (mktest (tagged_id [quote "!shouldfail"]) 5 (Act 1 Nil)) [])) = Some IFailed /\
  option_map snd (shown_counts (run small 2 (mktest (tagged_id []) 5 (Act 1 Nil)) [])) = Some ISuccess.
Proof. repeat split; vm_compute; reflexivity. Qed.

(** ** C21. Skips *)
Theorem C21_skip_partial :
  forall (cf : config) (fuel : nat) (t : test_case) (before : list event) (st : state) (tags : list text) (may should : bool),
  cf_verbosity cf = Full -> id_tags (t_id t) = tag_string tags -> well_formed (cf_max_tag_length cf) tags -> tagged tags may should ->
  run cf fuel t before = Ok st ->
  exists body c s,
    trace st = before ++ [TestCaseStarted (t_id t) (t_line t)] ++ body ++ [TestCaseEnded (t_id t) (t_line t) c s] /\
    forall earlier e later, body = earlier ++ e :: later -> is_skip e = true -> ~ fails earlier ->
      s = Skipped /\ n_all c = length (filter is_assertion earlier) /\ Forall (fun e => is_assertion e = false) later.
Proof. exact skip_state_facts. Qed.
Print Assumptions C21_skip_partial.

(** No pass is started after a skip: [m] is an effect of the very first statement of the test, and of no other. *)
Theorem C21_no_further_pass :
  forall (cf : config) (fuel : nat) (id : test_id) (line m : nat) (p : prog) (before : list event) (st : state)
         (tags : list text) (may should : bool),
  cf_verbosity cf = Full -> id_tags id = tag_string tags -> well_formed (cf_max_tag_length cf) tags -> tagged tags may should ->
  unmarked m p -> run cf fuel (mktest id line (Act m p)) before = Ok st ->
  exists events, trace st = before ++ events /\
    forall earlier e later, events = earlier ++ e :: later -> is_skip e = true -> ~ fails earlier -> ~ In (User m) later.
Proof. exact skip_no_pass. Qed.
Print Assumptions C21_no_further_pass.

(** A skip does not override an earlier failure, contrary to the documentation. *)
Theorem C21_skip_overrides_refuted :
  exists (p : prog) (body : list event) (c : counts),
    Exists (fun e => is_skip e = true) body /\
    shown (run small 1 (mktest plain_id 0 p) []) =
      Some ([TestCaseStarted plain_id 0] ++ body ++ [TestCaseEnded plain_id 0 c Failed], IFailed).
Proof. exact skip_refuted. Qed.
Print Assumptions C21_skip_overrides_refuted.

Example C21_example :
  unmarked 1 (InSection (sec "A" 1) (Skip 2 (fun _ => []) false (Check 3 (IsTrue (fun _ => Message []) (fun _ => false)) true Nil Nil)) (InSection (sec "B" 2) Nil Nil)) /\
  shown (run small 5 (mktest plain_id 0 (Act 1
    (InSection (sec "A" 1) (Skip 2 (fun _ => []) false (Check 3 (IsTrue (fun _ => Message []) (fun _ => true)) true Nil Nil)) (InSection (sec "B" 2) Nil Nil)))) []) =
  Some ([TestCaseStarted plain_id 0; User 1; SectionStarted (sec "A" 1); TestCaseSkipped plain_id [sec "A" 1] [] (mkloc 2 Exact) [];
         SectionEnded (sec "A" 1) true (mkcounts 0 0 0); TestCaseEnded plain_id 0 (mkcounts 0 0 0) Skipped], ISkipped).
Proof. split; [cbn; intuition discriminate|]. vm_compute. reflexivity. Qed.

(** ** C22. Passes. One pass per leaf section, in source order; what each does is given by [visit]. *)
Theorem C22_passes :
  forall (cf : config) (fuel : nat) (id : test_id) (line : nat) (p : prog) (before : list event) (tags : list text) (may should : bool),
  cf_verbosity cf = Full -> id_tags id = tag_string tags -> well_formed (cf_max_tag_length cf) tags -> tagged tags may should ->
  plain p -> nesting p <= cf_max_nested cf -> scopes p <= S (cf_max_nested cf) -> capturing p <= cf_max_captures cf -> Nat.max 1 (leaves p) <= fuel ->
  exists st body c s,
    run cf fuel (mktest id line p) before = Ok st /\
    trace st = before ++ [TestCaseStarted id line] ++ body ++ [TestCaseEnded id line c s] /\
    steps body = flat_map (fun j => visit [] (Some j) p) (seq 0 (Nat.max 1 (leaves p))) ++
                 Checked [] line :: (if should then [Checked [] line] else []).
Proof. exact passes_of_plain. Qed.
Print Assumptions C22_passes.

(** Every event of the run, for all bodies in which the code evaluated by checks and [try] blocks contains no section
    (it may contain checks, skips, captures and throws), is given by the specification (aborts, skips and escaping exceptions included). *)
Theorem C22_specification :
  forall (cf : config) (fuel : nat) (id : test_id) (line : nat) (p : prog) (before : list event) (tags : list text) (may should : bool),
  cf_verbosity cf = Full -> id_tags id = tag_string tags -> well_formed (cf_max_tag_length cf) tags -> tagged tags may should ->
  regular p -> nesting p <= cf_max_nested cf -> scopes p <= S (cf_max_nested cf) -> capturing p <= cf_max_captures cf -> Nat.max 1 (leaves p) <= fuel ->
  exists st, run cf fuel (mktest id line p) before = Ok st /\
    trace st = before ++ fst (behave_case id may should (cf_max_capture_length cf) (cf_max_message_length cf) line p).
Proof. exact follows_specification. Qed.
Print Assumptions C22_specification.

Example C22_example :
  plain demo /\ nesting demo = 2 /\ capturing demo = 1 /\ leaves demo = 2 /\
  flat_map (fun j => visit [] (Some j) demo) (seq 0 2) =
    [Checked [sec "A" 1] 2; Did 7; Did 9; Checked [sec "A" 1] 2; Did 8; Did 9] /\
  shown_steps (run small 2 (mktest plain_id 5 demo) []) =
    Some [Checked [sec "A" 1] 2; Did 7; Did 9; Checked [sec "A" 1] 2; Did 8; Did 9; Checked [] 5].
Proof. split; [cbn; intuition discriminate|]. repeat split; vm_compute; reflexivity. Qed.

(** Checks inside the code evaluated by a check. *)
Example C22_nested_checks :
  plain helper /\ regular helper /\ scopes helper = 4 /\ nesting helper = 2 /\ leaves helper = 1 /\
  flat_map (fun j => visit [] (Some j) helper) (seq 0 1) =
    [Did 1; Checked [sec "A" 1; sec "B" 2] 9; Did 2; Checked [sec "A" 1; sec "B" 2] 4] /\
  shown_steps (run small 1 (mktest plain_id 5 helper) []) =
    Some [Did 1; Checked [sec "A" 1; sec "B" 2] 9; Did 2; Checked [sec "A" 1; sec "B" 2] 4; Checked [] 5].
Proof. split; [cbn; intuition discriminate|]. split; [cbn; tauto|]. repeat split; vm_compute; reflexivity. Qed.

(** ** C23. Section events: those of a depth-first walk, hence properly nested. *)
Theorem C23_section_events :
  forall (cf : config) (fuel : nat) (id : test_id) (line : nat) (p : prog) (before : list event) (tags : list text) (may should : bool),
  cf_verbosity cf = Full -> id_tags id = tag_string tags -> well_formed (cf_max_tag_length cf) tags -> tagged tags may should ->
  plain p -> nesting p <= cf_max_nested cf -> scopes p <= S (cf_max_nested cf) -> capturing p <= cf_max_captures cf -> Nat.max 1 (leaves p) <= fuel ->
  exists st body c s,
    run cf fuel (mktest id line p) before = Ok st /\
    trace st = before ++ [TestCaseStarted id line] ++ body ++ [TestCaseEnded id line c s] /\
    brackets body = walk p /\ nested (brackets body).
Proof. exact brackets_of_plain. Qed.
Print Assumptions C23_section_events.

Example C23_example :
  plain demo /\
  shown_brackets (run small 2 (mktest plain_id 5 demo) []) =
    Some [Start (sec "A" 1); Start (sec "B" 3); End (sec "B" 3); Start (sec "C" 4); End (sec "C" 4); End (sec "A" 1)].
Proof. split; [cbn; intuition discriminate|]. vm_compute. reflexivity. Qed.

(** Also with sections inside [try] blocks and inside code evaluated by checks, if no exception leaves a section,
    handlers notify, and all passes go through the same sections [f]: the events are those of a walk of [f]. *)
Theorem C23_in_try :
  forall (cf : config) (fuel : nat) (id : test_id) (line : nat) (p f : prog) (before : list event) (tags : list text) (may should : bool),
  cf_verbosity cf = Full -> id_tags id = tag_string tags -> well_formed (cf_max_tag_length cf) tags -> tagged tags may should ->
  outline f -> notified p -> (forall pass, contained pass p /\ snd (flow pass p) = None /\ visits pass p f Nil) ->
  nesting p <= cf_max_nested cf -> scopes p <= S (cf_max_nested cf) -> capturing p <= cf_max_captures cf -> Nat.max 1 (leaves f) <= fuel ->
  exists st body c s,
    run cf fuel (mktest id line p) before = Ok st /\
    trace st = before ++ [TestCaseStarted id line] ++ body ++ [TestCaseEnded id line c s] /\
    brackets body = walk f /\ nested (brackets body).
Proof. exact brackets_in_try. Qed.
Print Assumptions C23_in_try.

Example C23_in_try_example :
  ~ regular tried /\ outline tried_outline /\ notified tried /\
  (forall pass, contained pass tried /\ snd (flow pass tried) = None /\ visits pass tried tried_outline Nil) /\
  shown_brackets (run small 4 (mktest plain_id 0 tried) []) = Some (walk tried_outline) /\ length (walk tried_outline) = 10.
Proof.
  split; [cbn; tauto|]. split; [cbn; tauto|]. split; [cbn; auto 12|]. split; [|split; vm_compute; reflexivity].
  intros pass. split; [cbn; auto 12|]. split; [reflexivity|]. cbn. repeat (eexists || split); reflexivity.
Qed.

(** ** C24. Section events of aborted tests. *)
Theorem C24_nesting_refuted :
  exists (p : prog) (st : state), regular p /\ run small 5 (mktest plain_id 0 p) [] = Ok st /\ ~ nested (brackets (trace st)).
Proof. exact abort_refuted. Qed.
Print Assumptions C24_nesting_refuted.

(** The two ways it fails: a started section without end; a section that ends before another one opened in it. *)
Theorem C24_witnesses_refuted :
  shown_brackets (run small 5 (mktest plain_id 0 unended) []) =
    Some [Start (sec "A" 1); Start (sec "B" 2); End (sec "B" 2)] /\
  shown_brackets (run small 5 (mktest plain_id 0 crossed) []) =
    Some [Start (sec "A" 1); Start (sec "B" 3); Start (sec "C" 4); End (sec "C" 4); End (sec "A" 1)].
Proof. exact unended_brackets. Qed.
Print Assumptions C24_witnesses_refuted.

(** What holds: the events are some of those of the complete walk, in order (none twice); they are properly nested
    if no section contains two sections side by side. *)
Theorem C24_aborted_partial :
  forall (cf : config) (fuel : nat) (id : test_id) (line : nat) (p : prog) (before : list event) (tags : list text) (may should : bool),
  cf_verbosity cf = Full -> id_tags id = tag_string tags -> well_formed (cf_max_tag_length cf) tags -> tagged tags may should ->
  regular p -> nesting p <= cf_max_nested cf -> scopes p <= S (cf_max_nested cf) -> capturing p <= cf_max_captures cf -> Nat.max 1 (leaves p) <= fuel ->
  exists st body c s,
    run cf fuel (mktest id line p) before = Ok st /\
    trace st = before ++ [TestCaseStarted id line] ++ body ++ [TestCaseEnded id line c s] /\
    subsequence (brackets body) (walk p) /\ (narrow p -> nested (brackets body)).
Proof. exact abort_case. Qed.
Print Assumptions C24_aborted_partial.

(** Exactly which events: those of a beginning of the complete walk, then the ends of the sections that the exception
    leaves, innermost first. The walk is complete if the test is neither aborted nor skipped. The events are properly
    nested if and only if the sections left by the exception are all those that are open. *)
Theorem C24_events :
  forall (cf : config) (fuel : nat) (id : test_id) (line : nat) (p : prog) (before : list event) (tags : list text) (may should : bool),
  cf_verbosity cf = Full -> id_tags id = tag_string tags -> well_formed (cf_max_tag_length cf) tags -> tagged tags may should ->
  regular p -> nesting p <= cf_max_nested cf -> scopes p <= S (cf_max_nested cf) -> capturing p <= cf_max_captures cf -> Nat.max 1 (leaves p) <= fuel ->
  exists st body c s reported later left,
    run cf fuel (mktest id line p) before = Ok st /\
    trace st = before ++ [TestCaseStarted id line] ++ body ++ [TestCaseEnded id line c s] /\
    walk p = reported ++ later /\ brackets body = reported ++ map End (rev left) /\
    (left = [] /\ (later = [] \/ s = Skipped) \/
     exists pass q captures, pass < Nat.max 1 (leaves p) /\ stands (cf_max_capture_length cf) pass p q left captures /\ can_abort pass q) /\
    (nested (brackets body) <-> left = open_after [] reported).
Proof. exact exact_events. Qed.
Print Assumptions C24_events.

(** In the second witness, A is left while A and B are open. *)
Example C24_events_example :
  let reported := [Start (sec "A" 1); Start (sec "B" 3); Start (sec "C" 4); End (sec "C" 4)] in
  walk crossed = reported ++ [Start (sec "D" 5); End (sec "D" 5); End (sec "B" 3); End (sec "A" 1)] /\
  shown_brackets (run small 5 (mktest plain_id 0 crossed) []) = Some (reported ++ map End (rev [sec "A" 1])) /\
  open_after [] reported = [sec "A" 1; sec "B" 3] /\
  exists q, stands 10 1 crossed q [sec "A" 1] [] /\ can_abort 1 q.
Proof.
  split; [reflexivity|]. split; [vm_compute; reflexivity|]. split; [reflexivity|].
  eexists. split; [apply at_inside; apply at_here|reflexivity].
Qed.

Example C24_example :
  let p := InSection (sec "A" 1) (InSection (sec "B" 2) (Skip 3 (fun _ => []) true Nil) Nil) (InSection (sec "C" 4) Nil Nil) in
  regular p /\ narrow p /\
  shown_brackets (run small 5 (mktest plain_id 0 p) []) =
    Some [Start (sec "A" 1); Start (sec "B" 2); End (sec "B" 2); End (sec "A" 1)].
Proof. split; [cbn; tauto|]. split; [cbn; intuition lia|]. vm_compute. reflexivity. Qed.

(** ** C25. Limits *)
(** Within the limits no internal assertion fails ([Err Fuel] is only the bound on the number of passes), whatever the
    body. *)
Theorem C25_within_limits :
  forall (cf : config) (fuel : nat) (t : test_case) (before : list event) (tags : list text) (may should : bool),
  id_tags (t_id t) = tag_string tags -> well_formed (cf_max_tag_length cf) tags -> tagged tags may should ->
  nesting (t_body t) <= cf_max_nested cf -> scopes (t_body t) <= S (cf_max_nested cf) -> capturing (t_body t) <= cf_max_captures cf ->
  run cf fuel t before = Err Fuel \/ exists st, run cf fuel t before = Ok st.
Proof. exact limits. Qed.
Print Assumptions C25_within_limits.

(** Beyond the limits, for bodies that run to their end, an assertion fails. *)
Theorem C25_beyond_limits :
  forall (cf : config) (fuel : nat) (id : test_id) (line : nat) (p : prog) (before : list event) (tags : list text) (may should : bool),
  id_tags id = tag_string tags -> well_formed (cf_max_tag_length cf) tags -> tagged tags may should ->
  plain p -> Nat.max 1 (leaves p) <= fuel ->
  cf_max_nested cf < nesting p \/ S (cf_max_nested cf) < scopes p \/ cf_max_captures cf < own_captures p ->
  run cf fuel (mktest id line p) before = Err Assert.
Proof. exact exceeds. Qed.
Print Assumptions C25_beyond_limits.

(** In no case is there an out-of-bounds access, a wrap-around or a call to terminate. *)
Theorem C25_no_other_error :
  forall (cf : config) (fuel : nat) (t : test_case) (before : list event) (tags : list text) (may should : bool),
  id_tags (t_id t) = tag_string tags -> well_formed (cf_max_tag_length cf) tags -> tagged tags may should ->
  run cf fuel t before = Err Fuel \/ run cf fuel t before = Err Assert \/ exists st, run cf fuel t before = Ok st.
Proof. exact only_assert. Qed.
Print Assumptions C25_no_other_error.

Example C25_example :
  nesting demo = 2 /\ scopes demo = 2 /\ capturing demo = 1 /\ own_captures demo = 1 /\
  option_map snd (shown_counts (run (mkconfig Quiet 2 1 10 60 20) 2 (mktest plain_id 0 demo) [])) = Some IFailed /\
  run (mkconfig Quiet 1 1 10 60 20) 2 (mktest plain_id 0 demo) [] = Err Assert /\
  run (mkconfig Quiet 2 0 10 60 20) 2 (mktest plain_id 0 demo) [] = Err Assert /\
  (** a check within a check, inside as many sections as are allowed *)
  plain helper /\ nesting helper = 2 /\ scopes helper = 4 /\ run (mkconfig Quiet 2 1 10 60 20) 1 (mktest plain_id 0 helper) [] = Err Assert.
Proof. repeat split; try (vm_compute; reflexivity); cbn; intuition discriminate. Qed.

(** ** C26. Context of the reports *)
Theorem C26_context :
  forall (cf : config) (fuel : nat) (id : test_id) (line : nat) (p : prog) (before : list event) (tags : list text) (may should : bool),
  cf_verbosity cf = Full -> id_tags id = tag_string tags -> well_formed (cf_max_tag_length cf) tags -> tagged tags may should ->
  regular p -> nesting p <= cf_max_nested cf -> scopes p <= S (cf_max_nested cf) -> capturing p <= cf_max_captures cf -> Nat.max 1 (leaves p) <= fuel ->
  exists st body last c s,
    run cf fuel (mktest id line p) before = Ok st /\
    trace st = before ++ [TestCaseStarted id line] ++ body ++ last ++ [TestCaseEnded id line c s] /\
    Forall (fun e => exists pass, pass < Nat.max 1 (leaves p) /\ report_of (cf_max_capture_length cf) p pass e) body /\
    Forall (concluding (cf_max_capture_length cf) p line should) last /\
    length (filter is_assertion last) <= 1 + (if should then 1 else 0).
Proof. exact located_case. Qed.
Print Assumptions C26_context.

Example C26_example :
  regular demo /\
  shown_reports (run small 2 (mktest plain_id 5 demo) []) =
    Some [([sec "A" 1], [quote "x := 1"], mkloc 2 Exact, false); ([sec "A" 1], [quote "x := 1"], mkloc 2 Exact, true);
          ([], [], mkloc 5 Exact, true)].
Proof. split; [cbn; intuition discriminate|]. vm_compute. reflexivity. Qed.

(** A check is not always reported with its exact place: here the check of line 1 evaluates code that makes the check of
    line 2, and is then reported as being somewhere inside line 1. *)
Theorem C26_exact_place_refuted :
  exists (p : prog) (st : state) (before after : list event) (sections : list section_id) (captures : list text) (l : location) (what : payload),
    plain p /\ run small 5 (mktest plain_id 0 p) [] = Ok st /\
    trace st = before ++ AssertionSucceeded plain_id sections captures l what :: after /\ loc_type l <> Exact.
Proof. exact inexact. Qed.
Print Assumptions C26_exact_place_refuted.

(** ** C27. Escaping exceptions. [from] is the place of the throw, [e1] what happened before. *)
Theorem C27_escaping_exception :
  forall (cf : config) (fuel : nat) (id : test_id) (line : nat) (p : prog) (before : list event) (tags : list text) (may should : bool)
         (e1 : list event) (s1 : case_state) (x : exn) (from : context) (gone : list (section_id * counts)),
  cf_verbosity cf = Full -> id_tags id = tag_string tags -> well_formed (cf_max_tag_length cf) tags -> tagged tags may should ->
  regular p -> nesting p <= cf_max_nested cf -> scopes p <= S (cf_max_nested cf) -> capturing p <= cf_max_captures cf -> Nat.max 1 (leaves p) <= fuel ->
  behave_passes id may should (cf_max_capture_length cf) (cf_max_message_length cf) (mkctx [] [] (mkloc line TestCaseScope)) p
    (Nat.max 1 (leaves p)) 0 Success = (e1, s1, Threw x from gone) ->
  x <> AbortExn -> s1 <> Skipped ->
  exists st what last c s pass,
    run cf fuel (mktest id line p) before = Ok st /\
    trace st = before ++ [TestCaseStarted id line] ++
               e1 ++ [AssertionFailed id (enclosing from) (captured from) (where_ from) what should may] ++ last ++
               [TestCaseEnded id line c s] /\
    pass < Nat.max 1 (leaves p) /\ thrown_at (cf_max_capture_length cf) p pass x (enclosing from) (captured from) /\
    Forall (fun e => match e with
                     | SectionEnded _ _ _ => True
                     | AssertionSucceeded _ _ _ _ m | AssertionFailed _ _ _ _ m _ _ =>
                       should = true /\ m = Message (quote "expected test to fail")
                     | _ => False
                     end) last.
Proof. exact escape_case. Qed.
Print Assumptions C27_escaping_exception.

Example C27_example :
  regular throwing /\
  snd (behave_passes plain_id false false 10 60 (mkctx [] [] (mkloc 5 TestCaseScope)) throwing 2 0 Success) =
    Threw (StdExn (quote "oops")) (mkctx [sec "A" 1] [quote "x := 1"] (mkloc 1 SectionScope)) [(sec "A" 1, mkcounts 0 0 0)] /\
  shown (run small 2 (mktest plain_id 5 throwing) []) =
    Some ([TestCaseStarted plain_id 5; SectionStarted (sec "A" 1); SectionStarted (sec "B" 3); SectionEnded (sec "B" 3) false (mkcounts 0 0 0);
           AssertionFailed plain_id [sec "A" 1] [quote "x := 1"] (mkloc 1 SectionScope)
             (Message (quote "unexpected std::exception caught; message: oops")) false false;
           SectionEnded (sec "A" 1) false (mkcounts 1 1 0); TestCaseEnded plain_id 5 (mkcounts 1 1 0) Failed], IFailed).
Proof. split; [cbn; tauto|]. split; vm_compute; reflexivity. Qed.

(** ** C28. Captures *)
(** Whatever code is executed, and however it is left, it leaves the captures as they were. *)
Theorem C28_scoped :
  forall (cf : config) (id : test_id) (pass : nat) (p : prog) (st st' : state) (x : option exn),
  exec cf id pass p st = Ok (st', x) -> captures (inf st') = captures (inf st).
Proof. exact captures_kept. Qed.
Print Assumptions C28_scoped.

(** Captures are added in order, after those in scope; each text is cut, visibly, to the maximum length. *)
Theorem C28_added :
  forall (cf : config) (l : list (list str)) (st st' : state), add_captures cf l st = Ok st' ->
  captures (inf st') = captures (inf st) ++ map (fun pieces => fit (cf_max_capture_length cf) (concat pieces)) l.
Proof. exact captures_added. Qed.
Print Assumptions C28_added.

Theorem C28_too_many :
  forall (cf : config) (l : list (list str)) (st : state),
  cf_max_captures cf < length (captures (inf st)) + length l -> length (captures (inf st)) <= cf_max_captures cf ->
  add_captures cf l st = Err Assert.
Proof. exact captures_full. Qed.
Print Assumptions C28_too_many.

Example C28_example :
  let p := Capture [fun _ => [quote "first"]; fun _ => [quote "the "; quote "second one"]] (Check 1 (IsTrue (fun _ => Message []) (fun _ => false)) false Nil Nil)
             (Capture [fun _ => [quote "third"]] (Check 2 (IsTrue (fun _ => Message []) (fun _ => false)) true Nil Nil) Nil) in
  shown_reports (run small 1 (mktest plain_id 5 p) []) =
    Some [([], [quote "first"; quote "the sec..."], mkloc 1 Exact, false); ([], [quote "third"], mkloc 2 Exact, false)] /\
  run small 1 (mktest plain_id 5 (Capture [fun _ => []; fun _ => []; fun _ => []] Nil Nil)) [] = Err Assert.
Proof. split; vm_compute; reflexivity. Qed.

(** ** C30. Verbosity *)
Theorem C30_verbosity_filters :
  forall (cf : config) (fuel : nat) (t : test_case) (v : verbosity) (before : list event),
  match run (with_verbosity cf Full) fuel t [] with
  | Ok st => exists st', run (with_verbosity cf v) fuel t before = Ok st' /\
      trace st' = before ++ filter (Events.visible v) (trace st) /\ asserts st' = asserts st /\ status st' = status st
  | Err e => run (with_verbosity cf v) fuel t before = Err e
  end.
Proof. exact verbosity_filters. Qed.
Print Assumptions C30_verbosity_filters.

Example C30_example :
  shown (run (with_verbosity small Normal) 2 (mktest plain_id 5 demo) []) =
    Some ([AssertionFailed plain_id [sec "A" 1] [quote "x := 1"] (mkloc 2 Exact) (Message (quote "m")) false false;
           User 7; User 9; User 8; User 9], IFailed).
Proof. vm_compute. reflexivity. Qed.

(** ** C56. Termination *)
Theorem C56_terminates_partial :
  forall (cf : config) (fuel : nat) (id : test_id) (line : nat) (p : prog) (before : list event) (tags : list text) (may should : bool),
  id_tags id = tag_string tags -> well_formed (cf_max_tag_length cf) tags -> tagged tags may should ->
  regular p -> nesting p <= cf_max_nested cf -> scopes p <= S (cf_max_nested cf) -> capturing p <= cf_max_captures cf -> Nat.max 1 (leaves p) <= fuel ->
  exists st, run cf fuel (mktest id line p) before = Ok st.
Proof. exact terminates. Qed.
Print Assumptions C56_terminates_partial.

(** A test whose second section is not reached in the second pass never ends:
    try { if (second pass or later) throw 1; SECTION("A") {} SECTION("B") {} } catch (...) {} *)
Theorem C56_terminates_refuted :
  forall (cf : config) (id : test_id) (line : nat) (may should : bool),
  fail_flags (cf_max_tag_length cf) (id_tags id) = Ok (may, should) -> 1 <= cf_max_nested cf ->
  forall (fuel : nat) (before : list event), run cf fuel (mktest id line endless) before = Err Fuel.
Proof. exact endless_run. Qed.
Print Assumptions C56_terminates_refuted.

(** Exceptions may also be caught around sections. It is enough that exceptions that leave a section leave the test
    ([never_caught]), and that all passes go through the same sections [f] until they end ([visits]): then the test ends, after
    at most as many passes as [f] has leaf sections. *)
Theorem C56_in_try_partial :
  forall (cf : config) (fuel : nat) (id : test_id) (line : nat) (p f : prog) (before : list event) (tags : list text) (may should : bool),
  id_tags id = tag_string tags -> well_formed (cf_max_tag_length cf) tags -> tagged tags may should ->
  outline f -> (forall pass, never_caught pass p) -> (forall pass, snd (flow pass p) = None -> visits pass p f Nil) ->
  nesting p <= cf_max_nested cf -> scopes p <= S (cf_max_nested cf) -> capturing p <= cf_max_captures cf -> Nat.max 1 (leaves f) <= fuel ->
  exists st, run cf fuel (mktest id line p) before = Ok st.
Proof. exact ends_in_try. Qed.
Print Assumptions C56_in_try_partial.

(** Otherwise even a test that does the same in every pass can run forever:
    try { try { SECTION("A") { throw 1; } throw std::exception{}; } catch (int) {} SECTION("B") {} } catch (...) {} *)
Theorem C56_steady_refuted :
  exists p, steady p /\
  forall (cf : config) (id : test_id) (line : nat) (tags : list text) (may should : bool),
  id_tags id = tag_string tags -> well_formed (cf_max_tag_length cf) tags -> tagged tags may should -> 1 <= cf_max_nested cf ->
  forall (fuel : nat) (before : list event), run cf fuel (mktest id line p) before = Err Fuel.
Proof. exact stuck_run. Qed.
Print Assumptions C56_steady_refuted.

Example C56_try_example :
  ~ regular tried /\ outline tried_outline /\ leaves tried_outline = 4 /\ (forall pass, never_caught pass tried) /\
  (forall pass, snd (flow pass tried) = None -> visits pass tried tried_outline Nil) /\
  shown_brackets (run small 4 (mktest plain_id 0 tried) []) =
    Some [Start (sec "A" 1); End (sec "A" 1); Start (sec "B" 2); End (sec "B" 2);
          Start (sec "C" 4); Start (sec "D" 5); End (sec "D" 5); Start (sec "E" 6); End (sec "E" 6); End (sec "C" 4)].
Proof.
  split; [cbn; tauto|]. split; [cbn; tauto|]. split; [reflexivity|]. split; [intros pass; cbn; intuition discriminate|]. split; [|vm_compute; reflexivity].
  intros pass _. cbn. repeat (eexists || split); reflexivity.
Qed.

Example C56_example :
  regular throwing /\ leaves throwing = 2 /\ nesting throwing = 2 /\ capturing throwing = 1 /\
  fail_flags (cf_max_tag_length small) (id_tags plain_id) = Ok (false, false) /\ 1 <= cf_max_nested small.
Proof. split; [cbn; tauto|]. repeat split; cbn; lia. Qed.

(** ** C71. REQUIRE, FAIL and SKIP stop the test case *)

(** [L] is a line at which there are only such checks ([stopping]); after a failure or skip reported there, nothing is
    executed or checked. *)
Theorem C71_partial :
  forall (cf : config) (fuel : nat) (id : test_id) (line : nat) (p : prog) (before : list event) (tags : list text) (may should : bool)
         (st : state) (L : nat),
  cf_verbosity cf = Full -> id_tags id = tag_string tags -> well_formed (cf_max_tag_length cf) tags -> tagged tags may should ->
  stopping L p -> run cf fuel (mktest id line p) before = Ok st ->
  exists events, trace st = before ++ events /\
    forall earlier e later, events = earlier ++ e :: later -> stops L e = true -> Forall (aftermath should) later.
Proof. exact run_stops. Qed.
Print Assumptions C71_partial.

(** A REQUIRE inside a function checked with CHECK_NOTHROW does not stop the test. *)
Theorem C71_refuted :
  exists p st line cap w e k earlier x later,
    stands cap 0 p (Check line w true e k) [] [] /\ run small 5 (mktest plain_id 0 p) [] = Ok st /\
    trace st = earlier ++ x :: later /\ stops line x = true /\ In (User 7) later.
Proof. exact swallowed_refuted. Qed.
Print Assumptions C71_refuted.

Example C71_example :
  stopping 2 required /\ stopping 9 required /\
  shown (run small 5 (mktest (tagged_id [quote "!shouldfail"]) 0 required) []) =
    Some ([TestCaseStarted (tagged_id [quote "!shouldfail"]) 0; SectionStarted (sec "A" 1);
           AssertionFailed (tagged_id [quote "!shouldfail"]) [sec "A" 1] [] (mkloc 9 Exact) (Message []) true false;
           SectionEnded (sec "A" 1) false (mkcounts 1 0 1);
           AssertionSucceeded (tagged_id [quote "!shouldfail"]) [] [] (mkloc 0 Exact) (Message (quote "expected test to fail"));
           TestCaseEnded (tagged_id [quote "!shouldfail"]) 0 (mkcounts 2 0 1) AllowedFail], IAllowedFail).
Proof. split; [cbn; tauto|]. split; [cbn; tauto|]. vm_compute. reflexivity. Qed.
