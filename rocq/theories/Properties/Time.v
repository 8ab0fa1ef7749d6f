(** Properties C75 and C76: durations. *)
From Coq Require Import ZArith QArith Qabs Lqa.
From Verif.Spec Require Import TextSpec FilterSpec Events TimeSpec.
From Verif.Model Require Import Base Vector StringUtil Filter Run Session Timed.
From Verif.Proofs Require Import TimedProofs TimedFacts.
Local Open Scope string_scope.
Local Open Scope list_scope.
Local Open Scope nat_scope.

(** ** C75. Durations are the times between what they are the durations of *)

(** The clock only has an effect on durations. *)
Theorem C75_same_run :
  forall (clock : nat -> Z) (fuel : nat) (lm : limits) (v : verbosity) (tests : list test_case) (name : text) (filters : list text)
         (predicate : test_id -> res bool),
  run_selected_tests lm fuel v tests name filters predicate =
  match timed_run_selected_tests clock fuel lm v tests name filters predicate with
  | Ok (h, success) => Ok (reports h, success)
  | Err e => Err e
  end.
Proof. exact selected_erase. Qed.
Print Assumptions C75_same_run.

(** The duration of a section is counted from when its block was entered: the block that is being left, or one that was left
    by an exception. *)
Theorem C75_sections :
  forall (clock : nat -> Z) (fuel : nat) (lm : limits) (v : verbosity) (tests : list test_case) (name : text) (filters : list text)
         (predicate : test_id -> res bool) (h : history test_id) (success : bool),
  timed_run_selected_tests clock fuel lm v tests name filters predicate = Ok (h, success) ->
  forall (before : history test_id) (t : Z) (s : section_id) (skipped : bool) (c : counts) (d : option Z) (after : history test_id),
  h = before ++ (t, Reported (SectionEnded s skipped c) d) :: after ->
  exists t0, d = Some (t - t0)%Z /\
    ((exists outer after', open_blocks before = outer ++ [(s, t0)] /\ after = (t, Left s) :: after') \/ left_before before s t0).
Proof. intros clock fuel lm v tests name filters predicate h success. exact (selected_good clock fuel lm v tests name filters predicate h success). Qed.
Print Assumptions C75_sections.

(** The duration of a test case covers all that happened between its start and its end, and no more than that. *)
Theorem C75_cases :
  forall (clock : nat -> Z) (fuel : nat) (lm : limits) (v : verbosity) (tests : list test_case) (name : text) (filters : list text)
         (predicate : test_id -> res bool) (h : history test_id) (success : bool),
  (forall k, (clock k <= clock (S k))%Z) ->
  timed_run_selected_tests clock fuel lm v tests name filters predicate = Ok (h, success) ->
  forall (before : history test_id) (t : Z) (id : test_id) (line : nat) (c : counts) (s : case_state) (d : option Z) (after : history test_id),
  h = before ++ (t, Reported (TestCaseEnded id line c s) d) :: after ->
  exists earlier t0 inside dd, before = earlier ++ (t0, Reported (TestCaseStarted id line) None) :: inside /\ d = Some dd /\
    (t0 <= t - dd /\ 0 <= dd)%Z /\ during (t - dd) t inside /\
    (forall e, In e (reports inside) -> match e with TestCaseStarted _ _ | TestCaseEnded _ _ _ _ => False | _ => True end).
Proof.
  intros clock fuel lm v tests name filters predicate h success M H.
  exact (proj1 (proj2 (selected_times clock M fuel lm v tests name filters predicate h success H))).
Qed.
Print Assumptions C75_cases.

(** The duration of a run covers all that happened between its start and its end; it is at least the sum of those of the
    test cases. *)
Theorem C75_run :
  forall (clock : nat -> Z) (fuel : nat) (lm : limits) (v : verbosity) (tests : list test_case) (name : text) (filters : list text)
         (predicate : test_id -> res bool) (h : history test_id) (success : bool),
  (forall k, (clock k <= clock (S k))%Z) ->
  timed_run_selected_tests clock fuel lm v tests name filters predicate = Ok (h, success) ->
  vlevel Normal <= vlevel v ->
  exists t0 inside t run fail allowed skip c d,
    h = (t0, Reported (TestRunStarted name filters) None) :: inside ++
          [(t, Reported (TestRunEnded name filters run fail allowed skip c success) (Some d))] /\
    (t0 <= t - d)%Z /\ during (t - d) t inside /\ (fold_right Z.add 0 (case_durations inside) <= d)%Z.
Proof.
  intros clock fuel lm v tests name filters predicate h success M H.
  exact (proj2 (proj2 (proj2 (selected_times clock M fuel lm v tests name filters predicate h success H)))).
Qed.
Print Assumptions C75_run.

(** Exactly the ends of sections, test cases and runs have a duration; it is not negative. *)
Theorem C75_timed :
  forall (clock : nat -> Z) (fuel : nat) (lm : limits) (v : verbosity) (tests : list test_case) (name : text) (filters : list text)
         (predicate : test_id -> res bool) (h : history test_id) (success : bool),
  (forall k, (clock k <= clock (S k))%Z) ->
  timed_run_selected_tests clock fuel lm v tests name filters predicate = Ok (h, success) ->
  ordered h /\
  forall t e d, In (t, Reported e d) h -> if timed_event e then exists dd, d = Some dd /\ (0 <= dd)%Z else d = None.
Proof.
  intros clock fuel lm v tests name filters predicate h success M H.
  exact (conj (proj1 (selected_times clock M fuel lm v tests name filters predicate h success H))
              (proj1 (proj2 (proj2 (selected_times clock M fuel lm v tests name filters predicate h success H))))).
Qed.
Print Assumptions C75_timed.

Example C75_example :
  (forall k, (Z.of_nat k <= Z.of_nat (S k))%Z) /\
  timed_demo [twice] = Ok (
    [(0, Reported (TestRunStarted (quote "demo") []) None);
     (1, Reported (TestCaseStarted (t_id twice) 1) None);
     (5, Entered outer_section); (5, Reported (SectionStarted outer_section) None);
     (6, Reported (User 1) None);
     (8, Entered first_section); (8, Reported (SectionStarted first_section) None);
     (9, Reported (User 2) None);
     (10, Reported (SectionEnded first_section false (mkcounts 0 0 0)) (Some 2)); (10, Left first_section);
     (14, Left outer_section);
     (18, Entered outer_section);
     (19, Reported (User 1) None);
     (24, Entered second_section); (24, Reported (SectionStarted second_section) None);
     (25, Reported (User 3) None);
     (26, Reported (SectionEnded second_section false (mkcounts 0 0 0)) (Some 2)); (26, Left second_section);
     (27, Reported (SectionEnded outer_section false (mkcounts 0 0 0)) (Some 9)); (27, Left outer_section);
     (32, Reported (TestCaseEnded (t_id twice) 1 (mkcounts 1 0 0) Success) (Some 29));
     (33, Reported (TestRunEnded (quote "demo") [] 1 0 0 0 (mkcounts 1 0 0) true) (Some 32))]%Z, true).
Proof. split; [intros; apply Nat2Z.inj_le; auto|vm_compute; reflexivity]. Qed.

(** The duration of a section that is run several times is not that of all its runs, and that of a section left by an
    exception is not that of its block: [d] is neither what was spent inside nor a bound of it. *)
Theorem C75_section_total_refuted :
  exists (clock : nat -> Z) (fuel : nat) (lm : limits) (tests : list test_case) (name : text) (h : history test_id) (success : bool)
         (t : Z) (s : section_id) (c : counts) (d : Z),
  (forall k, clock k < clock (S k))%Z /\
  timed_run_selected_tests clock fuel lm High tests name [] (fun _ => Ok true) = Ok (h, success) /\ In (t, Reported (SectionEnded s false c) (Some d)) h /\
  (d < time_inside (fun s' => Nat.eqb (sec_line s') (sec_line s)) h)%Z.
Proof. exact section_total_short. Qed.
Print Assumptions C75_section_total_refuted.

Theorem C75_section_late_refuted :
  exists (clock : nat -> Z) (fuel : nat) (lm : limits) (tests : list test_case) (name : text) (h : history test_id) (success : bool)
         (t : Z) (s : section_id) (c : counts) (d : Z),
  (forall k, clock k < clock (S k))%Z /\
  timed_run_selected_tests clock fuel lm High tests name [] (fun _ => Ok true) = Ok (h, success) /\ In (t, Reported (SectionEnded s false c) (Some d)) h /\
  (time_inside (fun s' => Nat.eqb (sec_line s') (sec_line s)) h < d)%Z.
Proof. exact section_late_long. Qed.
Print Assumptions C75_section_late_refuted.

(** ** C76. Units *)

(** Durations are given in seconds, up to the accuracy of [float]: about seven digits. *)
Theorem C76_seconds :
  forall (fl : Q -> Q) (ns : Z), rounding fl -> (0 <= ns)%Z ->
  (Qabs (get_duration_in_seconds fl ns - inject_Z ns / inject_Z 1000000000) <= inject_Z ns / inject_Z 1000000000 * (1 # 8388607))%Q.
Proof. exact seconds_close. Qed.
Print Assumptions C76_seconds.

(** The reporter for TeamCity gives a number of microseconds... *)
Theorem C76_teamcity_microseconds :
  forall (fl : Q -> Q) (ns : Z), rounding fl -> (0 <= ns)%Z ->
  (Qabs (inject_Z (make_duration fl (get_duration_in_seconds fl ns)) - inject_Z ns / inject_Z 1000)
     <= inject_Z ns / inject_Z 1000 * (1 # 5000000) + 1)%Q.
Proof. exact microseconds. Qed.
Print Assumptions C76_teamcity_microseconds.

(** ...where TeamCity expects milliseconds: for all but the shortest durations, it is more than 900 times that. *)
Theorem C76_teamcity_milliseconds_refuted :
  forall (fl : Q -> Q) (ns : Z), rounding fl -> (1000000 <= ns)%Z ->
  (inject_Z 900 * (inject_Z ns / inject_Z 1000000) < inject_Z (make_duration fl (get_duration_in_seconds fl ns)))%Q.
Proof. exact not_milliseconds. Qed.
Print Assumptions C76_teamcity_milliseconds_refuted.

(** A rounding that is not exact; one second and a half. *)
Example C76_example :
  rounding (fun x => x) /\ rounding (fun x => x * (16777217 # 16777216))%Q /\
  (get_duration_in_seconds (fun x => x) 1500000000 == 3 # 2)%Q /\
  ~ (get_duration_in_seconds (fun x => x * (16777217 # 16777216)) 1500000000 == 3 # 2)%Q /\
  make_duration (fun x => x) (3 # 2) = 1500000%Z.
Proof. exact rounding_examples. Qed.
