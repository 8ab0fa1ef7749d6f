(** Model of the durations of test cases, sections and runs (SNITCH_WITH_TIMINGS): src/snitch_time.cpp and the parts of
    src/snitch_section.cpp, src/snitch_test_data.cpp and src/snitch_registry.cpp under [#if SNITCH_WITH_TIMINGS].
    The functions of Model/Run.v and Model/Session.v are used as they are; around them, what they do with times:
    [starts] are the members [start_time] (snitch_test_data.hpp:56) of the elements of [current_section], and
    [held_starts] those of the copy in [held_info]. Simplification: time passes between the steps below, not inside. *)
From Coq Require Import ZArith QArith Qround.
From Verif.Spec Require Import Events TimeSpec.
From Verif.Model Require Import Base Vector StringUtil Filter Run Session.
Local Open Scope nat_scope.

Section Timed.
(** [clock k]: what [get_current_time] (src/snitch_time.cpp:12-16) would return at step [k]. *)
Variable clock : nat -> Z.

Record timed := mktimed {
  instant : nat;            (** steps made so far *)
  base : state;
  starts : list Z;
  held_starts : list Z;
  log : history test_id     (** what has been observed *)
}.

(** Events reported at time [t]; those of the end of sections that started at the times [begun], in this order.
    src/snitch_registry.cpp:552-582 [report_section_ended] (562: [end - start] in [std::size_t], converted to a signed
    number of nanoseconds in src/snitch_time.cpp:20: the difference, even if negative). *)
Fixpoint stamp (t : Z) (begun : list Z) (l : list event) : history test_id :=
  match l with
  | [] => []
  | e :: l' =>
    match e, begun with
    | SectionEnded _ _ _, b :: begun' => (t, Reported e (Some (t - b)%Z)) :: stamp t begun' l'
    | _, _ => (t, Reported e None) :: stamp t begun l'
    end
  end.

(** One step, which leads to the state [st]. A section added to [current_section] starts now (src/snitch_section.cpp:128);
    [held_info] is a copy of [info] if it was empty, and empty once the exception is handled. *)
Definition step (begun : list Z) (first last : list (seen test_id)) (st : state) (ts : timed) : timed :=
  let t := clock (instant ts) in
  mktimed (S (instant ts)) st
    (firstn (length (current_section (inf st))) (starts ts ++ [t]))
    (match held st with
     | None => []
     | Some _ => match held (base ts) with Some _ => held_starts ts | None => starts ts end
     end)
    (log ts ++ map (pair t) first ++ stamp t begun (skipn (length (trace (base ts))) (trace st)) ++ map (pair t) last).

(** The sections ended by [notify_exception_handled], last first (src/snitch_test_data.cpp:79-82). *)
Definition closing (ts : timed) : list Z := rev (skipn (length (current_section (inf (base ts)))) (held_starts ts)).

(** A step that may call [notify_exception_handled]. *)
Definition steps_to (st : state) (ts : timed) : timed := step (closing ts) [] [] st ts.

(** src/snitch_section.cpp:72-143, with the call to [notify_exception_handled] (74-78) as a step of its own. *)
Definition timed_section_enter (cf : config) (s : section_id) (ts : timed) : res (timed * bool) :=
  let ts1 := steps_to (notify_exception_handled cf (base ts)) ts in
  do (st, entered) <- section_enter cf s (base ts1) ;;
  Ok (step [] (if entered : bool then [Entered s] else []) [] st ts1, entered).

(** src/snitch_section.cpp:13-70. *)
Definition timed_section_exit (cf : config) (s : section_id) (entered uncaught : bool) (ts : timed) : res timed :=
  do st <- section_exit cf entered uncaught (base ts) ;;
  Ok (step (rev (starts ts)) [] (if entered then [Left s] else []) st ts).

(** The execution of a test body ([exec] of Model/Run.v). *)
Fixpoint timed_exec (cf : config) (id : test_id) (pass : nat) (p : prog) (ts : timed) : res (timed * option exn) :=
  match p with
  | Nil => Ok (ts, None)
  | Act n k => timed_exec cf id pass k (steps_to (report cf Quiet (base ts) (User n)) ts)
  | Throw when x k => if when pass then Ok (ts, Some x) else timed_exec cf id pass k ts
  | Check line w abort e k =>
    do st1 <- check_begin cf line (base ts) ;;
    do (ts2, x) <- timed_exec cf id pass e (steps_to st1 ts) ;;
    do (st3, y) <- conclude cf id pass w abort x (base ts2) ;;
    let ts3 := steps_to st3 ts2 in
    do st4 <- check_end (is_some y) (base ts3) ;;
    let ts4 := steps_to st4 ts3 in
    match y with Some _ => Ok (ts4, y) | None => timed_exec cf id pass k ts4 end
  | Skip line message abort k =>
    do st1 <- check_begin cf line (base ts) ;;
    let ts1 := steps_to st1 ts in
    do st2 <- report_skipped cf id (message pass) (base ts1) ;;
    let ts2 := steps_to st2 ts1 in
    do st3 <- check_end abort (base ts2) ;;
    let ts3 := steps_to st3 ts2 in
    if abort then Ok (ts3, Some AbortExn) else timed_exec cf id pass k ts3
  | InSection s b k =>
    do (ts1, entered) <- timed_section_enter cf s ts ;;
    if entered : bool then
      do (ts2, x) <- timed_exec cf id pass b ts1 ;;
      do ts3 <- timed_section_exit cf s true (is_some x) ts2 ;;
      match x with Some _ => Ok (ts3, x) | None => timed_exec cf id pass k ts3 end
    else
      do ts3 <- timed_section_exit cf s false false ts1 ;;
      timed_exec cf id pass k ts3
  | Capture texts b k =>
    do st1 <- add_captures cf (map (fun l => l pass) texts) (base ts) ;;
    do (ts2, x) <- timed_exec cf id pass b (steps_to st1 ts) ;;
    do st3 <- capture_end (is_some x) (length texts) (base ts2) ;;
    let ts3 := steps_to st3 ts2 in
    match x with Some _ => Ok (ts3, x) | None => timed_exec cf id pass k ts3 end
  | Catch accepts notify b k =>
    do (ts1, x) <- timed_exec cf id pass b ts ;;
    match x with
    | None => timed_exec cf id pass k ts1
    | Some e =>
      if accepts e
      then timed_exec cf id pass k (if notify then steps_to (notify_exception_handled cf (base ts1)) ts1 else ts1)
      else Ok (ts1, x)
    end
  end.

(** src/snitch_registry.cpp:621-641 ([passes] of Model/Run.v). *)
Fixpoint timed_passes (cf : config) (id : test_id) (body : prog) (fuel pass : nat) (ts : timed) : res (timed * option exn) :=
  match fuel with
  | O => Err Fuel
  | S fuel' =>
    let i := inf (base ts) in
    let ts1 := steps_to (set_inf (base ts) (with_levels (with_leaf_executed i false) (map reset_level (levels i)))) ts in
    do (ts2, x) <- timed_exec cf id pass body ts1 ;;
    match x with
    | Some _ => Ok (ts2, x)
    | None =>
      let ts3 := steps_to (set_inf (base ts2) (after_pass (inf (base ts2)))) ts2 in
      if negb (length (levels (inf (base ts3))) =? 0) && negb (is_skipped (status (base ts3)))
      then timed_passes cf id body fuel' (S pass) ts3
      else Ok (ts3, None)
    end
  end.

(** src/snitch_registry.cpp:584-704 ([run] of Model/Run.v), from step [n] and history [before] on: 614 and 675 for the
    duration. *)
Definition timed_run (cf : config) (fuel : nat) (t : test_case) (trace0 : list event) (n : nat) (before : history test_id)
  : res timed :=
  let id := t_id t in
  do (may, should) <- fail_flags (cf_max_tag_length cf) (id_tags id) ;;
  let ts := mktimed n (mkstate (mkinfo [] [] 0 false [] []) None (mkcounts 0 0 0) may should false false INotRun trace0) [] [] before in
  let ts0 := steps_to (report cf High (base ts) (TestCaseStarted id (t_line t))) ts in
  do st1 <- push_location cf (set_status (base ts0) ISuccess) (mkloc (t_line t) TestCaseScope) ;;
  let ts1 := steps_to st1 ts0 in
  let time_start := clock (instant ts1) in
  do (ts2, x) <- timed_passes cf id (t_body t) fuel 0 ts1 ;;
  do st3 <-
    (match x with
     | None =>
       do st' <- report_assertion cf id true (Message (lit "no exception caught")) (set_in_check (base ts2) true) ;;
       Ok (set_in_check st' false)
     | Some AbortExn => Ok (set_unhandled (base ts2) true)
     | Some (StdExn what) =>
       report_assertion2 cf id false (lit "unexpected std::exception caught; message: ") what (set_unhandled (base ts2) true)
     | Some OtherExn =>
       report_assertion cf id false (Message (lit "unexpected unknown exception caught")) (set_unhandled (base ts2) true)
     end) ;;
  let ts3 := steps_to st3 ts2 in
  let ts4 := steps_to (if unhandled (base ts3) then notify_exception_handled cf (base ts3) else base ts3) ts3 in
  let st5 := set_unhandled (base ts4) false in
  do st6 <-
    (if should_fail st5 then
       do st' <- report_assertion cf id (match status st5 with IAllowedFail => true | _ => false end)
                   (Message (lit "expected test to fail"))
                   (set_in_check (set_should_fail st5 false) true) ;;
       Ok (set_should_fail (set_in_check st' false) true)
     else Ok st5) ;;
  let ts6 := steps_to st6 ts4 in
  do s <- convert_to_public_state (status (base ts6)) ;;
  let e := TestCaseEnded id (t_line t) (asserts (base ts6)) s in
  let time_end := clock (instant ts6) in
  Ok (mktimed (S (instant ts6)) (report cf High (base ts6) e) (starts ts6) (held_starts ts6)
        (log ts6 ++ if vlevel High <=? vlevel (cf_verbosity cf)
                    then [(time_end, Reported e (Some (time_end - time_start)%Z))] else [])).

(** src/snitch_registry.cpp:706-803 ([run_loop], [run_selected_tests] of Model/Session.v): 726 and 767 for the duration. *)
Fixpoint timed_run_loop (fuel : nat) (cf : config) (predicate : test_id -> res bool) (tests : list test_case) (s : summary)
  (events : list event) (n : nat) (before : history test_id) : res (summary * list event * nat * history test_id) :=
  match tests with
  | [] => Ok (s, events, n, before)
  | t :: tests' =>
    do b <- predicate (t_id t) ;;
    if b : bool then
      do ts <- timed_run cf fuel t events n before ;;
      timed_run_loop fuel cf predicate tests' (count_test s (base ts)) (trace (base ts)) (instant ts) (log ts)
    else timed_run_loop fuel cf predicate tests' s events n before
  end.

Definition timed_run_selected_tests (fuel : nat) (lm : limits) (v : verbosity) (tests : list test_case) (run_name : str)
  (filters : list str) (predicate : test_id -> res bool) : res (history test_id * bool) :=
  let report e := if vlevel Normal <=? vlevel v then [e] else [] in
  let started := TestRunStarted run_name filters in
  let time_start := clock 1 in
  do (s, events, n, l) <-
    timed_run_loop fuel (config_of lm v) predicate tests (mksummary true 0 0 0 0 (mkcounts 0 0 0)) (report started) 1
      (map (fun e => (clock 0, Reported e None)) (report started)) ;;
  let ended := TestRunEnded run_name filters (s_run s) (s_fail s) (s_allowed_fail s) (s_skip s) (s_counts s) (s_success s) in
  Ok (l ++ map (fun e => (clock n, Reported e (Some (clock n - time_start)%Z))) (report ended), s_success s).

End Timed.

(** src/snitch_time.cpp:18-22 [get_duration_in_seconds]: [float(ns) / float(1e9)]; 10^9 is a [float]. [fl] is the rounding
    to [float]. *)
Definition get_duration_in_seconds (fl : Q -> Q) (ns : Z) : Q := fl (fl (inject_Z ns) / inject_Z 1000000000)%Q.

(** src/snitch_reporter_teamcity.cpp:112-117 [make_duration], the number before it is printed: [std::size_t(duration * 1e6f)];
    10^6 is a [float]. *)
Definition make_duration (fl : Q -> Q) (duration : Q) : Z := Qfloor (fl (duration * inject_Z 1000000)%Q).
