(** Model of the execution of test cases in a build without exceptions ([SNITCH_WITH_EXCEPTIONS] is 0: the [#else] and
    omitted parts of src/snitch_registry.cpp, src/snitch_section.cpp, src/snitch_test_data.cpp, src/snitch_capture.cpp and
    snitch_macros_check_base.hpp). The parts without conditional compilation are those of Model/Run.v and
    Model/Session.v. The members [held_info] and [unhandled_exception] of [test_state] do not exist
    (snitch_test_data.hpp:338, 349): the fields [held] and [unhandled] are neither read nor written here.
    The second result of a function tells that the program was terminated; the state is then the one at that time. *)
From Verif.Spec Require Import Events.
From Verif.Model Require Import Base Vector StringUtil Filter Run Session.

(** src/snitch_registry.cpp:391-447 [register_assertion], without 402-409, 421-428, 439-445. *)
Definition bare_register_assertion (success : bool) (st : state) : state :=
  let v := if success then Passed else if may_fail st || should_fail st then AllowedFailure else Failure in
  let st1 := set_asserts st (count v (asserts st)) in
  let st2 := set_inf st1 (count_info v (inf st1)) in
  match v with
  | Passed => st2
  | AllowedFailure => raise_state st2 IAllowedFail
  | Failure => raise_state st2 IFailed
  end.

(** src/snitch_registry.cpp:449-495 [report_assertion_impl], with 475-479: the location is always exact. *)
Definition bare_report_assertion (cf : config) (id : test_id) (success : bool) (data : payload) (st : state) : res state :=
  if is_skipped (status st) then Ok st
  else
    let st1 := bare_register_assertion success st in
    do last_location <- back (locations (inf st1)) ;;
    let l := mkloc (loc_line last_location) Exact in
    let sections := map sd_id (current_section (inf st1)) in
    Ok (if success
        then report cf Full st1 (AssertionSucceeded id sections (captures (inf st1)) l data)
        else report cf Quiet st1 (AssertionFailed id sections (captures (inf st1)) l data (should_fail st1) (may_fail st1))).

(** src/snitch_test_data.cpp:39-65, [scoped_test_check]. *)
Definition bare_check_begin (cf : config) (line : nat) (st : state) : res state :=
  do st1 <- push_location cf st (mkloc line InCheck) ;; Ok (set_in_check st1 true).
Definition bare_check_end (st : state) : res state := pop_location (set_in_check st false).

(** src/snitch_section.cpp:72-143 [section_entry_checker::operator bool]. *)
Definition bare_section_enter (cf : config) (s : section_id) (st : state) : res (state * bool) :=
  let i := inf st in
  do lv <- (if length (levels i) <=? depth i
            then if cf_max_nested cf <=? depth i then Err Assert
                 else push_back (cf_max_nested cf) (levels i) (mklevel 0 0 0)
            else Ok (levels i)) ;;
  let d := S (depth i) in
  do level <- at_index lv (d - 1) ;;
  let c := S (cur_id level) in
  let m := if max_id level <? c then c else max_id level in
  do lv1 <- put_index lv (d - 1) (mklevel c (prev_id level) m) ;;
  let st1 := set_inf st (with_depth (with_levels i lv1) d) in
  if leaf_executed i then Ok (st1, false)
  else
    let previous_was_preceding_sibling := c =? S (prev_id level) in
    let children_remaining_in_self := (c =? prev_id level) && (d <? length lv1) in
    if negb previous_was_preceding_sibling && negb children_remaining_in_self then Ok (st1, false)
    else
      do lv2 <- put_index lv1 (d - 1) (mklevel c c m) ;;
      let sd := mksd s (mkcounts 0 0 0) in
      do cs <- push_back (cf_max_nested cf) (current_section (inf st1)) sd ;;
      let st2 := set_inf st1 (with_current_section (with_levels (inf st1) lv2) cs) in
      do st3 <- push_location cf st2 (mkloc (sec_line s) SectionScope) ;;
      Ok (if previous_was_preceding_sibling then report_section_started cf sd st3 else st3, true).

(** src/snitch_section.cpp:13-70, destructor of [section_entry_checker]. *)
Definition bare_section_exit (cf : config) (entered : bool) (st : state) : res state :=
  do st' <-
    (if entered then
       do st1 <- pop_location st ;;
       let i := inf st1 in
       do (i2, last_entry) <-
         (if depth i =? length (levels i) then Ok (with_leaf_executed i true, true)
          else if forallb (fun child => prev_id child =? max_id child) (skipn (depth i) (levels i))
          then do lv <- pop_back (levels i) ;; Ok (with_levels i lv, true)
          else Ok (i, false)) ;;
       let st2 := set_inf st1 i2 in
       do st3 <- (if last_entry : bool
                  then do s <- back (current_section (inf st2)) ;; Ok (report_section_ended cf s st2)
                  else Ok st2) ;;
       do cs <- pop_back (current_section (inf st3)) ;;
       Ok (set_inf st3 (with_current_section (inf st3) cs))
     else Ok st) ;;
  do d <- csub (depth (inf st')) 1 ;;
  Ok (set_inf st' (with_depth (inf st') d)).

(** src/snitch_capture.cpp:84-103 [add_capture], and 23-34, destructor of [scoped_capture]. *)
Fixpoint bare_add_captures (cf : config) (l : list (list str)) (st : state) : res state :=
  match l with
  | [] => Ok st
  | pieces :: l' =>
    if length (captures (inf st)) =? cf_max_captures cf then Err Assert
    else
      do (c, _) <- append_or_truncate (new_string (cf_max_capture_length cf)) pieces ;;
      bare_add_captures cf l' (set_inf st (with_captures (inf st) (captures (inf st) ++ [vcontent c])))
  end.
Definition bare_capture_end (n : nat) (st : state) : res state :=
  do size <- csub (length (captures (inf st))) n ;;
  Ok (set_inf st (with_captures (inf st) (firstn size (captures (inf st))))).

(** Execution of (the rest of) a test body; SNITCH_TESTING_ABORT is [std::terminate()]
    (snitch_macros_check_base.hpp:13-15), which runs no destructor. What cannot be compiled without exceptions is
    marked by [UB]. *)
Fixpoint bare_exec (cf : config) (id : test_id) (pass : nat) (p : prog) (st : state) : res (state * bool) :=
  match p with
  | Nil => Ok (st, false)
  | Act n k => bare_exec cf id pass k (report cf Quiet st (User n))
  | Check line (IsTrue what outcome) abort e k =>
    do st1 <- bare_check_begin cf line st ;;
    do (st2, terminated) <- bare_exec cf id pass e st1 ;;
    if terminated : bool then Ok (st2, true)
    else
      do st3 <- bare_report_assertion cf id (outcome pass) (what pass) st2 ;;
      if negb (outcome pass) && abort then Ok (st3, true)
      else do st4 <- bare_check_end st3 ;; bare_exec cf id pass k st4
  | Skip line message abort k =>
    do st1 <- bare_check_begin cf line st ;;
    do st2 <- report_skipped cf id (message pass) st1 ;;
    if abort then Ok (st2, true)
    else do st3 <- bare_check_end st2 ;; bare_exec cf id pass k st3
  | InSection s b k =>
    do (st1, entered) <- bare_section_enter cf s st ;;
    if entered : bool then
      do (st2, terminated) <- bare_exec cf id pass b st1 ;;
      if terminated : bool then Ok (st2, true)
      else do st3 <- bare_section_exit cf true st2 ;; bare_exec cf id pass k st3
    else
      do st3 <- bare_section_exit cf false st1 ;; bare_exec cf id pass k st3
  | Capture texts b k =>
    do st1 <- bare_add_captures cf (map (fun l => l pass) texts) st ;;
    do (st2, terminated) <- bare_exec cf id pass b st1 ;;
    if terminated : bool then Ok (st2, true)
    else do st3 <- bare_capture_end (length texts) st2 ;; bare_exec cf id pass k st3
  | Check _ _ _ _ _ | Throw _ _ _ | Catch _ _ _ _ => Err UB
  end.

(** src/snitch_registry.cpp:621-641, the loop of [registry::run]. *)
Fixpoint bare_passes (cf : config) (id : test_id) (body : prog) (fuel pass : nat) (st : state) : res (state * bool) :=
  match fuel with
  | O => Err Fuel
  | S fuel' =>
    let i := inf st in
    let st1 := set_inf st (with_levels (with_leaf_executed i false) (map reset_level (levels i))) in
    do (st2, terminated) <- bare_exec cf id pass body st1 ;;
    if terminated : bool then Ok (st2, true)
    else
      let st3 := set_inf st2 (after_pass (inf st2)) in
      if negb (length (levels (inf st3)) =? 0) && negb (is_skipped (status st3))
      then bare_passes cf id body fuel' (S pass) st3
      else Ok (st3, false)
  end.

(** src/snitch_registry.cpp:584-704 [registry::run], without 617-619 and 643-664. *)
Definition bare_run (cf : config) (fuel : nat) (t : test_case) (trace0 : list event) : res (state * bool) :=
  let id := t_id t in
  do (may, should) <- fail_flags (cf_max_tag_length cf) (id_tags id) ;;
  let st0 := report cf High
               (mkstate (mkinfo [] [] 0 false [] []) None (mkcounts 0 0 0) may should false false INotRun trace0)
               (TestCaseStarted id (t_line t)) in
  do st1 <- push_location cf (set_status st0 ISuccess) (mkloc (t_line t) TestCaseScope) ;;
  do (st2, terminated) <- bare_passes cf id (t_body t) fuel 0 st1 ;;
  if terminated : bool then Ok (st2, true)
  else
    do st3 <-
      (if should_fail st2 then
         do st' <- bare_report_assertion cf id (match status st2 with IAllowedFail => true | _ => false end)
                     (Message (lit "expected test to fail"))
                     (set_in_check (set_should_fail st2 false) true) ;;
         Ok (set_should_fail (set_in_check st' false) true)
       else Ok st2) ;;
    do s <- convert_to_public_state (status st3) ;;
    Ok (report cf High st3 (TestCaseEnded id (t_line t) (asserts st3) s), false).

(** src/snitch_registry.cpp:730-763, the loop of [run_selected_tests]. *)
Fixpoint bare_run_loop (fuel : nat) (cf : config) (predicate : test_id -> res bool) (tests : list test_case) (s : summary)
  (events : list event) : res (summary * list event * bool) :=
  match tests with
  | [] => Ok (s, events, false)
  | t :: tests' =>
    do b <- predicate (t_id t) ;;
    if b : bool then
      do (st, terminated) <- bare_run cf fuel t events ;;
      if terminated : bool then Ok (s, trace st, true)
      else bare_run_loop fuel cf predicate tests' (count_test s st) (trace st)
    else bare_run_loop fuel cf predicate tests' s events
  end.

(** src/snitch_registry.cpp:706-803 [run_selected_tests]; returns the events and the result, if there is one. *)
Definition bare_run_selected_tests (lm : limits) (fuel : nat) (v : verbosity) (tests : list test_case) (run_name : str)
  (filters : list str) (predicate : test_id -> res bool) : res (list event * option bool) :=
  let report e := if vlevel Normal <=? vlevel v then [e] else [] in
  do (s, events, terminated) <-
    bare_run_loop fuel (config_of lm v) predicate tests (mksummary true 0 0 0 0 (mkcounts 0 0 0))
      (report (TestRunStarted run_name filters)) ;;
  if terminated : bool then Ok (events, None)
  else
    Ok (events ++ report (TestRunEnded run_name filters (s_run s) (s_fail s) (s_allowed_fail s) (s_skip s) (s_counts s) (s_success s)),
        Some (s_success s)).
