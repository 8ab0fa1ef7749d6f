(** Model of the execution of test cases with objects whose destructors contain code of the test, such as checks: an
    exception may be in flight while they are executed ([std::uncaught_exceptions() > 0]). Parameter [u] of the functions
    below: such an exception is in flight where the function is called. Destructors are [noexcept], as is the default.
    What does not depend on this is in Model/Run.v. *)
From Verif.Spec Require Import Events UnwindingSpec.
From Verif.Model Require Import Base Vector StringUtil Filter Run.

(** [if (std::uncaught_exceptions() == 0) { notify_exception_handled(); }]: src/snitch_test_data.cpp:42-46,
    src/snitch_section.cpp:73-77, src/snitch_capture.cpp:94-98. *)
Definition notify_unless (u : bool) (cf : config) (st : state) : state :=
  if u then st else notify_exception_handled cf st.

(** src/snitch_registry.cpp:449-495 [report_assertion_impl]. *)
Definition unwinding_report (u : bool) (cf : config) (id : test_id) (success : bool) (data : payload) (st : state)
  : res state :=
  if is_skipped (status st) then Ok st
  else
    let st1 := register_assertion success st in
    let i := match held st1 with Some h => if unhandled st1 || u then h else inf st1 | None => inf st1 end in
    do last_location <- back (locations i) ;;
    let l := if in_check st1 then mkloc (loc_line last_location) Exact else last_location in
    let sections := map sd_id (current_section i) in
    Ok (if success
        then report cf Full st1 (AssertionSucceeded id sections (captures i) l data)
        else report cf Quiet st1 (AssertionFailed id sections (captures i) l data (should_fail st1) (may_fail st1))).

(** src/snitch_registry.cpp:503-514. *)
Definition unwinding_report2 (u : bool) (cf : config) (id : test_id) (success : bool) (message1 message2 : str) (st : state)
  : res state :=
  if is_skipped (status st) then Ok st
  else
    do (m, _) <- append_or_truncate (new_string (cf_max_message_length cf)) [message1; message2] ;;
    unwinding_report u cf id success (Message (vcontent m)) st.

(** src/snitch_test_data.cpp:39-50, constructor of [scoped_test_check]. *)
Definition unwinding_check_begin (u : bool) (cf : config) (line : nat) (st : state) : res state :=
  do st2 <- push_location cf (notify_unless u cf st) (mkloc line InCheck) ;;
  Ok (set_in_check st2 true).

(** src/snitch_section.cpp:72-143 [section_entry_checker::operator bool]. *)
Definition unwinding_section_enter (u : bool) (cf : config) (s : section_id) (st0 : state) : res (state * bool) :=
  let st := notify_unless u cf st0 in
  let i := inf st in
  do lv <- (if length (levels i) <=? depth i
            then if cf_max_nested cf <=? depth i then Err Assert
                 else push_back (cf_max_nested cf) (levels i) (mklevel 0 0 0)
            else Ok (levels i)) ;;
  let d := S (depth i) in
  do level <- at_index lv (d - 1) ;;
  let c := S (cur_id level) in
  let m := if max_id level <? c then c else max_id level in
  do lv1 <- put_index lv (d - 1) (mklevel c (prev_id level) m) ;;
  let st1 := set_inf st (with_depth (with_levels i lv1) d) in
  if leaf_executed i then Ok (st1, false)
  else
    let previous_was_preceding_sibling := c =? S (prev_id level) in
    let children_remaining_in_self := (c =? prev_id level) && (d <? length lv1) in
    if negb previous_was_preceding_sibling && negb children_remaining_in_self then Ok (st1, false)
    else
      do lv2 <- put_index lv1 (d - 1) (mklevel c c m) ;;
      let sd := mksd s (mkcounts 0 0 0) in
      do cs <- push_back (cf_max_nested cf) (current_section (inf st1)) sd ;;
      let st2 := set_inf st1 (with_current_section (with_levels (inf st1) lv2) cs) in
      do st3 <- push_location cf st2 (mkloc (sec_line s) SectionScope) ;;
      Ok (if previous_was_preceding_sibling then report_section_started cf sd st3 else st3, true).

(** src/snitch_capture.cpp:84-103 [add_capture], include/snitch/snitch_capture.hpp:27-47. *)
Definition unwinding_add_capture (u : bool) (cf : config) (pieces : list str) (st : state) : res state :=
  if length (captures (inf st)) =? cf_max_captures cf then Err Assert
  else
    let st1 := notify_unless u cf st in
    do (c, _) <- append_or_truncate (new_string (cf_max_capture_length cf)) pieces ;;
    Ok (set_inf st1 (with_captures (inf st1) (captures (inf st1) ++ [vcontent c]))).
Fixpoint unwinding_add_captures (u : bool) (cf : config) (l : list (list str)) (st : state) : res state :=
  match l with
  | [] => Ok st
  | c :: l' => do st1 <- unwinding_add_capture u cf c st ;; unwinding_add_captures u cf l' st1
  end.

(** As [conclude] of Model/Run.v (snitch_macros_check_base.hpp:33-38, snitch_macros_exceptions.hpp:13-126). In the handlers of
    the macros for exceptions, the exception that was caught is not in flight any more, but one that was in flight before
    still is. The calls to [notify_exception_handled] of these macros are unconditional. *)
Definition unwinding_conclude (u : bool) (cf : config) (id : test_id) (pass : nat) (w : expectation) (abort : bool) (x : option exn)
  (st : state) : res (state * option exn) :=
  match w with
  | IsTrue what outcome =>
    match x with
    | Some _ => Ok (st, x)
    | None =>
      do st1 <- unwinding_report u cf id (outcome pass) (what pass) st ;;
      Ok (st1, if outcome pass then None else maybe_abort abort)
    end
  | Throws type accepts =>
    match x with
    | None =>
      do st1 <- unwinding_report u cf id false (Message (type ++ lit " expected but no exception thrown")) st ;;
      Ok (st1, maybe_abort abort)
    | Some e =>
      if accepts e then
        do st1 <- unwinding_report u cf id true (Message (type ++ lit " was thrown as expected")) st ;;
        Ok (notify_exception_handled cf st1, None)
      else
        do st1 <- (match e with
                   | StdExn what =>
                     unwinding_report2 u cf id false
                       (type ++ lit " expected but other std::exception thrown; message: ") what st
                   | _ =>
                     unwinding_report u cf id false
                       (Message (type ++ lit " expected but other unknown exception thrown")) st
                   end) ;;
        Ok (notify_exception_handled cf st1, maybe_abort abort)
    end
  | ThrowsMatching type accepts matches describe =>
    match x with
    | None =>
      do st1 <- unwinding_report u cf id false (Message (type ++ lit " expected but no exception thrown")) st ;;
      Ok (st1, maybe_abort abort)
    | Some e =>
      if accepts e then
        if matches e then
          do st1 <- unwinding_report2 u cf id true
                      (lit "caught " ++ type ++ lit " matched expected content: ") (describe e) st ;;
          Ok (notify_exception_handled cf st1, None)
        else
          do st1 <- unwinding_report2 u cf id false
                      (lit "could not match caught " ++ type ++ lit " with expected content: ") (describe e) st ;;
          Ok (notify_exception_handled cf st1, maybe_abort abort)
      else
        do st1 <- (match e with
                   | StdExn what =>
                     unwinding_report2 u cf id false
                       (type ++ lit " expected but other std::exception thrown; message: ") what st
                   | _ =>
                     unwinding_report u cf id false
                       (Message (type ++ lit " expected but other unknown exception thrown")) st
                   end) ;;
        Ok (notify_exception_handled cf st1, maybe_abort abort)
    end
  | DoesNotThrow source =>
    match x with
    | None =>
      do st1 <- unwinding_report u cf id true (Message (source ++ lit " did not throw")) st ;;
      Ok (st1, None)
    | Some e =>
      do st1 <- (match e with
                 | StdExn what =>
                   unwinding_report2 u cf id false
                     (lit "expected " ++ source ++ lit " not to throw but it threw a std::exception; message: ") what st
                 | _ =>
                   unwinding_report u cf id false
                     (Message (lit "expected " ++ source ++ lit " not to throw but it threw an unknown exception")) st
                 end) ;;
      Ok (notify_exception_handled cf st1, maybe_abort abort)
    end
  end.

(** As [exec] of Model/Run.v. An exception that leaves a destructor ends the program ([std::terminate]). *)
Fixpoint unwinding_exec (u : bool) (cf : config) (id : test_id) (pass : nat) (p : gprog) (st : state) : res (state * option exn) :=
  match p with
  | GNil => Ok (st, None)
  | GAct n k => unwinding_exec u cf id pass k (report cf Quiet st (User n))
  | GThrow when x k => if when pass then Ok (st, Some x) else unwinding_exec u cf id pass k st
  | GCheck line w abort e k =>
    do st1 <- unwinding_check_begin u cf line st ;;
    do (st2, x) <- unwinding_exec u cf id pass e st1 ;;
    do (st3, y) <- unwinding_conclude u cf id pass w abort x st2 ;;
    do st4 <- check_end (u || is_some y) st3 ;;
    match y with Some _ => Ok (st4, y) | None => unwinding_exec u cf id pass k st4 end
  | GSkip line message abort k =>
    do st1 <- unwinding_check_begin u cf line st ;;
    do st2 <- report_skipped cf id (message pass) st1 ;;
    do st3 <- check_end (u || abort) st2 ;;
    if abort then Ok (st3, Some AbortExn) else unwinding_exec u cf id pass k st3
  | GInSection s b k =>
    do (st1, entered) <- unwinding_section_enter u cf s st ;;
    if entered : bool then
      do (st2, x) <- unwinding_exec u cf id pass b st1 ;;
      do st3 <- section_exit cf true (u || is_some x) st2 ;;
      match x with Some _ => Ok (st3, x) | None => unwinding_exec u cf id pass k st3 end
    else
      do st3 <- section_exit cf false u st1 ;;
      unwinding_exec u cf id pass k st3
  | GCapture texts b k =>
    do st1 <- unwinding_add_captures u cf (map (fun l => l pass) texts) st ;;
    do (st2, x) <- unwinding_exec u cf id pass b st1 ;;
    do st3 <- capture_end (u || is_some x) (length texts) st2 ;;
    match x with Some _ => Ok (st3, x) | None => unwinding_exec u cf id pass k st3 end
  | GCatch accepts notify b k =>
    do (st1, x) <- unwinding_exec u cf id pass b st ;;
    match x with
    | None => unwinding_exec u cf id pass k st1
    | Some e =>
      if accepts e
      then unwinding_exec u cf id pass k (if notify then notify_exception_handled cf st1 else st1)
      else Ok (st1, x)
    end
  | GScope d b k =>
    do (st1, x) <- unwinding_exec u cf id pass b st ;;
    do (st2, y) <- unwinding_exec (u || is_some x) cf id pass d st1 ;;
    match y with
    | Some _ => Err Terminate
    | None => match x with Some _ => Ok (st2, x) | None => unwinding_exec u cf id pass k st2 end
    end
  end.

(** src/snitch_registry.cpp:621-641, as [passes] of Model/Run.v. *)
Fixpoint unwinding_passes (cf : config) (id : test_id) (body : gprog) (fuel pass : nat) (st : state)
  : res (state * option exn) :=
  match fuel with
  | O => Err Fuel
  | S fuel' =>
    let i := inf st in
    let st1 := set_inf st (with_levels (with_leaf_executed i false) (map reset_level (levels i))) in
    do (st2, x) <- unwinding_exec false cf id pass body st1 ;;
    match x with
    | Some _ => Ok (st2, x)
    | None =>
      let st3 := set_inf st2 (after_pass (inf st2)) in
      if negb (length (levels (inf st3)) =? 0) && negb (is_skipped (status st3))
      then unwinding_passes cf id body fuel' (S pass) st3
      else Ok (st3, None)
    end
  end.

(** src/snitch_registry.cpp:584-704, as [run] of Model/Run.v: no exception is in flight in its handlers. *)
Definition unwinding_run (cf : config) (fuel : nat) (id : test_id) (line : nat) (body : gprog) (trace0 : list event) : res state :=
  do (may, should) <- fail_flags (cf_max_tag_length cf) (id_tags id) ;;
  let st0 := report cf High
               (mkstate (mkinfo [] [] 0 false [] []) None (mkcounts 0 0 0) may should false false INotRun trace0)
               (TestCaseStarted id line) in
  do st1 <- push_location cf (set_status st0 ISuccess) (mkloc line TestCaseScope) ;;
  do (st2, x) <- unwinding_passes cf id body fuel 0 st1 ;;
  do st3 <-
    (match x with
     | None =>
       do st' <- report_assertion cf id true (Message (lit "no exception caught")) (set_in_check st2 true) ;;
       Ok (set_in_check st' false)
     | Some AbortExn => Ok (set_unhandled st2 true)
     | Some (StdExn what) =>
       report_assertion2 cf id false (lit "unexpected std::exception caught; message: ") what (set_unhandled st2 true)
     | Some OtherExn =>
       report_assertion cf id false (Message (lit "unexpected unknown exception caught")) (set_unhandled st2 true)
     end) ;;
  let st4 := if unhandled st3 then notify_exception_handled cf st3 else st3 in
  let st5 := set_unhandled st4 false in
  do st6 <-
    (if should_fail st5 then
       do st' <- report_assertion cf id (match status st5 with IAllowedFail => true | _ => false end)
                   (Message (lit "expected test to fail"))
                   (set_in_check (set_should_fail st5 false) true) ;;
       Ok (set_should_fail (set_in_check st' false) true)
     else Ok st5) ;;
  do s <- convert_to_public_state (status st6) ;;
  Ok (report cf High st6 (TestCaseEnded id line (asserts st6) s)).
