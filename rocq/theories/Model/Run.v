(** Model of the execution of one test case: src/snitch_registry.cpp:388-704, src/snitch_section.cpp,
    src/snitch_test_data.cpp, src/snitch_capture.cpp, and the macros of snitch_macros_check.hpp,
    snitch_macros_exceptions.hpp, snitch_macros_misc.hpp, for a build with exceptions enabled.
    Not modelled here: timings (Model/Timed.v); file names in locations; checks executed in destructors during stack
    unwinding (Model/Unwinding.v; here [std::uncaught_exceptions()] is positive only inside snitch's own destructors);
    the default [SNITCH_ENABLE=0] macros. Vectors are lists with a capacity test (see C01), counters are natural numbers. *)
From Verif.Model Require Import Base Vector StringUtil Filter.
From Verif.Spec Require Import Events.

Notation event := (Events.event test_id).

(** include/snitch/snitch_test_data.hpp:308-312 [section_nesting_level]. *)
Record level := mklevel { cur_id : nat; prev_id : nat; max_id : nat }.

(** include/snitch/snitch_test_data.hpp:45-62 [section] (without its start time). *)
Record section_data := mksd { sd_id : section_id; sd_counts : counts }.

(** include/snitch/snitch_test_data.hpp:314-330 [section_state], [capture_state], [location_state] and
    [info_state] in one record. *)
Record info := mkinfo {
  current_section : list section_data;
  levels : list level;
  depth : nat;
  leaf_executed : bool;
  captures : list str;
  locations : list location
}.

(** include/snitch/snitch_test_data.hpp:299 [impl::test_case_state]. *)
Inductive istate := INotRun | ISuccess | ISkipped | IFailed | IAllowedFail.
Definition irank (s : istate) : nat :=
  match s with INotRun => 0 | ISuccess => 1 | ISkipped => 2 | IFailed => 3 | IAllowedFail => 4 end.
Definition is_skipped (s : istate) : bool := match s with ISkipped => true | _ => false end.

(** include/snitch/snitch_test_data.hpp:332-356 [test_state], with [test.state], and the list of events
    given so far to the report callback (and effects of the user's code). *)
Record state := mkstate {
  inf : info;
  held : option info;
  asserts : counts;
  may_fail : bool;
  should_fail : bool;
  in_check : bool;
  unhandled : bool;
  status : istate;
  trace : list event
}.

(** Build-time limits (snitch_config.hpp), the verbosity of the registry, and the test case being run. *)
Record config := mkconfig {
  cf_verbosity : verbosity;
  cf_max_nested : nat;
  cf_max_captures : nat;
  cf_max_capture_length : nat;
  cf_max_message_length : nat;
  cf_max_tag_length : nat
}.

(** The same build with [registry::verbose] set to [v] (include/snitch/snitch_registry.hpp:150). *)
Definition with_verbosity (cf : config) (v : verbosity) : config :=
  mkconfig v (cf_max_nested cf) (cf_max_captures cf) (cf_max_capture_length cf) (cf_max_message_length cf)
           (cf_max_tag_length cf).

Record test_case := mktest { t_id : test_id; t_line : nat; t_body : prog }.

(** Field updates. *)
Definition set_inf (st : state) (i : info) : state :=
  mkstate i (held st) (asserts st) (may_fail st) (should_fail st) (in_check st) (unhandled st) (status st) (trace st).
Definition set_held (st : state) (h : option info) : state :=
  mkstate (inf st) h (asserts st) (may_fail st) (should_fail st) (in_check st) (unhandled st) (status st) (trace st).
Definition set_asserts (st : state) (a : counts) : state :=
  mkstate (inf st) (held st) a (may_fail st) (should_fail st) (in_check st) (unhandled st) (status st) (trace st).
Definition set_should_fail (st : state) (b : bool) : state :=
  mkstate (inf st) (held st) (asserts st) (may_fail st) b (in_check st) (unhandled st) (status st) (trace st).
Definition set_in_check (st : state) (b : bool) : state :=
  mkstate (inf st) (held st) (asserts st) (may_fail st) (should_fail st) b (unhandled st) (status st) (trace st).
Definition set_unhandled (st : state) (b : bool) : state :=
  mkstate (inf st) (held st) (asserts st) (may_fail st) (should_fail st) (in_check st) b (status st) (trace st).
Definition set_status (st : state) (s : istate) : state :=
  mkstate (inf st) (held st) (asserts st) (may_fail st) (should_fail st) (in_check st) (unhandled st) s (trace st).

Definition with_current_section (i : info) (l : list section_data) : info :=
  mkinfo l (levels i) (depth i) (leaf_executed i) (captures i) (locations i).
Definition with_levels (i : info) (l : list level) : info :=
  mkinfo (current_section i) l (depth i) (leaf_executed i) (captures i) (locations i).
Definition with_depth (i : info) (d : nat) : info :=
  mkinfo (current_section i) (levels i) d (leaf_executed i) (captures i) (locations i).
Definition with_leaf_executed (i : info) (b : bool) : info :=
  mkinfo (current_section i) (levels i) (depth i) b (captures i) (locations i).
Definition with_captures (i : info) (l : list str) : info :=
  mkinfo (current_section i) (levels i) (depth i) (leaf_executed i) l (locations i).
Definition with_locations (i : info) (l : list location) : info :=
  mkinfo (current_section i) (levels i) (depth i) (leaf_executed i) (captures i) l.

(** The report callback, called if the verbosity is at least [v]
    (the tests [verbose >= registry::verbosity::...] of src/snitch_registry.cpp). *)
Definition report (cf : config) (v : verbosity) (st : state) (e : event) : state :=
  if vlevel v <=? vlevel (cf_verbosity cf)
  then mkstate (inf st) (held st) (asserts st) (may_fail st) (should_fail st) (in_check st) (unhandled st)
               (status st) (trace st ++ [e])
  else st.

(** [small_vector] operations used below, at the level of contents (include/snitch/snitch_vector.hpp:
    [push_back] 95-103, [pop_back] 118-124, [back] 126-140, [operator[]] 181-193). *)
Definition push_back {A} (capacity : nat) (l : list A) (x : A) : res (list A) :=
  if length l =? capacity then Err Assert else Ok (l ++ [x]).
Definition pop_back {A} (l : list A) : res (list A) :=
  match l with [] => Err Assert | _ => Ok (removelast l) end.
Definition back {A} (l : list A) : res A :=
  match rev l with [] => Err Assert | x :: _ => Ok x end.
Definition at_index {A} (l : list A) (i : nat) : res A :=
  match nth_error l i with Some x => Ok x | None => Err Assert end.
Definition put_index {A} (l : list A) (i : nat) (x : A) : res (list A) :=
  if i <? length l then Ok (firstn i l ++ x :: skipn (S i) l) else Err Assert.

(** src/snitch_registry.cpp:115-120 [set_state]. *)
Definition raise_state (st : state) (s : istate) : state :=
  if irank (status st) <? irank s then set_status st s else st.

(** src/snitch_registry.cpp:122-130 [convert_to_public_state]. *)
Definition convert_to_public_state (s : istate) : res case_state :=
  match s with
  | ISuccess => Ok Success
  | ISkipped => Ok Skipped
  | IFailed => Ok Failed
  | IAllowedFail => Ok AllowedFail
  | INotRun => Err Terminate
  end.

(** src/snitch_test_data.cpp:31-37 [push_location], [pop_location]; the capacity is the one of
    [location_state], snitch_test_data.hpp:324. *)
Definition push_location (cf : config) (st : state) (l : location) : res state :=
  do ls <- push_back (cf_max_nested cf + 2) (locations (inf st)) l ;;
  Ok (set_inf st (with_locations (inf st) ls)).
Definition pop_location (st : state) : res state :=
  do ls <- pop_back (locations (inf st)) ;;
  Ok (set_inf st (with_locations (inf st) ls)).

(** src/snitch_registry.cpp:391-447 [register_assertion]. *)
Inductive verdict := Passed | AllowedFailure | Failure.
Definition count (v : verdict) (c : counts) : counts :=
  match v with
  | Passed => mkcounts (S (n_all c)) (n_failed c) (n_allowed c)
  | AllowedFailure => mkcounts (S (n_all c)) (n_failed c) (S (n_allowed c))
  | Failure => mkcounts (S (n_all c)) (S (n_failed c)) (n_allowed c)
  end.
Definition count_section (v : verdict) (s : section_data) : section_data :=
  mksd (sd_id s) (count v (sd_counts s)).
Definition count_info (v : verdict) (i : info) : info :=
  with_current_section i (map (count_section v) (current_section i)).
Definition register_assertion (success : bool) (st : state) : state :=
  let v := if success then Passed else if may_fail st || should_fail st then AllowedFailure else Failure in
  let st1 := set_asserts st (count v (asserts st)) in
  let st2 := set_inf st1 (count_info v (inf st1)) in
  let st3 := match held st2 with Some h => set_held st2 (Some (count_info v h)) | None => st2 end in
  match v with
  | Passed => st3
  | AllowedFailure => raise_state st3 IAllowedFail
  | Failure => raise_state st3 IFailed
  end.

(** src/snitch_registry.cpp:449-495 [report_assertion_impl], and 132-140 [make_capture_buffer].
    [std::uncaught_exceptions()] is 0 here. *)
Definition report_assertion (cf : config) (id : test_id) (success : bool) (data : payload) (st : state)
  : res state :=
  if is_skipped (status st) then Ok st
  else
    let st1 := register_assertion success st in
    let i := match held st1 with Some h => if unhandled st1 then h else inf st1 | None => inf st1 end in
    do last_location <- back (locations i) ;;
    let l := if in_check st1 then mkloc (loc_line last_location) Exact else last_location in
    let sections := map sd_id (current_section i) in
    Ok (if success
        then report cf Full st1 (AssertionSucceeded id sections (captures i) l data)
        else report cf Quiet st1 (AssertionFailed id sections (captures i) l data (should_fail st1) (may_fail st1))).

(** src/snitch_registry.cpp:503-514 [report_assertion(success, message1, message2)]. *)
Definition report_assertion2 (cf : config) (id : test_id) (success : bool) (message1 message2 : str) (st : state)
  : res state :=
  if is_skipped (status st) then Ok st
  else
    do (m, _) <- append_or_truncate (new_string (cf_max_message_length cf)) [message1; message2] ;;
    report_assertion cf id success (Message (vcontent m)) st.

(** src/snitch_registry.cpp:526-540 [report_skipped]. *)
Definition report_skipped (cf : config) (id : test_id) (message : str) (st : state) : res state :=
  let st1 := raise_state st ISkipped in
  do last_location <- back (locations (inf st1)) ;;
  Ok (report cf Quiet st1
        (TestCaseSkipped id (map sd_id (current_section (inf st1))) (captures (inf st1))
                         (mkloc (loc_line last_location) Exact) message)).

(** src/snitch_registry.cpp:542-550 [report_section_started]. *)
Definition report_section_started (cf : config) (s : section_data) (st : state) : state :=
  report cf High st (SectionStarted (sd_id s)).

(** src/snitch_registry.cpp:552-582 [report_section_ended]. *)
Definition report_section_ended (cf : config) (s : section_data) (st : state) : state :=
  report cf High st (SectionEnded (sd_id s) (is_skipped (status st)) (sd_counts s)).

(** The loop of src/snitch_test_data.cpp:79-82: [held] is the held section stack, last section first. *)
Fixpoint close_sections (cf : config) (held : list section_data) (current : nat) (st : state) : state :=
  match held with
  | [] => st
  | s :: held' => if current <? length held
                  then close_sections cf held' current (report_section_ended cf s st)
                  else st
  end.

(** src/snitch_test_data.cpp:70-86 [notify_exception_handled]. *)
Definition notify_exception_handled (cf : config) (st : state) : state :=
  match held st with
  | None => st
  | Some h =>
    set_held (close_sections cf (rev (current_section h)) (length (current_section (inf st))) st) None
  end.

(** The statements [if (std::uncaught_exceptions() > 0 && !held_info.has_value()) held_info = info;] of the
    destructors (src/snitch_section.cpp:17-25, src/snitch_test_data.cpp:55-62, src/snitch_capture.cpp:24-31). *)
Definition hold (uncaught : bool) (st : state) : state :=
  match held st with
  | Some _ => st
  | None => if uncaught then set_held st (Some (inf st)) else st
  end.

(** src/snitch_test_data.cpp:39-50, constructor of [scoped_test_check]. *)
Definition check_begin (cf : config) (line : nat) (st : state) : res state :=
  let st1 := notify_exception_handled cf st in
  do st2 <- push_location cf st1 (mkloc line InCheck) ;;
  Ok (set_in_check st2 true).

(** src/snitch_test_data.cpp:52-65, destructor of [scoped_test_check]. *)
Definition check_end (uncaught : bool) (st : state) : res state :=
  pop_location (hold uncaught (set_in_check st false)).

(** src/snitch_section.cpp:72-143 [section_entry_checker::operator bool]; returns whether the section is
    entered (also kept in the member [entered]). *)
Definition section_enter (cf : config) (s : section_id) (st0 : state) : res (state * bool) :=
  let st := notify_exception_handled cf st0 in
  let i := inf st in
  do lv <- (if length (levels i) <=? depth i
            then if cf_max_nested cf <=? depth i then Err Assert
                 else push_back (cf_max_nested cf) (levels i) (mklevel 0 0 0)
            else Ok (levels i)) ;;
  let d := S (depth i) in
  do level <- at_index lv (d - 1) ;;
  let c := S (cur_id level) in
  let m := if max_id level <? c then c else max_id level in
  do lv1 <- put_index lv (d - 1) (mklevel c (prev_id level) m) ;;
  let st1 := set_inf st (with_depth (with_levels i lv1) d) in
  if leaf_executed i then Ok (st1, false)
  else
    let previous_was_preceding_sibling := c =? S (prev_id level) in
    let children_remaining_in_self := (c =? prev_id level) && (d <? length lv1) in
    if negb previous_was_preceding_sibling && negb children_remaining_in_self then Ok (st1, false)
    else
      do lv2 <- put_index lv1 (d - 1) (mklevel c c m) ;;
      let sd := mksd s (mkcounts 0 0 0) in
      do cs <- push_back (cf_max_nested cf) (current_section (inf st1)) sd ;;
      let st2 := set_inf st1 (with_current_section (with_levels (inf st1) lv2) cs) in
      do st3 <- push_location cf st2 (mkloc (sec_line s) SectionScope) ;;
      Ok (if previous_was_preceding_sibling then report_section_started cf sd st3 else st3, true).

(** src/snitch_section.cpp:13-70, destructor of [section_entry_checker]. *)
Definition section_exit (cf : config) (entered uncaught : bool) (st : state) : res state :=
  do st' <-
    (if entered then
       do st1 <- pop_location (hold uncaught st) ;;
       let i := inf st1 in
       do (i2, last_entry) <-
         (if depth i =? length (levels i) then Ok (with_leaf_executed i true, true)
          else if forallb (fun child => prev_id child =? max_id child) (skipn (depth i) (levels i))
          then do lv <- pop_back (levels i) ;; Ok (with_levels i lv, true)
          else Ok (i, false)) ;;
       let st2 := set_inf st1 i2 in
       do st3 <- (if last_entry && negb uncaught
                  then do s <- back (current_section (inf st2)) ;; Ok (report_section_ended cf s st2)
                  else Ok st2) ;;
       do cs <- pop_back (current_section (inf st3)) ;;
       Ok (set_inf st3 (with_current_section (inf st3) cs))
     else Ok st) ;;
  do d <- csub (depth (inf st')) 1 ;;
  Ok (set_inf st' (with_depth (inf st') d)).

(** src/snitch_capture.cpp:84-103 [add_capture] and include/snitch/snitch_capture.hpp:27-47, for one captured
    text given in pieces: expression name, [" := "] and value for CAPTURE, arguments for INFO. *)
Definition add_capture (cf : config) (pieces : list str) (st : state) : res state :=
  if length (captures (inf st)) =? cf_max_captures cf then Err Assert
  else
    let st1 := notify_exception_handled cf st in
    do (c, _) <- append_or_truncate (new_string (cf_max_capture_length cf)) pieces ;;
    Ok (set_inf st1 (with_captures (inf st1) (captures (inf st1) ++ [vcontent c]))).

Fixpoint add_captures (cf : config) (l : list (list str)) (st : state) : res state :=
  match l with
  | [] => Ok st
  | c :: l' => do st1 <- add_capture cf c st ;; add_captures cf l' st1
  end.

(** src/snitch_capture.cpp:23-34, destructor of [scoped_capture]. *)
Definition capture_end (uncaught : bool) (n : nat) (st : state) : res state :=
  let st1 := hold uncaught st in
  do size <- csub (length (captures (inf st1))) n ;;
  Ok (set_inf st1 (with_captures (inf st1) (firstn size (captures (inf st1))))).

(** The body of a check macro between the construction and the destruction of the [scoped_test_check], once the
    code under check has ended with [x] ([None]: normally). Returns the new state and the exception with which
    the scope is left.
    [IsTrue]: SNITCH_REPORT_EXPRESSION, snitch_macros_check_base.hpp:33-38 (also snitch_macros_check.hpp:39-57);
    [Throws], [ThrowsMatching], [DoesNotThrow]: snitch_macros_exceptions.hpp:13-44, 51-95, 103-126. *)
Definition maybe_abort (abort : bool) : option exn := if abort then Some AbortExn else None.

Definition conclude (cf : config) (id : test_id) (pass : nat) (w : expectation) (abort : bool) (x : option exn)
  (st : state) : res (state * option exn) :=
  match w with
  | IsTrue what outcome =>
    match x with
    | Some _ => Ok (st, x)
    | None =>
      do st1 <- report_assertion cf id (outcome pass) (what pass) st ;;
      Ok (st1, if outcome pass then None else maybe_abort abort)
    end
  | Throws type accepts =>
    match x with
    | None =>
      do st1 <- report_assertion cf id false (Message (type ++ lit " expected but no exception thrown")) st ;;
      Ok (st1, maybe_abort abort)
    | Some e =>
      if accepts e then
        do st1 <- report_assertion cf id true (Message (type ++ lit " was thrown as expected")) st ;;
        Ok (notify_exception_handled cf st1, None)
      else
        do st1 <- (match e with
                   | StdExn what =>
                     report_assertion2 cf id false
                       (type ++ lit " expected but other std::exception thrown; message: ") what st
                   | _ =>
                     report_assertion cf id false
                       (Message (type ++ lit " expected but other unknown exception thrown")) st
                   end) ;;
        Ok (notify_exception_handled cf st1, maybe_abort abort)
    end
  | ThrowsMatching type accepts matches describe =>
    match x with
    | None =>
      do st1 <- report_assertion cf id false (Message (type ++ lit " expected but no exception thrown")) st ;;
      Ok (st1, maybe_abort abort)
    | Some e =>
      if accepts e then
        if matches e then
          do st1 <- report_assertion2 cf id true
                      (lit "caught " ++ type ++ lit " matched expected content: ") (describe e) st ;;
          Ok (notify_exception_handled cf st1, None)
        else
          do st1 <- report_assertion2 cf id false
                      (lit "could not match caught " ++ type ++ lit " with expected content: ") (describe e) st ;;
          Ok (notify_exception_handled cf st1, maybe_abort abort)
      else
        do st1 <- (match e with
                   | StdExn what =>
                     report_assertion2 cf id false
                       (type ++ lit " expected but other std::exception thrown; message: ") what st
                   | _ =>
                     report_assertion cf id false
                       (Message (type ++ lit " expected but other unknown exception thrown")) st
                   end) ;;
        Ok (notify_exception_handled cf st1, maybe_abort abort)
    end
  | DoesNotThrow source =>
    match x with
    | None =>
      do st1 <- report_assertion cf id true (Message (source ++ lit " did not throw")) st ;;
      Ok (st1, None)
    | Some e =>
      do st1 <- (match e with
                 | StdExn what =>
                   report_assertion2 cf id false
                     (lit "expected " ++ source ++ lit " not to throw but it threw a std::exception; message: ") what st
                 | _ =>
                   report_assertion cf id false
                     (Message (lit "expected " ++ source ++ lit " not to throw but it threw an unknown exception")) st
                 end) ;;
      Ok (notify_exception_handled cf st1, maybe_abort abort)
    end
  end.

Definition is_some {A} (x : option A) : bool := match x with Some _ => true | None => false end.

(** Execution of (the rest of) a test body, in pass number [pass]; returns the exception that leaves it, if any.
    The objects declared by the macros are destroyed at the end of their scope, normally or by unwinding
    (SNITCH_SECTION, SNITCH_CAPTURE, SNITCH_INFO: snitch_macros_misc.hpp:11-21; SNITCH_SKIP:
    snitch_macros_check.hpp:58-69). *)
Fixpoint exec (cf : config) (id : test_id) (pass : nat) (p : prog) (st : state) : res (state * option exn) :=
  match p with
  | Nil => Ok (st, None)
  | Act n k => exec cf id pass k (report cf Quiet st (User n))
  | Throw when x k => if when pass then Ok (st, Some x) else exec cf id pass k st
  | Check line w abort e k =>
    do st1 <- check_begin cf line st ;;
    do (st2, x) <- exec cf id pass e st1 ;;
    do (st3, y) <- conclude cf id pass w abort x st2 ;;
    do st4 <- check_end (is_some y) st3 ;;
    match y with Some _ => Ok (st4, y) | None => exec cf id pass k st4 end
  | Skip line message abort k =>
    do st1 <- check_begin cf line st ;;
    do st2 <- report_skipped cf id (message pass) st1 ;;
    do st3 <- check_end abort st2 ;;
    if abort then Ok (st3, Some AbortExn) else exec cf id pass k st3
  | InSection s b k =>
    do (st1, entered) <- section_enter cf s st ;;
    if entered : bool then
      do (st2, x) <- exec cf id pass b st1 ;;
      do st3 <- section_exit cf true (is_some x) st2 ;;
      match x with Some _ => Ok (st3, x) | None => exec cf id pass k st3 end
    else
      do st3 <- section_exit cf false false st1 ;;
      exec cf id pass k st3
  | Capture texts b k =>
    do st1 <- add_captures cf (map (fun l => l pass) texts) st ;;
    do (st2, x) <- exec cf id pass b st1 ;;
    do st3 <- capture_end (is_some x) (length texts) st2 ;;
    match x with Some _ => Ok (st3, x) | None => exec cf id pass k st3 end
  | Catch accepts notify b k =>
    do (st1, x) <- exec cf id pass b st ;;
    match x with
    | None => exec cf id pass k st1
    | Some e =>
      if accepts e
      then exec cf id pass k (if notify then notify_exception_handled cf st1 else st1)
      else Ok (st1, x)
    end
  end.

(** src/snitch_registry.cpp:621-641, the loop of [registry::run]. *)
Definition reset_level (l : level) : level := mklevel 0 (prev_id l) (max_id l).

Definition after_pass (i : info) : info :=
  match levels i with
  | [child] => if prev_id child =? max_id child
               then with_current_section (with_levels i []) []
               else i
  | _ => i
  end.

Fixpoint passes (cf : config) (id : test_id) (body : prog) (fuel pass : nat) (st : state)
  : res (state * option exn) :=
  match fuel with
  | O => Err Fuel
  | S fuel' =>
    let i := inf st in
    let st1 := set_inf st (with_levels (with_leaf_executed i false) (map reset_level (levels i))) in
    do (st2, x) <- exec cf id pass body st1 ;;
    match x with
    | Some _ => Ok (st2, x)
    | None =>
      let st3 := set_inf st2 (after_pass (inf st2)) in
      if negb (length (levels (inf st3)) =? 0) && negb (is_skipped (status st3))
      then passes cf id body fuel' (S pass) st3
      else Ok (st3, None)
    end
  end.

(** src/snitch_registry.cpp:584-704 [registry::run] ([fuel] bounds the number of passes). The conversion to a
    public state is only made for the final event; it cannot fail (the state is never [INotRun] there), so it is
    made at any verbosity here. *)
Definition run (cf : config) (fuel : nat) (t : test_case) (trace0 : list event) : res state :=
  let id := t_id t in
  do (may, should) <- fail_flags (cf_max_tag_length cf) (id_tags id) ;;
  let st0 := report cf High
               (mkstate (mkinfo [] [] 0 false [] []) None (mkcounts 0 0 0) may should false false INotRun trace0)
               (TestCaseStarted id (t_line t)) in
  do st1 <- push_location cf (set_status st0 ISuccess) (mkloc (t_line t) TestCaseScope) ;;
  do (st2, x) <- passes cf id (t_body t) fuel 0 st1 ;;
  do st3 <-
    (match x with
     | None =>
       do st' <- report_assertion cf id true (Message (lit "no exception caught")) (set_in_check st2 true) ;;
       Ok (set_in_check st' false)
     | Some AbortExn => Ok (set_unhandled st2 true)
     | Some (StdExn what) =>
       report_assertion2 cf id false (lit "unexpected std::exception caught; message: ") what (set_unhandled st2 true)
     | Some OtherExn =>
       report_assertion cf id false (Message (lit "unexpected unknown exception caught")) (set_unhandled st2 true)
     end) ;;
  let st4 := if unhandled st3 then notify_exception_handled cf st3 else st3 in
  let st5 := set_unhandled st4 false in
  do st6 <-
    (if should_fail st5 then
       do st' <- report_assertion cf id (match status st5 with IAllowedFail => true | _ => false end)
                   (Message (lit "expected test to fail"))
                   (set_in_check (set_should_fail st5 false) true) ;;
       Ok (set_should_fail (set_in_check st' false) true)
     else Ok st5) ;;
  do s <- convert_to_public_state (status st6) ;;
  Ok (report cf High st6 (TestCaseEnded id (t_line t) (asserts st6) s)).
