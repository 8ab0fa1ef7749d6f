(** Model of the execution of test cases when the handler of failed assertions throws (src/snitch_error_handling.cpp:17-24:
    [assertion_failed_handler] may be replaced, and may throw). Such an exception leaves a test body from two places: a
    section nested too deep, and too many captures. Everywhere else an assertion that fails during a test does so in a function
    that is [noexcept] ([push_location], [scoped_test_check], [notify_exception_handled], the destructors, [registry::run]):
    the program is terminated. [raised m]: what the handler throws when called with the message [m]. The parts that do not
    depend on the handler are those of Model/Run.v. The text printed before the handler is called (see Model/LastWords.v)
    (src/snitch_section.cpp:84-88, src/snitch_capture.cpp:86-90) is left out. *)
From Verif.Spec Require Import Events.
From Verif.Model Require Import Base Vector StringUtil Filter Run.

Section Throwing.
Variable raised : str -> exn.
Variable size_max : nat.   (** the largest [std::size_t] *)

(** An assertion that fails in a [noexcept] function. *)
Definition terminating {A} (r : res A) : res A := match r with Err Assert => Err Terminate | _ => r end.

(** src/snitch_section.cpp:72-143 [section_entry_checker::operator bool]; [inr m]: [assertion_failed] was called with [m].
    Adding to, and reading from, [levels] cannot fail here. *)
Definition throwing_section_enter (cf : config) (s : section_id) (st0 : state) : res (state * (bool + str)) :=
  let st := notify_exception_handled cf st0 in
  let i := inf st in
  if (length (levels i) <=? depth i) && (cf_max_nested cf <=? depth i)
  then Ok (st, inr (lit "max number of nested sections reached"))
  else
    do lv <- (if length (levels i) <=? depth i then push_back (cf_max_nested cf) (levels i) (mklevel 0 0 0) else Ok (levels i)) ;;
    let d := S (depth i) in
    do level <- at_index lv (d - 1) ;;
    let c := S (cur_id level) in
    let m := if max_id level <? c then c else max_id level in
    do lv1 <- put_index lv (d - 1) (mklevel c (prev_id level) m) ;;
    let st1 := set_inf st (with_depth (with_levels i lv1) d) in
    if leaf_executed i then Ok (st1, inl false)
    else
      let previous_was_preceding_sibling := c =? S (prev_id level) in
      let children_remaining_in_self := (c =? prev_id level) && (d <? length lv1) in
      if negb previous_was_preceding_sibling && negb children_remaining_in_self then Ok (st1, inl false)
      else
        do lv2 <- put_index lv1 (d - 1) (mklevel c c m) ;;
        let sd := mksd s (mkcounts 0 0 0) in
        let st2 := set_inf st1 (with_levels (inf st1) lv2) in
        match push_back (cf_max_nested cf) (current_section (inf st2)) sd with
        | Err _ => Ok (st2, inr (lit "small vector is full"))
        | Ok cs =>
          do st3 <- terminating (push_location cf (set_inf st2 (with_current_section (inf st2) cs)) (mkloc (sec_line s) SectionScope)) ;;
          Ok (if previous_was_preceding_sibling then report_section_started cf sd st3 else st3, inl true)
        end.

(** [--sections.depth], src/snitch_section.cpp:69: [std::size_t] wraps around. *)
Definition decrement (d : nat) : nat := match d with O => size_max | S d' => d' end.

(** src/snitch_section.cpp:13-70, destructor of [section_entry_checker]; executed also if [operator bool] throws. *)
Definition throwing_section_exit (cf : config) (entered uncaught : bool) (st : state) : res state :=
  do st' <-
    (if entered then
       do st1 <- terminating (pop_location (hold uncaught st)) ;;
       let i := inf st1 in
       do (i2, last_entry) <-
         (if depth i =? length (levels i) then Ok (with_leaf_executed i true, true)
          else if forallb (fun child => prev_id child =? max_id child) (skipn (depth i) (levels i))
          then do lv <- terminating (pop_back (levels i)) ;; Ok (with_levels i lv, true)
          else Ok (i, false)) ;;
       let st2 := set_inf st1 i2 in
       do st3 <- (if last_entry && negb uncaught
                  then do s <- terminating (back (current_section (inf st2))) ;; Ok (report_section_ended cf s st2)
                  else Ok st2) ;;
       do cs <- terminating (pop_back (current_section (inf st3))) ;;
       Ok (set_inf st3 (with_current_section (inf st3) cs))
     else Ok st) ;;
  Ok (set_inf st' (with_depth (inf st') (decrement (depth (inf st'))))).

(** include/snitch/snitch_capture.hpp:27-47 [add_captures] and [add_info]: the values before the one for which there is no
    room stay in [captures], since the [scoped_capture] is not constructed. *)
Fixpoint throwing_add_captures (cf : config) (l : list (list str)) (st : state) : res (state * option str) :=
  match l with
  | [] => Ok (st, None)
  | c :: l' =>
    if length (captures (inf st)) =? cf_max_captures cf
    then Ok (st, Some (lit "max number of captures reached"))      (** src/snitch_capture.cpp:85-92 *)
    else do st1 <- add_capture cf c st ;; throwing_add_captures cf l' st1
  end.

(** As [exec] of Model/Run.v. *)
Fixpoint throwing_exec (cf : config) (id : test_id) (pass : nat) (p : prog) (st : state) : res (state * option exn) :=
  match p with
  | Nil => Ok (st, None)
  | Act n k => throwing_exec cf id pass k (report cf Quiet st (User n))
  | Throw when x k => if when pass then Ok (st, Some x) else throwing_exec cf id pass k st
  | Check line w abort e k =>
    do st1 <- terminating (check_begin cf line st) ;;
    do (st2, x) <- throwing_exec cf id pass e st1 ;;
    do (st3, y) <- terminating (conclude cf id pass w abort x st2) ;;
    do st4 <- terminating (check_end (is_some y) st3) ;;
    match y with Some _ => Ok (st4, y) | None => throwing_exec cf id pass k st4 end
  | Skip line message abort k =>
    do st1 <- terminating (check_begin cf line st) ;;
    do st2 <- terminating (report_skipped cf id (message pass) st1) ;;
    do st3 <- terminating (check_end abort st2) ;;
    if abort then Ok (st3, Some AbortExn) else throwing_exec cf id pass k st3
  | InSection s b k =>
    do (st1, entered) <- throwing_section_enter cf s st ;;
    match entered with
    | inl true =>
      do (st2, x) <- throwing_exec cf id pass b st1 ;;
      do st3 <- throwing_section_exit cf true (is_some x) st2 ;;
      match x with Some _ => Ok (st3, x) | None => throwing_exec cf id pass k st3 end
    | inl false =>
      do st3 <- throwing_section_exit cf false false st1 ;;
      throwing_exec cf id pass k st3
    | inr message =>
      do st3 <- throwing_section_exit cf false true st1 ;;
      Ok (st3, Some (raised message))
    end
  | Capture texts b k =>
    do (st1, full) <- throwing_add_captures cf (map (fun l => l pass) texts) st ;;
    match full with
    | Some message => Ok (st1, Some (raised message))
    | None =>
      do (st2, x) <- throwing_exec cf id pass b st1 ;;
      do st3 <- capture_end (is_some x) (length texts) st2 ;;
      match x with Some _ => Ok (st3, x) | None => throwing_exec cf id pass k st3 end
    end
  | Catch accepts notify b k =>
    do (st1, x) <- throwing_exec cf id pass b st ;;
    match x with
    | None => throwing_exec cf id pass k st1
    | Some e =>
      if accepts e
      then throwing_exec cf id pass k (if notify then notify_exception_handled cf st1 else st1)
      else Ok (st1, x)
    end
  end.

(** src/snitch_registry.cpp:621-641, as [passes] of Model/Run.v. *)
Fixpoint throwing_passes (cf : config) (id : test_id) (body : prog) (fuel pass : nat) (st : state)
  : res (state * option exn) :=
  match fuel with
  | O => Err Fuel
  | S fuel' =>
    let i := inf st in
    let st1 := set_inf st (with_levels (with_leaf_executed i false) (map reset_level (levels i))) in
    do (st2, x) <- throwing_exec cf id pass body st1 ;;
    match x with
    | Some _ => Ok (st2, x)
    | None =>
      let st3 := set_inf st2 (after_pass (inf st2)) in
      if negb (length (levels (inf st3)) =? 0) && negb (is_skipped (status st3))
      then throwing_passes cf id body fuel' (S pass) st3
      else Ok (st3, None)
    end
  end.

(** src/snitch_registry.cpp:584-704 [registry::run], which is [noexcept], as [run] of Model/Run.v. *)
Definition throwing_run (cf : config) (fuel : nat) (t : test_case) (trace0 : list event) : res state :=
  let id := t_id t in
  do (may, should) <- terminating (fail_flags (cf_max_tag_length cf) (id_tags id)) ;;
  let st0 := report cf High
               (mkstate (mkinfo [] [] 0 false [] []) None (mkcounts 0 0 0) may should false false INotRun trace0)
               (TestCaseStarted id (t_line t)) in
  do st1 <- terminating (push_location cf (set_status st0 ISuccess) (mkloc (t_line t) TestCaseScope)) ;;
  do (st2, x) <- throwing_passes cf id (t_body t) fuel 0 st1 ;;
  do st3 <- terminating
    (match x with
     | None =>
       do st' <- report_assertion cf id true (Message (lit "no exception caught")) (set_in_check st2 true) ;;
       Ok (set_in_check st' false)
     | Some AbortExn => Ok (set_unhandled st2 true)
     | Some (StdExn what) =>
       report_assertion2 cf id false (lit "unexpected std::exception caught; message: ") what (set_unhandled st2 true)
     | Some OtherExn =>
       report_assertion cf id false (Message (lit "unexpected unknown exception caught")) (set_unhandled st2 true)
     end) ;;
  let st4 := if unhandled st3 then notify_exception_handled cf st3 else st3 in
  let st5 := set_unhandled st4 false in
  do st6 <- terminating
    (if should_fail st5 then
       do st' <- report_assertion cf id (match status st5 with IAllowedFail => true | _ => false end)
                   (Message (lit "expected test to fail"))
                   (set_in_check (set_should_fail st5 false) true) ;;
       Ok (set_should_fail (set_in_check st' false) true)
     else Ok st5) ;;
  do s <- terminating (convert_to_public_state (status st6)) ;;
  Ok (report cf High st6 (TestCaseEnded id (t_line t) (asserts st6) s)).
End Throwing.
