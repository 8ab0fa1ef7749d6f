(** Model of the check macros: include/snitch/snitch_macros_check.hpp, snitch_macros_check_base.hpp,
    snitch_macros_constexpr.hpp, snitch_macros_consteval.hpp, snitch_macros_exceptions.hpp and snitch_macros_misc.hpp,
    executed one statement at a time; the functions they call are those of Model/Run.v, Model/Expression.v and
    Model/Capture.v. As there, exceptions are enabled and SNITCH_ENABLE is set. What is evaluated by the compiler is
    given by its value. *)
From Verif.Spec Require Import TextSpec ExpressionSpec Events MacroSpec. (* only for the vocabulary of test bodies *)
From Verif.Model Require Import Base Vector StringUtil Filter Run Expression Capture.

Section Macros.
Variable cf : config.
Variable max_expr_length : nat.
Variable decompose_all : bool.
Variable id : test_id.
Variable pass : nat.

(** snitch_macros_check_base.hpp:22-25 [SNITCH_EXPR], and the two cases of snitch_macros_check.hpp:17-30. *)
Definition to_expression (macro : str) (expected : bool) (source : str) (c : condition) : res expression :=
  match c with
  | Comparison _ _ apply show_l show_r o a b =>
    binary_expression max_expr_length decompose_all expected macro source apply show_l show_r o a b
  | Matching _ m equal a => matcher_expression max_expr_length decompose_all expected macro source m equal a
  | Single _ truth show a => unary_expression max_expr_length decompose_all expected macro source truth show a
  | Undecomposed value => Ok (opaque_expression max_expr_length expected macro source value)
  end.

(** snitch_macros_check_base.hpp:33-38 [SNITCH_REPORT_EXPRESSION]; the exception is the one thrown by [MAYBE_ABORT]. *)
Definition report_expression (abort : bool) (x : expression) (st : state) : res (state * option exn) :=
  do st1 <- report_assertion cf id (x_success x) (Events.Expression (x_type x) (x_expected x) (vcontent (x_actual x))) st ;;
  Ok (st1, if negb (x_success x) then maybe_abort abort else None).

(** A scope with a [scoped_test_check] (SNITCH_NEW_CHECK, snitch_macros_check_base.hpp:17-20): [body] returns the
    exception with which the scope is left. *)
Definition scoped_check (line : nat) (body : state -> res (state * option exn)) (st : state) : res (state * option exn) :=
  do st1 <- check_begin cf line st ;;
  do (st2, x) <- body st1 ;;
  do st3 <- check_end (is_some x) st2 ;;
  Ok (st3, x).

(** The statement that follows, unless an exception is thrown. *)
Definition next (body : state -> res (state * option exn)) (r : res (state * option exn)) : res (state * option exn) :=
  do (st, x) <- r ;;
  match x with Some _ => Ok (st, x) | None => body st end.

(** snitch_macros_check.hpp:33-36, snitch_macros_constexpr.hpp:52-55, snitch_macros_consteval.hpp:33-36: the names given
    to the macros [..._REQUIRE_IMPL]. *)
Definition require_name {T} (e : evaluation T) (abort expected : bool) : str :=
  match e, abort, expected with
  | RunTime _, true, true => lit "REQUIRE"
  | RunTime _, false, true => lit "CHECK"
  | RunTime _, true, false => lit "REQUIRE_FALSE"
  | RunTime _, false, false => lit "CHECK_FALSE"
  | BothTimes _ _, true, true => lit "CONSTEXPR_REQUIRE"
  | BothTimes _ _, false, true => lit "CONSTEXPR_CHECK"
  | BothTimes _ _, true, false => lit "CONSTEXPR_REQUIRE_FALSE"
  | BothTimes _ _, false, false => lit "CONSTEXPR_CHECK_FALSE"
  | CompileTime _, true, true => lit "CONSTEVAL_REQUIRE"
  | CompileTime _, false, true => lit "CONSTEVAL_CHECK"
  | CompileTime _, true, false => lit "CONSTEVAL_REQUIRE_FALSE"
  | CompileTime _, false, false => lit "CONSTEVAL_CHECK_FALSE"
  end.
(** snitch_macros_check.hpp:83-84, snitch_macros_constexpr.hpp:82-83, snitch_macros_consteval.hpp:51-52. *)
Definition that_name {T} (e : evaluation T) (abort : bool) : str :=
  match e, abort with
  | RunTime _, true => lit "REQUIRE_THAT"
  | RunTime _, false => lit "CHECK_THAT"
  | BothTimes _ _, true => lit "CONSTEXPR_REQUIRE_THAT"
  | BothTimes _ _, false => lit "CONSTEXPR_CHECK_THAT"
  | CompileTime _, true => lit "CONSTEVAL_REQUIRE_THAT"
  | CompileTime _, false => lit "CONSTEVAL_CHECK_THAT"
  end.

(** The body of a check, within its [scoped_test_check]; [eval] evaluates the arguments that are not constants.
    [Holds]: SNITCH_REQUIRE_IMPL, snitch_macros_check.hpp:15-30; SNITCH_CONSTEXPR_REQUIRE_IMPL,
    snitch_macros_constexpr.hpp:15-49; SNITCH_CONSTEVAL_REQUIRE_IMPL, snitch_macros_consteval.hpp:15-30.
    [That]: SNITCH_REQUIRE_THAT_IMPL, snitch_macros_check.hpp:71-80; snitch_macros_constexpr.hpp:58-79;
    snitch_macros_consteval.hpp:39-48. The source text is [#EXPR ", " #__VA_ARGS__].
    [Succeeds], [Fails]: SNITCH_SUCCEED, SNITCH_FAIL, SNITCH_FAIL_CHECK, snitch_macros_check.hpp:39-56.
    The others: snitch_macros_exceptions.hpp (see [conclude], Model/Run.v), where the status given to
    [describe_match] depends on the result of [match]. *)
Definition that_to_expression (macro source : str) (r : match_request) : res expression :=
  that_expression max_expr_length macro source (cf_max_message_length cf) (r_matcher r) (r_value r).

Definition check_body (abort : bool) (c : check) (eval : state -> res (state * option exn)) (st : state)
  : res (state * option exn) :=
  let run_time macro (build : str -> res expression) (st : state) :=
    next (fun st1 => do x <- build macro ;; report_expression abort x st1) (eval st) in
  let compile_time macro (build : str -> res expression) (st : state) :=
    do x <- build macro ;; report_expression abort x st in
  match c with
  | Holds expected source e =>
    let macro := require_name e abort expected in
    let build v macro := to_expression macro expected source v in
    match e with
    | RunTime v => run_time macro (build (v pass)) st
    | CompileTime v => compile_time macro (build v) st
    | BothTimes v w =>
      next (run_time (macro ++ lit "[run-time]") (build (w pass)))
           (compile_time (macro ++ lit "[compile-time]") (build v) st)
    end
  | That value matcher e =>
    let macro := that_name e abort in
    let build r macro := that_to_expression macro (value ++ lit ", " ++ matcher) r in
    match e with
    | RunTime r => run_time macro (build (r pass)) st
    | CompileTime r => compile_time macro (build r) st
    | BothTimes r r' =>
      next (run_time (macro ++ lit "[run-time]") (build (r' pass)))
           (compile_time (macro ++ lit "[compile-time]") (build r) st)
    end
  | Succeeds message =>
    next (fun st1 => do st2 <- report_assertion cf id true (Message (message pass)) st1 ;; Ok (st2, None)) (eval st)
  | Fails message =>
    next (fun st1 => do st2 <- report_assertion cf id false (Message (message pass)) st1 ;; Ok (st2, maybe_abort abort)) (eval st)
  | ThrowsAs type accepts =>
    do (st1, x) <- eval st ;; conclude cf id pass (Throws type accepts) abort x st1
  | ThrowsMatches type accepts m =>
    do (st1, x) <- eval st ;;
    let failed y := negb (matches m y) in
    conclude cf id pass
      (ThrowsMatching type accepts (fun y => negb (failed y))
         (fun y => if failed y then describe m y DidNotMatch else describe m y Matched)) abort x st1
  | NoThrow source =>
    do (st1, x) <- eval st ;; conclude cf id pass (DoesNotThrow source) abort x st1
  end.

(** Execution of (the rest of) a test body. Sections, captures and exceptions as in Model/Run.v [exec].
    [Captured]: snitch_macros_misc.hpp:15-17 and include/snitch/snitch_capture.hpp:27-41; the source text of the
    arguments is [#__VA_ARGS__]. [Informed]: snitch_macros_misc.hpp:19-21 and snitch_capture.hpp:43-48.
    [DoSkip]: snitch_macros_check.hpp:58-69 (the evaluation of the message is not modelled). *)
Fixpoint exec_code (b : code) (st : state) : res (state * option exn) :=
  match b with
  | Done => Ok (st, None)
  | Effect n k => exec_code k (report cf Quiet st (User n))
  | Raise when x k => if when pass then Ok (st, Some x) else exec_code k st
  | Do line abort c e k => next (exec_code k) (scoped_check line (check_body abort c (exec_code e)) st)
  | DoSkip line abort message k =>
    next (exec_code k)
      (scoped_check line (fun st1 => do st2 <- report_skipped cf id (message pass) st1 ;; Ok (st2, maybe_abort abort)) st)
  | Section_ s b k =>
    do (st1, entered) <- section_enter cf s st ;;
    do (st2, x) <- (if entered : bool then exec_code b st1 else Ok (st1, None)) ;;
    do st3 <- section_exit cf entered (is_some x) st2 ;;
    next (exec_code k) (Ok (st3, x))
  | Captured args values b k =>
    do texts <- capture_texts (CaptureSpec.joined args) (map (fun v => v pass) values) ;;
    do st1 <- add_captures cf texts st ;;
    do (st2, x) <- exec_code b st1 ;;
    do st3 <- capture_end (is_some x) (length values) st2 ;;
    next (exec_code k) (Ok (st3, x))
  | Informed pieces b k =>
    do st1 <- add_capture cf (map (fun p => p pass) pieces) st ;;
    do (st2, x) <- exec_code b st1 ;;
    do st3 <- capture_end (is_some x) 1 st2 ;;
    next (exec_code k) (Ok (st3, x))
  | Try accepts notify b k =>
    do (st1, x) <- exec_code b st ;;
    match x with
    | None => exec_code k st1
    | Some e =>
      if accepts e
      then exec_code k (if notify then notify_exception_handled cf st1 else st1)
      else Ok (st1, x)
    end
  end.
End Macros.

(** src/snitch_registry.cpp:584-704 [registry::run], for a test body given by what it does in each pass; same lines as
    [passes] and [run] of Model/Run.v. *)
Fixpoint passes_of (once : nat -> state -> res (state * option exn)) (fuel pass : nat) (st : state)
  : res (state * option exn) :=
  match fuel with
  | O => Err Fuel
  | S fuel' =>
    let i := inf st in
    let st1 := set_inf st (with_levels (with_leaf_executed i false) (map reset_level (levels i))) in
    do (st2, x) <- once pass st1 ;;
    match x with
    | Some _ => Ok (st2, x)
    | None =>
      let st3 := set_inf st2 (after_pass (inf st2)) in
      if negb (length (levels (inf st3)) =? 0) && negb (is_skipped (status st3))
      then passes_of once fuel' (S pass) st3
      else Ok (st3, None)
    end
  end.
Definition run_of (cf : config) (fuel : nat) (id : test_id) (line : nat) (once : nat -> state -> res (state * option exn))
    (trace0 : list event) : res state :=
  do (may, should) <- fail_flags (cf_max_tag_length cf) (id_tags id) ;;
  let st0 := report cf High
               (mkstate (mkinfo [] [] 0 false [] []) None (mkcounts 0 0 0) may should false false INotRun trace0)
               (TestCaseStarted id line) in
  do st1 <- push_location cf (set_status st0 ISuccess) (mkloc line TestCaseScope) ;;
  do (st2, x) <- passes_of once fuel 0 st1 ;;
  do st3 <-
    (match x with
     | None =>
       do st' <- report_assertion cf id true (Message (lit "no exception caught")) (set_in_check st2 true) ;;
       Ok (set_in_check st' false)
     | Some AbortExn => Ok (set_unhandled st2 true)
     | Some (StdExn what) =>
       report_assertion2 cf id false (lit "unexpected std::exception caught; message: ") what (set_unhandled st2 true)
     | Some OtherExn =>
       report_assertion cf id false (Message (lit "unexpected unknown exception caught")) (set_unhandled st2 true)
     end) ;;
  let st4 := if unhandled st3 then notify_exception_handled cf st3 else st3 in
  let st5 := set_unhandled st4 false in
  do st6 <-
    (if should_fail st5 then
       do st' <- report_assertion cf id (match status st5 with IAllowedFail => true | _ => false end)
                   (Message (lit "expected test to fail"))
                   (set_in_check (set_should_fail st5 false) true) ;;
       Ok (set_should_fail (set_in_check st' false) true)
     else Ok st5) ;;
  do s <- convert_to_public_state (status st6) ;;
  Ok (report cf High st6 (TestCaseEnded id line (asserts st6) s)).

(** A test case whose body is written with the macros. *)
Definition run_code (cf : config) (max_expr_length : nat) (decompose_all : bool) (fuel : nat) (id : test_id) (line : nat)
    (b : code) (trace0 : list event) : res state :=
  run_of cf fuel id line (fun pass => exec_code cf max_expr_length decompose_all id pass b) trace0.
