(** Model of the calls made by the checks to code of the user: operators, conversions to bool, matchers, and functions
    [append] for the types of the user. Such code may change the objects of the program and throw (Spec/UserCodeSpec.v,
    [user_code]); an exception that leaves a function declared [noexcept] terminates the program ([Err Terminate]). The
    same functions are modelled in Model/Expression.v and Model/Macros.v for code that does neither. As there, code of
    the user writes a value by appending a text. *)
From Verif.Spec Require Import TextSpec ExpressionSpec Events MacroSpec UserCodeSpec. (* only for the vocabulary *)
From Verif.Model Require Import Base Vector StringUtil Filter Run Expression Capture Macros.

Section UserCode.
Context {W : Type}.

(** A statement that calls code of the user, and those that follow. *)
Definition called {T U} (a : answer W T) (next : T -> W -> res (answer W U)) : res (answer W U) :=
  match a with Gives w v => next v w | Leaves w x => Ok (Leaves w x) end.

(** The end of a function declared [noexcept]. *)
Definition noexcept {T} (r : res (answer W T)) : res (answer W T) :=
  do a <- r ;;
  match a with Gives _ _ => Ok a | Leaves _ _ => Err Terminate end.

(** The end of a function declared [noexcept(n)]. *)
Definition noexcept_if {T} (n : bool) (r : res (answer W T)) : res (answer W T) := if n then noexcept r else r.

(** snitch_expression.hpp:46-55 [expression::append_value], declared [noexcept]; [Some f]: the type of the value has a
    function [append], [f]. *)
Definition living_append (ss : sstr) (v : option (user_code W str)) (w : W) : res (answer W (sstr * bool)) :=
  match v with
  | Some f => noexcept (called (f w) (fun t w1 => do r <- append ss t ;; Ok (Gives w1 r)))
  | None => do r <- append ss (lit "?") ;; Ok (Gives w r)
  end.
Definition append_literal (ss : sstr) (s : str) (w : W) : res (answer W (sstr * bool)) :=
  do r <- append ss s ;; Ok (Gives w r).
(** The left operand of [&&], which gives the new text and whether it is complete. *)
Definition and_also (r : res (answer W (sstr * bool))) (next : sstr -> W -> res (answer W (sstr * bool)))
  : res (answer W (sstr * bool)) :=
  do a <- r ;;
  match a with
  | Gives w (ss, true) => next ss w
  | _ => Ok a
  end.
(** [if (!...) { expr.actual.clear(); }] *)
Definition or_clear (r : res (answer W (sstr * bool))) : res (answer W sstr) :=
  do a <- r ;;
  match a with
  | Gives w (ss, ok) => Ok (Gives w (if ok : bool then ss else vclear ss))
  | Leaves w x => Ok (Leaves w x)
  end.

(** snitch_expression.hpp:19-28 [operator_...::operator()], declared [noexcept(noexcept(lhs OP rhs))]: the conversion of
    the result to bool is in the function. *)
Definition living_operator {R} (nothrow : bool) (result : answer W R) (truth : R -> user_code W bool) : res (answer W bool) :=
  noexcept_if nothrow (called result (fun r w1 => Ok (truth r w1))).

(** snitch_matcher.hpp:112-120 [operator==], declared [noexcept], in the namespace [snitch::matchers]; or an operator of
    the user that does the same, declared [noexcept(nothrow)]. *)
Definition living_equal {A} (nothrow : bool) (m : living_matcher W A) (a : A) (w : W) : res (answer W bool) :=
  noexcept_if nothrow (Ok (asks_match m a w)).

(** snitch_matcher.hpp:30-40 [impl::match], declared [noexcept]. *)
Definition living_match {A} (m : living_matcher W A) (value : A) (w : W) : res (answer W (bool * str)) :=
  noexcept (called (asks_match m value w) (fun matched w1 =>
    if negb matched
    then called (asks_description m value DidNotMatch w1) (fun d w2 => Ok (Gives w2 (false, d)))
    else called (asks_description m value Matched w1) (fun d w2 => Ok (Gives w2 (true, d))))).

Section Expressions.
Variable max_expr_length : nat.    (** SNITCH_MAX_EXPR_LENGTH *)
Variable decompose_all : bool.     (** SNITCH_DECOMPOSE_SUCCESSFUL_ASSERTIONS *)
Variable expected : bool.          (** template parameter [Expected] *)
Variables macro source : str.      (** [type] and [expected] *)

(** The last part of [to_expression]: the text with operands is made if needed. *)
Definition shown_if_needed (actual : bool) (show : W -> res (answer W sstr)) (w : W) : res (answer W expression) :=
  let success := Bool.eqb actual expected in
  if negb success || decompose_all then
    do a <- show w ;;
    called a (fun ss w1 => Ok (Gives w1 (mkexpression macro source ss success)))
  else Ok (Gives w (mkexpression macro source (new_string max_expr_length) success)).

(** snitch_expression.hpp:151-186 and 252-266 [to_expression], declared [noexcept(noexcept(static_cast<bool>(O{}(lhs,
    rhs))))] and [noexcept(noexcept(static_cast<bool>(lhs)))]; snitch_macros_check.hpp:24-28 for expressions that are
    not decomposed. *)
Definition living_expression (c : living_condition W) (w : W) : res (answer W expression) :=
  match c with
  | LComparison nothrow compare truth writes_l writes_r o lhs rhs =>
    noexcept_if nothrow (
      do r <- living_operator nothrow (compare o lhs rhs w) truth ;;
      called r (fun actual w1 =>
        shown_if_needed actual (fun w1 =>
          or_clear
            (and_also (and_also (living_append (new_string max_expr_length) (writes_l lhs) w1) (fun ss w2 =>
               if actual then append_literal ss (op_actual o) w2 else append_literal ss (op_inverse o) w2))
             (fun ss w3 => living_append ss (writes_r rhs) w3))) w1))
  | LMatching nothrow m equal value =>
    noexcept_if nothrow (
      do r <- living_equal nothrow m value w ;;
      called r (fun matched w1 =>
        let actual := if equal then matched else negb matched in
        shown_if_needed actual (fun w1 =>
          let status := if Bool.eqb equal actual then Matched else DidNotMatch in
          called (asks_description m value status w1) (fun d w2 =>
            or_clear (append_literal (new_string max_expr_length) d w2))) w1))
  | LSingle nothrow truth writes lhs =>
    noexcept_if nothrow (
      called (truth lhs w) (fun actual w1 =>
        shown_if_needed actual (fun w1 => or_clear (living_append (new_string max_expr_length) (writes lhs) w1)) w1))
  | LUndecomposed value =>
    called (value w) (fun actual w1 =>
      Ok (Gives w1 (mkexpression macro source (new_string max_expr_length) (Bool.eqb actual expected))))
  end.

(** snitch_macros_check.hpp:70-79 [SNITCH_REQUIRE_THAT_IMPL]; the description is a string of capacity [mm]. *)
Definition living_that {A} (mm : nat) (m : living_matcher W A) (value : A) (w : W) : res (answer W expression) :=
  do r <- living_match m value w ;;
  called r (fun result w1 =>
    do d <- string_from mm (snd result) ;;
    do shown <- resize_or_truncate max_expr_length d ;;
    Ok (Gives w1 (mkexpression macro source shown (fst result)))).
End Expressions.

(** ** The checks, in a test *)
Section Checks.
Variable cf : config.
Variable max_expr_length : nat.
Variable decompose_all : bool.
Variable id : test_id.
Variable pass : nat.

(** snitch_macros_check_base.hpp:22-38: an expression is built, and reported. [None]: the check is not left with an
    exception. *)
Definition build_and_report (abort : bool) (build : W -> res (answer W expression)) (st : state) (w : W)
  : res (state * W * option exn) :=
  do a <- build w ;;
  match a with
  | Leaves w1 x => Ok (st, w1, Some x)
  | Gives w1 e => do (st1, x) <- report_expression cf id abort e st ;; Ok (st1, w1, x)
  end.

(** snitch_macros_check.hpp:15-36: CHECK, REQUIRE, CHECK_FALSE, REQUIRE_FALSE, once the operands are evaluated. *)
Definition living_check (abort expected : bool) (source : str) (c : living_condition W) (st : state) (w : W)
  : res (state * W * option exn) :=
  build_and_report abort
    (living_expression max_expr_length decompose_all expected (require_name (RunTime (fun _ => tt)) abort expected) source c) st w.

(** snitch_macros_check.hpp:70-84: CHECK_THAT, REQUIRE_THAT. *)
Definition living_check_that {A} (abort : bool) (value matcher : str) (m : living_matcher W A) (a : A) (st : state) (w : W)
  : res (state * W * option exn) :=
  build_and_report abort
    (living_that max_expr_length (that_name (RunTime (fun _ => tt)) abort) (value ++ lit ", " ++ matcher)
       (cf_max_message_length cf) m a) st w.

(** snitch_macros_exceptions.hpp:51-95: CHECK_THROWS_MATCHES, REQUIRE_THROWS_MATCHES, once the expression has ended with
    [x]; the matcher is called in a handler, and exceptions thrown there leave the check. *)
Definition living_throws_matches (abort : bool) (type : str) (accepts : exn -> bool) (m : living_matcher W exn) (x : option exn)
    (st : state) (w : W) : res (state * W * option exn) :=
  let others st :=
    do (st1, y) <- conclude cf id pass (Throws type (fun _ => false)) abort x st ;; Ok (st1, w, y) in
  match x with
  | None => others st
  | Some e =>
    if accepts e then
      match asks_match m e w with
      | Leaves w1 y => Ok (st, w1, Some y)
      | Gives w1 matched =>
        if negb matched then
          match asks_description m e DidNotMatch w1 with
          | Leaves w2 y => Ok (st, w2, Some y)
          | Gives w2 d =>
            do st1 <- report_assertion2 cf id false
                        (lit "could not match caught " ++ type ++ lit " with expected content: ") d st ;;
            Ok (notify_exception_handled cf st1, w2, maybe_abort abort)
          end
        else
          match asks_description m e Matched w1 with
          | Leaves w2 y => Ok (st, w2, Some y)
          | Gives w2 d =>
            do st1 <- report_assertion2 cf id true
                        (lit "caught " ++ type ++ lit " matched expected content: ") d st ;;
            Ok (notify_exception_handled cf st1, w2, None)
          end
      end
    else others st
  end.

(** include/snitch/snitch_append.hpp:378-382 [append] of several values: each is written if the previous ones were
    written completely. *)
Fixpoint living_append_all (ss : sstr) (l : list (user_code W str)) (w : W) : res (answer W (sstr * bool)) :=
  match l with
  | [] => Ok (Gives w (ss, true))
  | f :: l' =>
    called (f w) (fun t w1 =>
      do (ss1, ok) <- append ss t ;;
      if ok : bool then living_append_all ss1 l' w1 else Ok (Gives w1 (ss1, false)))
  end.

(** include/snitch/snitch_string_utility.hpp:29-37 [append_or_truncate], declared [noexcept]. *)
Definition living_append_or_truncate (ss : sstr) (l : list (user_code W str)) (w : W) : res (answer W sstr) :=
  noexcept (
    do a <- living_append_all ss l w ;;
    called a (fun '(ss1, ok) w1 =>
      if ok : bool then Ok (Gives w1 ss1) else do ss2 <- truncate_end ss1 ;; Ok (Gives w1 ss2))).

(** src/snitch_capture.cpp:84-103 and include/snitch/snitch_capture.hpp:27-33, 43-48: a capture made of [pieces]: the
    arguments of INFO, or those given below for CAPTURE. The values are written once there is room for the capture. *)
Definition living_add_capture (pieces : list (user_code W str)) (st : state) (w : W) : res (state * W) :=
  if length (captures (inf st)) =? cf_max_captures cf then Err Assert
  else
    let st1 := notify_exception_handled cf st in
    do a <- living_append_or_truncate (new_string (cf_max_capture_length cf)) pieces w ;;
    match a with
    | Gives w1 c => Ok (set_inf st1 (with_captures (inf st1) (captures (inf st1) ++ [vcontent c])), w1)
    | Leaves _ _ => Err Terminate
    end.

(** snitch_capture.hpp:35-40 [add_captures]. *)
Fixpoint living_add_captures (names : str) (values : list (user_code W str)) (st : state) (w : W) : res (state * W) :=
  match values with
  | [] => Ok (st, w)
  | v :: values' =>
    do (name, names') <- extract_next_name names ;;
    do (st1, w1) <- living_add_capture [giving name; giving (lit " := "); v] st w ;;
    living_add_captures names' values' st1 w1
  end.
End Checks.
End UserCode.
