(** Properties C84, C85: code of the user called by checks. *)
From Verif.Spec Require Import TextSpec FilterSpec ExpressionSpec CaptureSpec Events RunSpec MacroSpec UserCodeSpec.
From Verif.Model Require Import Base Vector StringUtil Filter Run Expression Capture Macros UserCode.
From Verif.Proofs Require Import UserCodeProofs.
Local Open Scope list_scope.

(** ** C84. [match] is called before [describe_match] *)

(** CHECK_THAT, REQUIRE_THAT: for any matcher, whatever it reads and changes, [match] is called once with the value, and
    then [describe_match], once, with the same value and the status that [match] gave. The verdict is the answer of
    [match] and the text is the description, truncated if it is too long. *)
Theorem C84_that :
  forall (W A : Type) (cf : config) (max : nat) (id : test_id) (abort : bool) (value matcher : text) (m : living_matcher W A)
    (a : A) (st : state) (w : W),
  (forall w0 s w1 d, asks_description m a s w0 = Gives w1 d -> length d <= cf_max_message_length cf) ->
  living_check_that cf max id abort value matcher m a st w =
  match consulted m a w with
  | Gives w1 (ok, d) =>
    do st1 <- report_assertion cf id ok
                (Events.Expression (macro_name (RunTime (fun _ => tt)) abort (quote "_THAT")) (value ++ quote ", " ++ matcher) (fit max d)) st ;;
    Ok (st1, w1, if ok then None else maybe_abort abort)
  | Leaves _ _ => Err Terminate
  end.
Proof. exact (fun W A cf max id abort value matcher m a st w => check_that_said (W:=W) (A:=A) cf max id abort value matcher m a st w). Qed.
Print Assumptions C84_that.

(** CHECK_THROWS_MATCHES, REQUIRE_THROWS_MATCHES: the same, for the exception that was thrown, if it has the expected
    type; the outcome is the one of C20 and C67, for these answers. *)
Theorem C84_throws :
  forall (W : Type) (cf : config) (id : test_id) (pass : nat) (abort : bool) (type : text) (accepts : exn -> bool)
    (m : living_matcher W exn) (x : option exn) (st : state) (w : W),
  living_throws_matches cf id pass abort type accepts m x st w =
  match x with
  | Some e =>
    if accepts e then
      match consulted m e w with
      | Gives w1 (ok, d) =>
        do (st1, y) <- conclude cf id pass (ThrowsMatching type accepts (fun _ => ok) (fun _ => d)) abort x st ;; Ok (st1, w1, y)
      | Leaves w1 y => Ok (st, w1, Some y)
      end
    else do (st1, y) <- conclude cf id pass (ThrowsMatching type accepts (fun _ => true) (fun _ => [])) abort x st ;; Ok (st1, w, y)
  | None => do (st1, y) <- conclude cf id pass (ThrowsMatching type accepts (fun _ => true) (fun _ => [])) abort x st ;; Ok (st1, w, y)
  end.
Proof. exact @throws_matches_said. Qed.
Print Assumptions C84_throws.

(** As seen by a matcher that writes down how it is used: with CHECK_THAT; *)
Theorem C84_that_calls :
  forall (W A : Type) (max mm : nat) (macro source : text) (m : living_matcher W A) (a : A) (w w1 : W) (calls : list (call A)) (x : expression),
  living_that max macro source mm (recorded m) a (w, []) = Ok (Gives (w1, calls) x) ->
  calls = [MatchCalled a (x_success x); DescribeCalled a (status_of (x_success x))].
Proof. exact @that_calls. Qed.
Print Assumptions C84_that_calls.

(** in a condition, with == or !=, where the description is asked for when it is needed; *)
Theorem C84_equal_calls :
  forall (W A : Type) (max : nat) (all expected : bool) (macro source : text) (nothrow equal : bool) (m : living_matcher W A) (a : A)
    (w w1 : W) (calls : list (call A)) (x : expression),
  living_expression max all expected macro source (LMatching nothrow (recorded m) equal a) (w, []) = Ok (Gives (w1, calls) x) ->
  exists b, x_success x = Bool.eqb (Bool.eqb equal b) expected /\
    calls = MatchCalled a b :: if negb (x_success x) || all then [DescribeCalled a (status_of b)] else [].
Proof. exact @equal_calls. Qed.
Print Assumptions C84_equal_calls.

(** and for exceptions, where the list is empty only if [match] throws. *)
Theorem C84_throws_calls :
  forall (W : Type) (cf : config) (id : test_id) (pass : nat) (abort : bool) (type : text) (accepts : exn -> bool)
    (m : living_matcher W exn) (e : exn) (st : state) (w : W) (st1 : state) (w1 : W) (calls : list (call exn)) (y : option exn),
  accepts e = true ->
  living_throws_matches cf id pass abort type accepts (recorded m) (Some e) st (w, []) = Ok (st1, (w1, calls), y) ->
  (calls = [] /\ exists w2 z, asks_match m e w = Leaves w2 z) \/ exists b, calls = [MatchCalled e b; DescribeCalled e (status_of b)].
Proof. exact @throws_calls. Qed.
Print Assumptions C84_throws_calls.

(** So a matcher may save in [match] what it needs in [describe_match]: whatever was saved before ([w]), what is shown is
    made from what was saved for this value. *)
Theorem C84_keeper_that :
  forall (A K : Type) (test : A -> bool) (keeps : A -> K) (tells : K -> match_status -> text) (max mm : nat) (macro source : text)
    (a : A) (w : option K),
  (forall k s, length (tells k s) <= mm) ->
  exists x, living_that max macro source mm (keeper test keeps tells) a w = Ok (Gives (Some (keeps a)) x) /\
    x_type x = macro /\ x_expected x = source /\ x_success x = test a /\
    vcontent (x_actual x) = fit max (tells (keeps a) (status_of (test a))).
Proof. exact @keeper_that. Qed.
Print Assumptions C84_keeper_that.

Theorem C84_keeper_equal :
  forall (A K : Type) (test : A -> bool) (keeps : A -> K) (tells : K -> match_status -> text) (max : nat) (all expected : bool)
    (macro source : text) (nothrow equal : bool) (a : A) (w : option K),
  exists x, living_expression max all expected macro source (LMatching nothrow (keeper test keeps tells) equal a) w =
      Ok (Gives (Some (keeps a)) x) /\
    x_type x = macro /\ x_expected x = source /\ x_success x = Bool.eqb (Bool.eqb equal (test a)) expected /\
    vcontent (x_actual x) = if negb (x_success x) || all then kept max (tells (keeps a) (status_of (test a))) else [].
Proof. exact @keeper_equal. Qed.
Print Assumptions C84_keeper_equal.

(** A matcher for even numbers, which saves the rest of the division. *)
Definition even_matcher : living_matcher (option nat) nat :=
  keeper Nat.even (fun n => Nat.modulo n 2)
    (fun rest s => (match s with Matched => quote "even, rest " | DidNotMatch => quote "odd, rest " end) ++ [ascii_of_nat (48 + rest)]).

Example C84_example :
  let that w n := do a <- living_that 40 [] [] 40 even_matcher n w ;;
    match a with Gives w1 x => Ok (w1, x_success x, vcontent (x_actual x)) | Leaves _ _ => Err UB end in
  let check equal w n := do a <- living_expression 40 false true [] [] (LMatching true even_matcher equal n) w ;;
    match a with Gives w1 x => Ok (w1, x_success x, vcontent (x_actual x)) | Leaves _ _ => Err UB end in
  that None 7 = Ok (Some 1, false, quote "odd, rest 1") /\ that (Some 1) 8 = Ok (Some 0, true, quote "even, rest 0") /\
  check true (Some 0) 7 = Ok (Some 1, false, quote "odd, rest 1") /\ check true (Some 1) 8 = Ok (Some 0, true, []) /\
  check false (Some 1) 8 = Ok (Some 0, false, quote "even, rest 0") /\
  (do a <- living_that 40 [] [] 40 (recorded even_matcher) 7 (None, []) ;;
   match a with Gives (_, calls) _ => Ok calls | Leaves _ _ => Err UB end) = Ok [MatchCalled 7 false; DescribeCalled 7 DidNotMatch].
Proof. repeat split; vm_compute; reflexivity. Qed.

(** ** C85. Exceptions thrown by code of the user that a check calls *)

(** CHECK, REQUIRE, CHECK_FALSE, REQUIRE_FALSE: the check is made, is left with an exception, or ends the program
    ([condition_fate], Spec/UserCodeSpec.v). *)
Theorem C85_condition :
  forall (W : Type) (cf : config) (max : nat) (all : bool) (id : test_id) (abort expected : bool) (source : text)
    (c : living_condition W) (st : state) (w : W),
  living_check cf max all id abort expected source c st w =
  match condition_fate max all expected c w with
  | Made w1 (ok, t) =>
    do st1 <- report_assertion cf id ok
                (Events.Expression (macro_name (RunTime (fun _ => tt)) abort (if expected then [] else quote "_FALSE")) source t) st ;;
    Ok (st1, w1, if ok then None else maybe_abort abort)
  | LeftWith w1 x => Ok (st, w1, Some x)
  | ProgramEnds => Err Terminate
  end.
Proof. exact @check_said. Qed.
Print Assumptions C85_condition.

(** An exception that leaves the check does so like one thrown by the operands, which is reported (C20, C67). *)
Theorem C85_left :
  forall (W : Type) (cf : config) (max : nat) (all : bool) (id : test_id) (pass line : nat) (abort expected : bool) (source : text)
    (c : living_condition W) (w w1 : W) (x : exn) (e : nat -> condition) (st : state),
  condition_fate max all expected c w = LeftWith w1 x ->
  scoped_check cf line (fun st => do (st1, _, y) <- living_check cf max all id abort expected source c st w ;; Ok (st1, y)) st =
  scoped_check cf line (check_body cf max all id pass abort (Holds expected source (RunTime e))
                          (exec_code cf max all id pass (Raise (fun _ => true) x Done))) st.
Proof. exact @left_like_raise. Qed.
Print Assumptions C85_left.

(** Code that changes nothing and does not throw: what Model/Macros.v says (C67). *)
Theorem C85_quiet :
  forall (W : Type) (cf : config) (max : nat) (all : bool) (id : test_id) (pass : nat) (abort expected : bool) (source : text)
    (nothrow : bool) (c : condition) (st : state) (w : W),
  living_check cf max all id abort expected source (quiet_condition nothrow c) st w =
  do (st1, x) <- check_body cf max all id pass abort (Holds expected source (RunTime (fun _ => c))) (fun st => Ok (st, None)) st ;;
  Ok (st1, w, x).
Proof. exact @quiet_check. Qed.
Print Assumptions C85_quiet.

(** INFO and CAPTURE: an exception thrown by the code that writes a value ends the program; the values are written in
    order, as long as there is room. *)
Theorem C85_info :
  forall (W : Type) (cf : config) (pieces : list (user_code W text)) (st : state) (w : W),
  length (captures (inf st)) <> cf_max_captures cf ->
  living_add_capture cf pieces st w =
  match written_in_turn (cf_max_capture_length cf) [] pieces w with
  | Gives w1 t => do st1 <- add_capture cf [t] st ;; Ok (st1, w1)
  | Leaves _ _ => Err Terminate
  end.
Proof. exact @capture_said. Qed.
Print Assumptions C85_info.

Theorem C85_capture :
  forall (W : Type) (cf : config) (args : list text) (values : list (user_code W text)) (st : state) (w : W),
  length args = length values -> Forall label_known args ->
  length (captures (inf st)) + length values <= cf_max_captures cf ->
  living_add_captures cf (joined args) values st w =
  match captured_in_turn (cf_max_capture_length cf) (map stripped args) values w with
  | Gives w1 texts => do st1 <- add_captures cf (map (fun t => [t]) texts) st ;; Ok (st1, w1)
  | Leaves _ _ => Err Terminate
  end.
Proof. exact @captures_said. Qed.
Print Assumptions C85_capture.

(** A limit on captures is an error found before any value is written. *)
Theorem C85_full :
  forall (W : Type) (cf : config) (pieces : list (user_code W text)) (st : state) (w : W),
  length (captures (inf st)) = cf_max_captures cf -> living_add_capture cf pieces st w = Err Assert.
Proof. exact @capture_full. Qed.
Print Assumptions C85_full.

(** A counter incremented by each call; operands that cannot be compared when the counter is 3; numbers that cannot be
    written when it is 2. *)
Definition ticking {T} (limit : nat) (v : T) : user_code nat T := fun n => if n =? limit then Leaves n (StdExn (quote "no")) else Gives (S n) v.
Definition ticking_less (nothrow : bool) (a b : nat) : living_condition nat :=
  LComparison nothrow (fun _ a b => ticking 3 (a <? b)) giving
    (fun n => Some (ticking 2 [ascii_of_nat (48 + n)])) (fun n => Some (ticking 2 [ascii_of_nat (48 + n)])) Less a b.
Example C85_example :
  condition_fate 20 false true (ticking_less false 4 5) 0 = Made 1 (true, []) /\
  condition_fate 20 false true (ticking_less false 5 4) 4 = Made 7 (false, quote "5 >= 4") /\
  condition_fate 3 false true (ticking_less false 5 4) 4 = Made 6 (false, []) /\
  condition_fate 20 false true (ticking_less false 5 4) 3 = LeftWith 3 (StdExn (quote "no")) /\
  condition_fate 20 false true (ticking_less true 5 4) 3 = ProgramEnds /\
  condition_fate 20 false true (ticking_less false 5 4) 0 = ProgramEnds /\
  condition_fate 20 false true (ticking_less false 5 4) 1 = ProgramEnds /\
  condition_fate 20 false true (LMatching false (mkliving (fun n => ticking 3 (Nat.even n)) (fun n _ => ticking 2 [])) true 5) 1 =
    LeftWith 2 (StdExn (quote "no")) /\
  written_in_turn 5 [] [ticking 2 (quote "abc"); ticking 2 (quote "def"); ticking 2 (quote "ghi")] 0 = Gives 2 (quote "abcdef") /\
  written_in_turn 9 [] [ticking 2 (quote "abc"); ticking 2 (quote "def"); ticking 2 (quote "ghi")] 0 = Leaves 2 (StdExn (quote "no")).
Proof. repeat split; vm_compute; reflexivity. Qed.
