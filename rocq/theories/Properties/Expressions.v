(** Properties C44, C45: expressions in checks, and matchers. *)
From Verif.Spec Require Import TextSpec FilterSpec ExpressionSpec.
From Verif.Model Require Import Base Vector StringUtil Expression.
From Verif.Proofs Require Import ExpressionProofs.
Local Open Scope list_scope.

(** ** C44. CHECK and REQUIRE ([expected = true]), CHECK_FALSE and REQUIRE_FALSE ([expected = false]) *)

(** A comparison succeeds iff its value is the expected one. If it fails (or all expressions are expanded), the
    expanded text shows the left operand, an operator, and the right operand: the operator written in the source if the
    comparison holds, its opposite otherwise. It is dropped, as a whole, iff it is longer than the maximum. *)
Theorem C44_comparison :
  forall (A B : Type) (c : comparisons A B) (show_l : A -> option text) (show_r : B -> option text)
    (max : nat) (all expected : bool) (macro source : text) (o : operator) (a : A) (b : B),
  exists x, binary_expression max all expected macro source c show_l show_r o a b = Ok x /\
    x_type x = macro /\ x_expected x = source /\
    (x_success x = true <-> c o a b = expected) /\
    (x_success x = false \/ all = true ->
       vcontent (x_actual x) =
         kept max (printed (show_l a) ++ written (if c o a b then o else opposite o) ++ printed (show_r b))) /\
    (x_success x = true -> all = false -> vcontent (x_actual x) = []).
Proof. exact @comparison_checked. Qed.
Print Assumptions C44_comparison.

(** So the operator shown holds between the operands, if the comparisons of their types agree. *)
Theorem C44_operator_partial :
  forall (A B : Type) (c : comparisons A B) (show_l : A -> option text) (show_r : B -> option text)
    (max : nat) (all expected : bool) (macro source : text) (o : operator) (a : A) (b : B),
  agreeing c ->
  exists x, binary_expression max all expected macro source c show_l show_r o a b = Ok x /\
    (vcontent (x_actual x) <> [] ->
     exists op, c op a b = true /\ vcontent (x_actual x) = printed (show_l a) ++ written op ++ printed (show_r b)) /\
    (x_success x = false -> vcontent (x_actual x) = [] ->
     forall op, (op = o \/ op = opposite o) -> c op a b = true ->
     max < length (printed (show_l a) ++ written op ++ printed (show_r b))).
Proof. exact @operator_holds. Qed.
Print Assumptions C44_operator_partial.

(** It is false of types with values that cannot be compared, such as floating-point numbers: here, numbers with a
    value that is less than, equal to and greater than none. CHECK(nan < 1) shows "nan >= 1". *)
Theorem C44_operator_refuted :
  exists x, binary_expression 20 false true (quote "CHECK") (quote "a < b") partly_ordered show_number show_number Less None (Some 1) = Ok x /\
    x_success x = false /\ vcontent (x_actual x) = quote "nan" ++ written GreaterEqual ++ quote "1" /\
    partly_ordered GreaterEqual None (Some 1) = false.
Proof. exact nan_shown. Qed.
Print Assumptions C44_operator_refuted.

(** Other expressions: those converted to bool, with their value when it can be shown, and those that are not
    decomposed. *)
Theorem C44_unary :
  forall (A : Type) (to_bool : A -> bool) (show : A -> option text) (max : nat) (all expected : bool) (macro source : text) (a : A),
  exists x, unary_expression max all expected macro source to_bool show a = Ok x /\
    x_type x = macro /\ x_expected x = source /\
    (x_success x = true <-> to_bool a = expected) /\
    (x_success x = false \/ all = true -> vcontent (x_actual x) = kept max (printed (show a))) /\
    (x_success x = true -> all = false -> vcontent (x_actual x) = []).
Proof. exact @unary_checked. Qed.
Print Assumptions C44_unary.

Theorem C44_opaque :
  forall (max : nat) (expected : bool) (macro source : text) (value : bool),
  let x := opaque_expression max expected macro source value in
  x_type x = macro /\ x_expected x = source /\ (x_success x = true <-> value = expected) /\ vcontent (x_actual x) = [].
Proof. exact opaque_checked. Qed.
Print Assumptions C44_opaque.

Example C44_example :
  let shown x := do e <- x ;; Ok (vcontent (x_actual e), x_success e) in
  let check max all expected o a b :=
    shown (binary_expression max all expected (quote "CHECK") (quote "a op b") numbers show_some show_some o a b) in
  agreeing numbers /\
  check 10 false true Less 12 7 = Ok (quote "12 >= 7", false) /\
  check 10 false true Less 7 12 = Ok ([], true) /\
  check 10 true true Less 7 12 = Ok (quote "7 < 12", true) /\
  check 10 false false NotEqual 7 12 = Ok (quote "7 != 12", false) /\
  check 6 false false NotEqual 7 12 = Ok ([], false).
Proof. split; [exact numbers_agree|]. repeat split; vm_compute; reflexivity. Qed.

(** ** C45. Matchers *)
Theorem C45_contains_substring :
  forall pattern message : text, contains_match pattern message = true <-> occurs pattern message.
Proof. exact contains_spec. Qed.
Print Assumptions C45_contains_substring.

Theorem C45_with_what_contains :
  forall (E : Type) (what : E -> text) (pattern : text) (e : E), what_match what pattern e = true <-> occurs pattern (what e).
Proof. exact (fun E what pattern e => contains_spec pattern (what e)). Qed.
Print Assumptions C45_with_what_contains.

Theorem C45_is_any_of :
  forall (A : Type) (equal : A -> A -> bool) (l : list A) (value : A),
  any_of_match equal l value = true <-> exists v, In v l /\ equal v value = true.
Proof. exact @any_of_spec. Qed.
Print Assumptions C45_is_any_of.

(** Their descriptions: complete when they fit, otherwise truncated. *)
Theorem C45_substring_description :
  forall (mm : nat) (pattern message : text) (s : match_status), exists ss,
  contains_describe mm pattern message s = Ok ss /\ vcontent ss = fit mm (substring_description pattern message s).
Proof. exact contains_describes. Qed.
Print Assumptions C45_substring_description.

Theorem C45_any_of_description :
  forall (A : Type) (show : A -> text) (mm : nat) (l : list A) (value : A) (s : match_status), exists ss,
  any_of_describe show mm l value s = Ok ss /\ vcontent ss = fit mm (any_of_description (show value) (map show l) s).
Proof. exact @any_of_describes. Qed.
Print Assumptions C45_any_of_description.

(** With == and != (in both macros): the verdict is the one of the matcher, or the opposite; what is shown, unless it
    is too long, is the description for the status that the matcher gives. *)
Theorem C45_equal :
  forall (A : Type) (m : matcher A) (max : nat) (all expected : bool) (macro source : text) (equal : bool) (value : A),
  exists x, matcher_expression max all expected macro source m equal value = Ok x /\
    x_type x = macro /\ x_expected x = source /\
    (x_success x = true <-> (if equal then matches m value else negb (matches m value)) = expected) /\
    (x_success x = false \/ all = true ->
       vcontent (x_actual x) = kept max (describe m value (if matches m value then Matched else DidNotMatch))) /\
    (x_success x = true -> all = false -> vcontent (x_actual x) = []).
Proof. exact @matcher_checked. Qed.
Print Assumptions C45_equal.

(** CHECK_THAT and REQUIRE_THAT: the same, except that the description is always shown, and truncated if it is too
    long. *)
Theorem C45_that :
  forall (A : Type) (m : matcher A) (max mm : nat) (macro source : text) (value : A),
  (forall s, length (describe m value s) <= mm) ->
  exists x, that_expression max macro source mm m value = Ok x /\
    x_type x = macro /\ x_expected x = source /\ x_success x = matches m value /\
    vcontent (x_actual x) = fit max (describe m value (if matches m value then Matched else DidNotMatch)).
Proof. exact (fun A m max mm macro source value => that_spec max macro source mm m value). Qed.
Print Assumptions C45_that.

Example C45_example :
  let m := mkmatcher (contains_match (quote "lo w")) (fun message s => fit 40 (substring_description (quote "lo w") message s)) in
  matches m (quote "hello world") = true /\ matches m (quote "hello") = false /\
  (do x <- that_expression 40 [] [] 40 m (quote "hello") ;; Ok (vcontent (x_actual x), x_success x)) =
    Ok (quote "could not find " ++ quoted (quote "lo w") ++ quote " in " ++ quoted (quote "hello"), false) /\
  (do x <- matcher_expression 40 false true [] [] m false (quote "hello world") ;; Ok (vcontent (x_actual x), x_success x)) =
    Ok (quote "found " ++ quoted (quote "lo w") ++ quote " in " ++ quoted (quote "hello world"), false) /\
  any_of_match Nat.eqb [3; 5] 5 = true /\ any_of_match Nat.eqb [3; 5] 4 = false /\
  (do ss <- any_of_describe digit 40 [3; 5] 4 DidNotMatch ;; Ok (vcontent ss)) =
    Ok (quoted (quote "4") ++ quote " was not found in {" ++ quoted (quote "3") ++ quote ", " ++ quoted (quote "5") ++ quote "}").
Proof. repeat split; vm_compute; reflexivity. Qed.
