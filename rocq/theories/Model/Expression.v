(** Model of include/snitch/snitch_expression.hpp and of include/snitch/snitch_matcher.hpp (src/snitch_matcher.cpp),
    with the macros of include/snitch/snitch_macros_check.hpp that use them. The overload resolution and the
    preprocessing that choose between the cases below are not modelled: each case is a function. *)
From Verif.Model Require Import Base Vector StringUtil.
From Verif.Spec Require Import TextSpec ExpressionSpec. (* only for the vocabulary: comparisons, matcher, match_status *)

(** snitch_expression.hpp:19-36, the constants [actual] and [inverse] of the types [operator_...]. *)
Definition op_actual (o : operator) : str :=
  match o with
  | Less => lit " < " | Greater => lit " > " | LessEqual => lit " <= "
  | GreaterEqual => lit " >= " | Equal => lit " == " | NotEqual => lit " != "
  end.
Definition op_inverse (o : operator) : str :=
  match o with
  | Less => lit " >= " | Greater => lit " <= " | LessEqual => lit " > "
  | GreaterEqual => lit " < " | Equal => lit " != " | NotEqual => lit " == "
  end.

(** snitch_expression.hpp:40-56 [struct expression]. *)
Record expression := mkexpression { x_type : str; x_expected : str; x_actual : sstr; x_success : bool }.

(** 46-55 [append_value]: [Some t] for a type that can be appended, by the text [t] appended for it (C04, C05; a
    conversion to text, C02), [None] for other types. *)
Definition append_value (ss : sstr) (v : option str) : res (sstr * bool) :=
  match v with
  | Some t => append ss t
  | None => append ss (lit "?")
  end.

Section Expressions.
Variable max_expr_length : nat.    (** SNITCH_MAX_EXPR_LENGTH *)
Variable decompose_all : bool.     (** SNITCH_DECOMPOSE_SUCCESSFUL_ASSERTIONS *)
Variable expected : bool.          (** template parameter [Expected] *)
Variables macro source : str.      (** [type] and [expected] *)

Definition nothing_shown : sstr := new_string max_expr_length.

(** 151-186 [extracted_binary_expression::to_expression], when no operand is a matcher. [apply o lhs rhs] is the value
    of [lhs OP rhs], converted to bool (user-defined operators that throw leave the check: see [Check] in
    Spec/Events.v). *)
Definition binary_expression {A B : Type} (apply : comparisons A B) (show_l : A -> option str) (show_r : B -> option str)
    (o : operator) (lhs : A) (rhs : B) : res expression :=
  let actual := apply o lhs rhs in
  let success := Bool.eqb actual expected in
  do shown <-
    (if negb success || decompose_all then
       do (s1, ok1) <- append_value nothing_shown (show_l lhs) ;;
       do (s2, ok2) <- (if ok1 : bool
                        then if actual then append_value s1 (Some (op_actual o)) else append_value s1 (Some (op_inverse o))
                        else Ok (s1, false)) ;;
       do (s3, ok3) <- (if ok2 : bool then append_value s2 (show_r rhs) else Ok (s2, false)) ;;
       Ok (if ok3 : bool then s3 else vclear s3)
     else Ok nothing_shown) ;;
  Ok (mkexpression macro source shown success).

(** The same lines, when an operand is a matcher for the other one (160-175); the operator is == or, rewritten by the
    compiler from == (snitch_matcher.hpp:112-120), !=. *)
Definition matcher_expression {A : Type} (m : matcher A) (equal : bool) (value : A) : res expression :=
  let actual := if equal then matches m value else negb (matches m value) in
  let success := Bool.eqb actual expected in
  do shown <-
    (if negb success || decompose_all then
       let status := if Bool.eqb equal actual then Matched else DidNotMatch in
       do (s1, ok) <- append_value nothing_shown (Some (describe m value status)) ;;
       Ok (if ok : bool then s1 else vclear s1)
     else Ok nothing_shown) ;;
  Ok (mkexpression macro source shown success).

(** 252-266 [extracted_unary_expression::to_expression]. *)
Definition unary_expression {A : Type} (to_bool : A -> bool) (show : A -> option str) (lhs : A) : res expression :=
  let success := Bool.eqb (to_bool lhs) expected in
  do shown <-
    (if negb success || decompose_all then
       do (s1, ok) <- append_value nothing_shown (show lhs) ;;
       Ok (if ok : bool then s1 else vclear s1)
     else Ok nothing_shown) ;;
  Ok (mkexpression macro source shown success).

(** snitch_macros_check.hpp:24-28: an expression that is not decomposed. *)
Definition opaque_expression (value : bool) : expression :=
  mkexpression macro source nothing_shown (Bool.eqb value expected).

(** snitch_matcher.hpp:30-40 [match] and snitch_macros_check.hpp:70-79 [SNITCH_REQUIRE_THAT_IMPL]. The description is a
    string of capacity [mm] ([max_message_length], for the matchers below). *)
Definition that_expression {A : Type} (mm : nat) (m : matcher A) (value : A) : res expression :=
  let result := if negb (matches m value) then (false, describe m value DidNotMatch) else (true, describe m value Matched) in
  do d <- string_from mm (snd result) ;;
  do shown <- resize_or_truncate max_expr_length d ;;
  Ok (mkexpression macro source shown (fst result)).
End Expressions.

(** ** Matchers *)

Definition apostrophe_text : str := [ascii_of_nat 39].

(** src/snitch_matcher.cpp:7-9 [contains_substring::match]. *)
Definition contains_match (pattern message : str) : bool := match find message pattern with Some _ => true | None => false end.

(** src/snitch_matcher.cpp:11-19 [contains_substring::describe_match]. *)
Definition contains_describe (mm : nat) (pattern message : str) (status : match_status) : res sstr :=
  do (ss, _) <- append_or_truncate (new_string mm)
    [match status with Matched => lit "found" | DidNotMatch => lit "could not find" end; lit " " ++ apostrophe_text;
     pattern; apostrophe_text ++ lit " in " ++ apostrophe_text; message; apostrophe_text] ;;
  Ok ss.

(** snitch_matcher.hpp:95-110 [with_what_contains]: the same on the result of [what()]. *)
Definition what_match {E} (what : E -> str) (pattern : str) (e : E) : bool := contains_match pattern (what e).
Definition what_describe {E} (what : E -> str) (mm : nat) (pattern : str) (e : E) (status : match_status) : res sstr :=
  contains_describe mm pattern (what e) status.

Section AnyOf.
Context {A : Type}.
Variable equal : A -> A -> bool.   (** [operator==] *)
Variable show : A -> str.          (** the text appended for a value *)

(** snitch_matcher.hpp:60-61: the list is a vector of as many elements as there are arguments, so it holds them all. *)

(** 63-71 [is_any_of::match]. *)
Fixpoint any_of_match (l : list A) (value : A) : bool :=
  match l with
  | [] => false
  | v :: l' => if equal v value then true else any_of_match l' value
  end.

(** 81-88, the loop of [describe_match]. *)
Fixpoint any_of_loop (first : bool) (l : list A) (ss : sstr) : res sstr :=
  match l with
  | [] => Ok ss
  | v :: l' =>
    do (ss1, _) <- append_or_truncate ss
      [if first then apostrophe_text else lit ", " ++ apostrophe_text; show v; apostrophe_text] ;;
    any_of_loop false l' ss1
  end.

(** 73-92 [is_any_of::describe_match]. *)
Definition any_of_describe (mm : nat) (l : list A) (value : A) (status : match_status) : res sstr :=
  do (s1, _) <- append_or_truncate (new_string mm)
    [apostrophe_text; show value; apostrophe_text ++ lit " was ";
     match status with DidNotMatch => lit "not " | Matched => [] end; lit "found in {"] ;;
  do s2 <- any_of_loop true l s1 ;;
  do (s3, _) <- append_or_truncate s2 [lit "}"] ;;
  Ok s3.
End AnyOf.
