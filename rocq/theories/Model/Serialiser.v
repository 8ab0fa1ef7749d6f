(** Model of values written by functions [append] of the user (README.md:729-777) and of the functions of the library that
    call them. The serialisers are those of Spec/SerialiserSpec.v; the functions of the library are those of
    Model/StringUtil.v, Model/Expression.v and Model/Capture.v, with serialisers instead of texts. Exceptions of the
    user's code are not modelled here (they are in Model/UserCode.v). *)
From Verif.Spec Require Import TextSpec ExpressionSpec SerialiserSpec.
From Verif.Model Require Import Base Vector StringUtil Expression Capture.

(** README.md:771-775: "calculating the expected length n; checking if n would exceed ss.available() (return false if so);
    storing old_size = ss.size(); growing by ss.grow(n) or ss.resize(old_size + n); writing the textual representation
    between ss.begin() + old_size and ss.end()". *)
Definition append_by_hand (by_growing : bool) (ss : sstr) (t : str) : res (sstr * bool) :=
  do av <- vavailable ss ;;
  if av <? length t then Ok (ss, false)
  else
    let old_size := vsize ss in
    do ss1 <- (if by_growing then vgrow ss (length t) else vresize ss (old_size + length t)) ;;
    do b <- memwrite (vbuf ss1) old_size t ;;
    Ok (mkvec b (vsize ss1), true).

(** Other code: its effect on the string, through the interface of the span (snitch_string.hpp:142-240): a size for which
    there is no room is a failed assertion. *)
Definition append_own (f : behaviour) (ss : sstr) : res (sstr * bool) :=
  let (content, ok) := f (vcap ss) (vcontent ss) in
  do ss1 <- vresize ss (length content) ;;
  do b <- memwrite (vbuf ss1) 0 content ;;
  Ok (mkvec b (vsize ss1), ok).

(** A call of [append(ss, v)]. For [Value]: snitch_append.hpp:281-287. *)
Fixpoint append_serialised (ss : sstr) (s : serialiser) : res (sstr * bool) :=
  match s with
  | Nothing => Ok (ss, true)
  | Value t => append ss t
  | Then a b =>
    do (ss1, ok) <- append_serialised ss a ;;
    if ok : bool then append_serialised ss1 b else Ok (ss1, false)
  | ByHand by_growing t => append_by_hand by_growing ss t
  | Own _ f => append_own f ss
  end.

(** include/snitch/snitch_append.hpp:378-382, the variadic [append]. *)
Fixpoint append_all_serialised (ss : sstr) (l : list serialiser) : res (sstr * bool) :=
  match l with
  | [] => Ok (ss, true)
  | s :: l' =>
    do (ss1, ok) <- append_serialised ss s ;;
    if ok : bool then append_all_serialised ss1 l' else Ok (ss1, false)
  end.

(** include/snitch/snitch_string_utility.hpp:29-37 [append_or_truncate]. *)
Definition append_or_truncate_serialised (ss : sstr) (l : list serialiser) : res (sstr * bool) :=
  do (ss1, ok) <- append_all_serialised ss l ;;
  if ok : bool then Ok (ss1, true)
  else do ss2 <- truncate_end ss1 ;; Ok (ss2, false).

(** src/snitch_capture.cpp:84-103, include/snitch/snitch_capture.hpp:27-47: the texts of the captures of a CAPTURE and an
    INFO, each a new string of capacity [n] (SNITCH_MAX_CAPTURE_LENGTH). *)
Fixpoint capture_serialised (n : nat) (names : str) (values : list serialiser) : res (list str) :=
  match values with
  | [] => Ok []
  | v :: values' =>
    do (name, names') <- extract_next_name names ;;
    do (ss, _) <- append_or_truncate_serialised (new_string n) [Value name; Value (lit " := "); v] ;;
    do rest <- capture_serialised n names' values' ;;
    Ok (vcontent ss :: rest)
  end.
Definition info_serialised (n : nat) (values : list serialiser) : res str :=
  do (ss, _) <- append_or_truncate_serialised (new_string n) values ;;
  Ok (vcontent ss).

(** snitch_expression.hpp:46-55 [append_value]. *)
Definition append_value_serialised (ss : sstr) (v : option serialiser) : res (sstr * bool) :=
  match v with
  | Some s => append_serialised ss s
  | None => append ss (lit "?")
  end.

Section Expressions.
Variable max_expr_length : nat.    (** SNITCH_MAX_EXPR_LENGTH *)
Variable decompose_all : bool.     (** SNITCH_DECOMPOSE_SUCCESSFUL_ASSERTIONS *)
Variable expected : bool.          (** template parameter [Expected] *)
Variables macro source : str.      (** [type] and [expected] *)

(** snitch_expression.hpp:151-186, as [binary_expression] of Model/Expression.v. *)
Definition binary_serialised {A B : Type} (apply : comparisons A B) (show_l : A -> option serialiser) (show_r : B -> option serialiser)
    (o : operator) (lhs : A) (rhs : B) : res expression :=
  let actual := apply o lhs rhs in
  let success := Bool.eqb actual expected in
  do shown <-
    (if negb success || decompose_all then
       do (s1, ok1) <- append_value_serialised (nothing_shown max_expr_length) (show_l lhs) ;;
       do (s2, ok2) <- (if ok1 : bool then append_value s1 (Some (if actual then op_actual o else op_inverse o))
                        else Ok (s1, false)) ;;
       do (s3, ok3) <- (if ok2 : bool then append_value_serialised s2 (show_r rhs) else Ok (s2, false)) ;;
       Ok (if ok3 : bool then s3 else vclear s3)
     else Ok (nothing_shown max_expr_length)) ;;
  Ok (mkexpression macro source shown success).

(** snitch_expression.hpp:252-266, as [unary_expression]. *)
Definition unary_serialised {A : Type} (to_bool : A -> bool) (show : A -> option serialiser) (lhs : A) : res expression :=
  let success := Bool.eqb (to_bool lhs) expected in
  do shown <-
    (if negb success || decompose_all then
       do (s1, ok) <- append_value_serialised (nothing_shown max_expr_length) (show lhs) ;;
       Ok (if ok : bool then s1 else vclear s1)
     else Ok (nothing_shown max_expr_length)) ;;
  Ok (mkexpression macro source shown success).
End Expressions.

Section AnyOf.
Context {A : Type}.
Variable show : A -> serialiser.

(** snitch_matcher.hpp:81-88 and 73-92, as [any_of_loop] and [any_of_describe] of Model/Expression.v. *)
Fixpoint any_of_loop_serialised (first : bool) (l : list A) (ss : sstr) : res sstr :=
  match l with
  | [] => Ok ss
  | v :: l' =>
    do (ss1, _) <- append_or_truncate_serialised ss
      [Value (if first then apostrophe_text else lit ", " ++ apostrophe_text); show v; Value apostrophe_text] ;;
    any_of_loop_serialised false l' ss1
  end.
Definition any_of_describe_serialised (mm : nat) (l : list A) (value : A) (status : match_status) : res sstr :=
  do (s1, _) <- append_or_truncate_serialised (new_string mm)
    [Value apostrophe_text; show value; Value (apostrophe_text ++ lit " was ");
     Value (match status with DidNotMatch => lit "not " | Matched => [] end); Value (lit "found in {")] ;;
  do s2 <- any_of_loop_serialised true l s1 ;;
  do (s3, _) <- append_or_truncate_serialised s2 [Value (lit "}")] ;;
  Ok s3.
End AnyOf.
