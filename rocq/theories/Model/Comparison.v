(** Model of include/snitch/snitch_expression.hpp for operands of built-in types: Model/Expression.v, with the texts of
    the operands appended by the overloads of [append] (Model/Values.v) instead of given, and with the comparisons of
    integers of the language. *)
From Verif.Spec Require Import TextSpec FilterSpec ExpressionSpec ValueSpec.
From Verif.Model Require Import Base Vector StringUtil Values Expression.

(** ** The language: [lhs OP rhs] for booleans, integers and enumerators (snitch_expression.hpp:23-28). [int] has 32
    bits; types are known by their sign and number of bits. Other operands are not compared here. *)

(** Integral promotions. *)
Fixpoint promoted (v : value) : option (bool * nat * Z) :=
  match v with
  | Boolean b => Some (true, 32, if b then 1%Z else 0%Z)
  | Integer s w z => Some (if w <? 32 then (true, 32, z) else (s, w, z))
  | Enumerator u => promoted u
  | _ => None
  end.

(** Usual arithmetic conversions: the common type... *)
Definition common_type (s : bool) (w : nat) (s' : bool) (w' : nat) : bool * nat :=
  if Bool.eqb s s' then (s, if w <? w' then w' else w)
  else
    let signed_width := if s then w else w' in
    let unsigned_width := if s then w' else w in
    if signed_width <=? unsigned_width then (false, unsigned_width) else (true, signed_width).

(** ... and a number converted to it. A signed common type holds the numbers of both types. *)
Definition convert (s : bool) (w : nat) (z : Z) : Z := if s then z else (z mod 2 ^ Z.of_nat w)%Z.

Definition compare_numbers (o : operator) (x y : Z) : bool :=
  match o with
  | Less => x <? y | Greater => y <? x | LessEqual => x <=? y
  | GreaterEqual => y <=? x | Equal => x =? y | NotEqual => negb (x =? y)
  end%Z.

Definition compare_values (o : operator) (lhs rhs : value) : bool :=
  match promoted lhs, promoted rhs with
  | Some (s, w, x), Some (s', w', y) =>
    let (sc, wc) := common_type s w s' w' in
    compare_numbers o (convert sc wc x) (convert sc wc y)
  | _, _ => false
  end.

(** The conversion to [bool] of a boolean, an integer or an unscoped enumerator (snitch_expression.hpp:255). *)
Fixpoint truth (v : value) : bool :=
  match v with
  | Boolean b => b
  | Integer _ _ z => negb (z =? 0)%Z
  | Enumerator u => truth u
  | _ => false
  end.

Section BuiltIn.
Variable ev : evaluation.          (** where the check is evaluated *)
Variable max_expr_length : nat.    (** SNITCH_MAX_EXPR_LENGTH *)
Variable decompose_all : bool.     (** SNITCH_DECOMPOSE_SUCCESSFUL_ASSERTIONS *)
Variable expected : bool.          (** template parameter [Expected] *)
Variables macro source : str.      (** [type] and [expected] *)

(** snitch_expression.hpp:151-186 [extracted_binary_expression::to_expression], when no operand is a matcher; 46-49
    [append_value] for types that can be appended. *)
Definition binary_built_in (apply : comparisons value value) (o : operator) (lhs rhs : value) : res expression :=
  let actual := apply o lhs rhs in
  let success := Bool.eqb actual expected in
  do shown <-
    (if negb success || decompose_all then
       do (s1, ok1) <- append_built_in ev (nothing_shown max_expr_length) lhs ;;
       do (s2, ok2) <- (if ok1 : bool
                        then if actual then append_built_in ev s1 (View (op_actual o)) else append_built_in ev s1 (View (op_inverse o))
                        else Ok (s1, false)) ;;
       do (s3, ok3) <- (if ok2 : bool then append_built_in ev s2 rhs else Ok (s2, false)) ;;
       Ok (if ok3 : bool then s3 else vclear s3)
     else Ok (nothing_shown max_expr_length)) ;;
  Ok (mkexpression macro source shown success).

(** 252-266 [extracted_unary_expression::to_expression]. *)
Definition unary_built_in (to_bool : value -> bool) (lhs : value) : res expression :=
  let success := Bool.eqb (to_bool lhs) expected in
  do shown <-
    (if negb success || decompose_all then
       do (s1, ok) <- append_built_in ev (nothing_shown max_expr_length) lhs ;;
       Ok (if ok : bool then s1 else vclear s1)
     else Ok (nothing_shown max_expr_length)) ;;
  Ok (mkexpression macro source shown success).
End BuiltIn.
