(** Model of the decomposition of expressions: the overloaded operators of include/snitch/snitch_expression.hpp, and the
    choice made by SNITCH_REQUIRE_IMPL (snitch_macros_check.hpp:17-30). The reading of the source by the compiler is that of
    Spec/OperatorSpec.v. Operands are given by their values, which also stand for their types; the operators of the
    operands' own types are given by [apply], and templates of the user that would also apply to the classes of the
    library are left out. Comparisons with matchers differ in the text shown only (C45). *)
From Verif.Spec Require Import TextSpec ExpressionSpec MacroSpec OperatorSpec. (* only for the vocabulary *)
From Verif.Model Require Import Base.

Section Decompose.
Variable V : Type.
Variable apply : op V -> V -> V -> option V.
Variable for_constants : operator -> V -> V -> bool.
Variable truth : V -> bool.
Variable testable : V -> bool.
Variable show : V -> option text.

(** The objects made while the expression is evaluated: values of the user, and the classes
    [expression_extractor] (278-287), [extracted_unary_expression] (198-276), [extracted_binary_expression] (104-196) and
    [invalid_expression] (60-102), all in snitch_expression.hpp. *)
Inductive object :=
| Value (v : V)
| Extractor
| Unary (lhs : V)
| Binary (o : operator) (lhs rhs : V)
| Invalid.

(** The operator chosen for two operands and its result; [None]: the program is not accepted by the compiler. Operators
    that are not overloaded exist only for values, except for the comma, which is built in for all types (71-92
    declare none for [invalid_expression]). *)
Definition resolve (o : op V) (l r : object) : option object :=
  match r with
  | Value b =>
    match l with
    | Value a => option_map Value (apply o a b)
    | Extractor =>                                   (* 283-286 *)
      match o with Compare _ LessEqual => Some (Unary b) | Comma _ => Some (Value b) | _ => None end
    | Unary a =>
      match o with
      | Compare _ c => Some (Binary c a b)           (* 212-217 *)
      | And _ | Or _ | Assign _ | AssignWith _ _ | BitXor _ | BitOr _ | BitAnd _ | Comma _ => Some Invalid (* 229-248 *)
      | _ => None
      end
    | Binary _ _ _ =>
      match o with
      | Compare _ _ | And _ | Or _ | Assign _ | AssignWith _ _ | BitXor _ | BitOr _ | BitAnd _ | Comma _ => Some Invalid (* 121-146 *)
      | _ => None
      end
    | Invalid =>
      match o with
      | Compare _ _ | And _ | Or _ | Assign _ | AssignWith _ _ | BitXor _ | BitOr _ | BitAnd _ => Some Invalid (* 71-92 *)
      | Comma _ => Some (Value b)
      | _ => None
      end
    end
  | _ => None
  end.

(** snitch_macros_check_base.hpp:22-25, 27-31: what is written behind the extractor, [<= __VA_ARGS__]; as an operand, [None]
    is the extractor. *)
Definition behind_extractor (a : V) (l : list (op V * V)) : list (op V * option V) :=
  (Compare V LessEqual, Some a) :: map (fun '(o, b) => (o, Some b)) l.

(** The evaluation of [expression_extractor<...>{...} <= __VA_ARGS__]. *)
Fixpoint elaborate (t : tree V (option V)) : option object :=
  match t with
  | Leaf None => Some Extractor
  | Leaf (Some v) => Some (Value v)
  | Node o l r => match elaborate l, elaborate r with Some a, Some b => resolve o a b | _, _ => None end
  end.

(** [to_expression] of the classes (96-101, 150-195, 252-275): [Some None] for [nondecomposable_expression], [None] if
    there is no such function. *)
Definition to_expression (x : object) : option (option condition) :=
  match x with
  | Unary v => Some (if testable v then Some (Single V truth show v) else None)
  | Binary o a b => Some (if for_constants o a b
                          then Some (Comparison V V (compared V apply truth) show show o a b) else None)
  | Invalid => Some None
  | Value _ | Extractor => None
  end.

(** snitch_macros_check.hpp:17-30 [SNITCH_REQUIRE_IMPL], for an expression [t] that is read as [t'] behind the extractor.
    The macro names both [SNITCH_EXPR] and [static_cast<bool>] of the expression, so both must be accepted. *)
Definition check_expression (t : tree V V) (t' : tree V (option V)) : option condition :=
  match elaborate t', value V apply t with
  | Some x, Some v =>
    match to_expression x with
    | Some (Some c) => Some c
    | Some None => Some (Undecomposed (truth v))
    | None => None
    end
  | _, _ => None
  end.
End Decompose.
