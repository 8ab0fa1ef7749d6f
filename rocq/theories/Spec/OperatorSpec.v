(** The operators of C++ expressions, their precedence, and what a check on an expression should decompose (C72). No
    reference to the model. *)
From Coq Require Import Arith Ascii String Bool List.
From Verif.Spec Require Import TextSpec FilterSpec ExpressionSpec MacroSpec.
Import ListNotations.
Local Open Scope list_scope.

Section Operators.
Variable V : Type.    (** values of operands *)

(** Binary operators, and [? middle :] which takes a left and a right operand too (what stands between [?] and [:] is
    read as if it were in parentheses). *)
Inductive op :=
| MemberPointer
| Times | Divide | Modulo
| Plus | Minus
| ShiftLeft | ShiftRight
| ThreeWay
| Compare (o : operator)
| BitAnd
| BitXor
| BitOr
| And
| Or
| Conditional (middle : V)
| Assign
| AssignWith (o : op)     (** [+=], [<<=]... *)
| Comma.

(** Precedence in C++: operators with a smaller number bind more tightly. *)
Definition level (o : op) : nat :=
  match o with
  | MemberPointer => 4
  | Times | Divide | Modulo => 5
  | Plus | Minus => 6
  | ShiftLeft | ShiftRight => 7
  | ThreeWay => 8
  | Compare Less | Compare Greater | Compare LessEqual | Compare GreaterEqual => 9
  | Compare Equal | Compare NotEqual => 10
  | BitAnd => 11
  | BitXor => 12
  | BitOr => 13
  | And => 14
  | Or => 15
  | Conditional _ | Assign | AssignWith _ => 16
  | Comma => 17
  end.
(** The operators of level 16 group from right to left, all others from left to right. *)
Definition right_to_left (o : op) : bool := level o =? 16.

(** An expression as it is written: an operand (a name, a literal, a call, an operand with prefix or postfix operators,
    anything in parentheses) and any number of operators with their right operands. [A]: the operands. *)
Inductive tree (A : Type) := Leaf (a : A) | Node (o : op) (l r : tree A).
Arguments Leaf {A}.
Arguments Node {A}.

(** How C++ reads it: [reads n a l t] if the operand [a] followed by [l] is read as [t] and the operator applied last
    has at most the level [n]. *)
Inductive reads {A} : nat -> A -> list (op * A) -> tree A -> Prop :=
| Reads_operand n a : reads n a [] (Leaf a)
| Reads_left n o a l b r t u :
    right_to_left o = false -> level o <= n -> reads (level o) a l t -> reads (level o - 1) b r u ->
    reads n a (l ++ (o, b) :: r) (Node o t u)
| Reads_right n o a l b r t u :
    right_to_left o = true -> level o <= n -> reads (level o - 1) a l t -> reads (level o) b r u ->
    reads n a (l ++ (o, b) :: r) (Node o t u).

(** Level of the operator applied last. *)
Definition top {A} (t : tree A) : nat := match t with Leaf _ => 0 | Node o _ _ => level o end.

(** ** Values *)

(** What the operators of the types involved do; [None]: no such operator for these operands. *)
Variable apply : op -> V -> V -> option V.
Fixpoint value (t : tree V) : option V :=
  match t with
  | Leaf a => Some a
  | Node o l r => match value l, value r with Some a, Some b => apply o a b | _, _ => None end
  end.

(** Whether the comparison also exists for constant operands. *)
Variable for_constants : operator -> V -> V -> bool.
(** Conversion to [bool], and whether it also exists for constants. *)
Variable truth : V -> bool.
Variable testable : V -> bool.
(** How values are printed. *)
Variable show : V -> option text.

(** ** What a check should say about an expression *)

Inductive shape := SingleValue (t : tree V) | TwoSides (o : operator) (l r : tree V) | Complex.
(** An expression with no comparison is shown by its value; a comparison whose left side has none, by its two sides;
    for all others only the verdict is given. *)
Definition shape_of (t : tree V) : shape :=
  if top t <=? 8 then SingleValue t
  else match t with
       | Node (Compare o) l r => if top l <=? 8 then TwoSides o l r else Complex
       | _ => Complex
       end.

(** Expressions that cannot be given to a check without parentheses: conditional expressions, and sequences whose first
    part is neither a single value nor a comparison. *)
Definition unusable (t : tree V) : Prop :=
  match t with
  | Node (Conditional _) _ _ => True
  | Node Comma l _ => shape_of l = Complex
  | _ => False
  end.

(** The comparisons of values, as a truth value. *)
Definition compared : comparisons V V :=
  fun o a b => match apply (Compare o) a b with Some v => truth v | None => false end.

(** The condition checked for an expression. Only the verdict is given, too, if constants cannot be compared or
    tested. *)
Definition says (t : tree V) (c : condition) : Prop :=
  match shape_of t with
  | SingleValue _ =>
    exists v, value t = Some v /\ c = (if testable v then Single V truth show v else Undecomposed (truth v))
  | TwoSides o l r =>
    exists a b v, value l = Some a /\ value r = Some b /\ apply (Compare o) a b = Some v /\
    c = (if for_constants o a b then Comparison V V compared show show o a b else Undecomposed (truth v))
  | Complex => exists v, value t = Some v /\ c = Undecomposed (truth v)
  end.
End Operators.
Arguments Leaf {V A}.
Arguments Node {V A}.
