(** The order of floating-point numbers and of the texts printed for them (C97). No reference to the model. *)
From Coq Require Import ZArith NArith QArith Bool Ascii List.
From Verif.Spec Require Import FloatSpec ExpressionSpec.
Import ListNotations.
Local Open Scope Q_scope.

(** Numbers with both infinities, and their order. *)
Inductive extended := MinusInfinity | Real (r : Q) | PlusInfinity.
Definition at_most (x y : extended) : Prop :=
  match x, y with
  | MinusInfinity, _ | _, PlusInfinity => True
  | Real r, Real r' => r <= r'
  | _, _ => False
  end.

(** What a floating-point number stands for; "not a number" for nothing. *)
Definition signed (s : bool) (r : Q) : Q := if s then - r else r.
Definition number_value (v : number) : option extended :=
  match v with
  | NotANumber => None
  | Infinite s => Some (if s then MinusInfinity else PlusInfinity)
  | Finite s m q => Some (Real (signed s (binary m q)))
  end.

(** What a text stands for, for someone who reads it. *)
Inductive reads : list ascii -> extended -> Prop :=
| reads_plus : reads ["i"; "n"; "f"]%char PlusInfinity
| reads_minus : reads ["-"; "i"; "n"; "f"]%char MinusInfinity
| reads_number p s d x t r : scientific p s d x t -> r == signed s (scientific_value p d x) -> reads t (Real r).

(** The same number. *)
Definition same (x y : extended) : Prop := at_most x y /\ at_most y x.

(** What the comparisons mean for such numbers. *)
Definition holds (o : operator) (x y : extended) : Prop :=
  match o with
  | Less => at_most x y /\ ~ at_most y x | Greater => at_most y x /\ ~ at_most x y
  | LessEqual => at_most x y | GreaterEqual => at_most y x
  | Equal => same x y | NotEqual => ~ same x y
  end.

(** What rounding should leave of a comparison: numbers that are different may be shown alike, but not the wrong way
    round. *)
Definition not_reversed (o : operator) (x y : extended) : Prop :=
  match o with
  | Less | LessEqual => at_most x y | Greater | GreaterEqual => at_most y x
  | Equal => same x y | NotEqual => True
  end.
