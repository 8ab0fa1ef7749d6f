(** Comparisons of values of built-in types (C91). No reference to the model. *)
From Coq Require Import Arith Bool List ZArith.
From Verif.Spec Require Import TextSpec FilterSpec ExpressionSpec ValueSpec.
Import ListNotations.
Local Open Scope Z_scope.

(** What the comparisons mean for numbers. *)
Definition relation (o : operator) (x y : Z) : Prop :=
  match o with
  | Less => x < y | Greater => x > y | LessEqual => x <= y
  | GreaterEqual => x >= y | Equal => x = y | NotEqual => x <> y
  end.

(** The number that a boolean, an integer or an enumerator stands for. *)
Inductive number : value -> Z -> Prop :=
| number_true : number (Boolean true) 1
| number_false : number (Boolean false) 0
| number_integer s w z : number (Integer s w z) z
| number_enumerator v z : number v z -> number (Enumerator v) z.

(** The type in which the language computes with it: types of less than 32 bits become [int] (of 32 bits). *)
Inductive computed_in : value -> bool -> nat -> Prop :=
| in_int_boolean b : computed_in (Boolean b) true 32
| in_int_small s w z : (w < 32)%nat -> computed_in (Integer s w z) true 32
| in_itself s w z : (32 <= w)%nat -> computed_in (Integer s w z) s w
| in_underlying v s w : computed_in v s w -> computed_in (Enumerator v) s w.

(** In a comparison of [v] with [v'] the language does not take the negative number [v] for what it is, if [v'] is of
    an unsigned type of at least as many bits [w]. *)
Definition misread (v v' : value) (w : nat) : Prop :=
  exists n z, computed_in v true n /\ number v z /\ z < 0 /\ computed_in v' false w /\ (n <= w)%nat.
