(** Floating-point numbers (C47 to C49, C58): the values of IEEE 754 bit patterns, decimal numbers, and scientific
    notation. No reference to the model. *)
From Coq Require Import ZArith NArith QArith Bool Ascii List.
From Verif.Spec Require Import NumberSpec.
Import ListNotations.
Local Open Scope Q_scope.

(** The numbers d * 10^e and m * 2^q. *)
Definition decimal (d e : Z) : Q := inject_Z d * Qpower 10 e.
Definition binary (m q : Z) : Q := inject_Z m * Qpower 2 q.

(** [y] differs from [x] by at most [error]. *)
Definition within (error x y : Q) : Prop := x - error <= y <= x + error.

(** IEEE 754 binary interchange formats, by the number of bits of the fraction and of the exponent. *)
Record format := mkformat { fraction_bits : Z; exponent_bits : Z }.
Definition binary32 : format := mkformat 23 8.
Definition binary64 : format := mkformat 52 11.
Definition pattern (f : format) (bits : Z) : Prop := (0 <= bits < 2 ^ (fraction_bits f + exponent_bits f + 1))%Z.

Definition fraction_of (f : format) (bits : Z) : Z := (bits mod 2 ^ fraction_bits f)%Z.
Definition exponent_of (f : format) (bits : Z) : Z := (bits / 2 ^ fraction_bits f mod 2 ^ exponent_bits f)%Z.
Definition negative (f : format) (bits : Z) : bool := Z.odd (bits / 2 ^ (fraction_bits f + exponent_bits f))%Z.
Definition bias (f : format) : Z := (2 ^ (exponent_bits f - 1) - 1)%Z.

(** IEEE 754-2008, 3.4: what a bit pattern stands for; [Finite s m q] is m * 2^q, or its opposite if [s]. *)
Inductive number := NotANumber | Infinite (s : bool) | Finite (s : bool) (m q : Z).
Definition number_of (f : format) (bits : Z) : number :=
  let m := fraction_of f bits in
  let e := exponent_of f bits in
  let s := negative f bits in
  if (e =? 2 ^ exponent_bits f - 1)%Z then if (m =? 0)%Z then Infinite s else NotANumber
  else if (e =? 0)%Z then Finite s m (1 - bias f - fraction_bits f)
  else Finite s (2 ^ fraction_bits f + m) (e - bias f - fraction_bits f).

(** Scientific notation with [p] digits: a sign if negative, one digit, the separator, [p - 1] digits, the letter e, the
    sign of the exponent, and the exponent with at least two digits. [d] is the number made of all the digits, [x] the
    exponent. *)
Definition scientific (p : nat) (s : bool) (d : N) (x : Z) (t : list ascii) : Prop :=
  exists first rest ex,
    t = (if s then ["-"%char] else []) ++ first :: "."%char :: rest ++ "e"%char :: (if (x <? 0)%Z then "-"%char else "+"%char) :: ex /\
    length (first :: rest) = p /\ read 10 0 (first :: rest) = Some d /\
    read 10 0 ex = Some (Z.abs_N x) /\ (2 <= length ex)%nat /\ (forall c ex', ex = c :: ex' -> (2 < length ex)%nat -> c <> "0"%char).

(** The number it stands for, without its sign. *)
Definition scientific_value (p : nat) (d : N) (x : Z) : Q := decimal (Z.of_N d) (x - (Z.of_nat p - 1)).

(** [r] is the integer nearest to d / 10^k; an exact tie goes to the even one. *)
Definition nearest_even (d k r : Z) : Prop :=
  (2 * Z.abs (r * 10 ^ k - d) <= 10 ^ k)%Z /\ ((2 * Z.abs (r * 10 ^ k - d) = 10 ^ k)%Z -> Z.even r = true).

(** What is printed for a number with [p] digits: the scientific notation of a number that differs from it by at most
    half a unit of the last digit printed plus 0.48 units of the 16th digit; and of the number itself if it has at most
    [p] significant digits, and [p] is at most 16. *)
Definition error_bound (p : nat) (x : Z) : Q := (1 # 2) * Qpower 10 (x - (Z.of_nat p - 1)) + (48 # 100) * Qpower 10 (x - 15).
Definition prints (p : nat) (v : number) (t : list ascii) : Prop :=
  match v with
  | NotANumber => t = ["n"; "a"; "n"]%char
  | Infinite s => t = (if s then ["-"%char] else []) ++ ["i"; "n"; "f"]%char
  | Finite s m q =>
    exists d x, scientific p s d x t /\
    (m = 0%Z -> d = 0%N /\ x = 0%Z) /\
    (m <> 0%Z -> (10 ^ (Z.of_nat p - 1) <= Z.of_N d < 10 ^ Z.of_nat p)%Z) /\
    within (error_bound p x) (binary m q) (scientific_value p d x) /\
    ((p <= 16)%nat -> (exists d' x', binary m q == decimal d' x' /\ (0 <= d' < 10 ^ Z.of_nat p)%Z) -> scientific_value p d x == binary m q)
  end.

(** The same number, without the sign of a negative zero. *)
Definition plain_zero (v : number) : number := match v with Finite true 0 q => Finite false 0 q | _ => v end.
