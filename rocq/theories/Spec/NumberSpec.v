(** How a number is written (C04, C05, C49): an independent reader for digit strings. *)
From Coq Require Import Bool List Ascii NArith ZArith.
Import ListNotations.
Local Open Scope N_scope.

(** Value of a digit, lower-case hexadecimal. *)
Definition digit_value (c : ascii) : option N :=
  let n := N_of_ascii c in
  if (48 <=? n) && (n <=? 57) then Some (n - 48)
  else if (97 <=? n) && (n <=? 102) then Some (n - 87)
  else None.

(** Positional reading, most significant digit first; every digit must be below the base. *)
Fixpoint read (base acc : N) (s : list ascii) : option N :=
  match s with
  | [] => Some acc
  | c :: s' =>
    match digit_value c with
    | Some d => if d <? base then read base (acc * base + d) s' else None
    | None => None
    end
  end.

(** [s] is the canonical notation of [x]: at least one digit, no superfluous leading zero. *)
Definition writes (base : N) (s : list ascii) (x : N) : Prop :=
  read base 0 s = Some x /\ s <> [] /\ (forall s', s = "0"%char :: s' -> s' = []).

(** Signed decimal notation: a minus sign for negative numbers only. *)
Definition writes_int (s : list ascii) (z : Z) : Prop :=
  (0 <= z /\ writes 10 s (Z.to_N z))%Z \/
  (z < 0 /\ exists s', s = "-"%char :: s' /\ writes 10 s' (Z.to_N (- z)))%Z.

(** Fixed width notation. *)
Definition writes_fixed (base : N) (width : nat) (s : list ascii) (x : N) : Prop :=
  read base 0 s = Some x /\ length s = width.
