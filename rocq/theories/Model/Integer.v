(** Model of the integer and pointer parts of include/snitch/snitch_append.hpp and src/snitch_append.cpp.
    Unsigned 64-bit values are [N], signed 64-bit values are [Z] (the theorems assume the range); C++ division
    and remainder of signed values truncate toward zero ([Z.quot], [Z.rem]). *)
From Verif.Model Require Import Base Vector StringUtil.
Local Open Scope N_scope.

(** snitch_append.hpp:58-59 [digits]. *)
Definition digit_table : str := lit "0123456789abcdef".

(** [digits[k]]: reading outside of the array is [UB]. *)
Definition digit (k : N) : res ascii :=
  match nth_error digit_table (N.to_nat k) with Some c => Ok c | None => Err UB end.

(** snitch_append.hpp:48-51 [num_digits] (unsigned); recursive, so with fuel. *)
Fixpoint num_digits_u (fuel : nat) (base x : N) : res nat :=
  match fuel with
  | O => Err Fuel
  | S f => if base <=? x then do n <- num_digits_u f base (x / base) ;; Ok (1 + n)%nat else Ok 1%nat
  end.

(** snitch_append.hpp:53-56 [num_digits] (signed). *)
Fixpoint num_digits_s (fuel : nat) (base x : Z) : res nat :=
  match fuel with
  | O => Err Fuel
  | S f =>
    if (base <=? x)%Z || (x <=? - base)%Z
    then do n <- num_digits_s f base (Z.quot x base) ;; Ok (1 + n)%nat
    else Ok (if (0 <? x)%Z then 1%nat else 2%nat)
  end.

(** Enough fuel for any 64-bit value in any base >= 2. *)
Definition int_fuel : nat := 64.

(** The loop of snitch_append.hpp:70-72 (unsigned). *)
Fixpoint digits_loop_u (fuel : nat) (base : N) (tmp : sstr) (j : N) (k : nat) : res sstr :=
  if j =? 0 then Ok tmp
  else match fuel with
       | O => Err Fuel
       | S f =>
         do pos <- csub (vsize tmp) k ;;
         do c <- digit (j mod base) ;;
         do tmp1 <- vset tmp pos c ;;
         digits_loop_u f base tmp1 (j / base) (S k)
       end.

(** An index computed as a signed value and used as [std::size_t]: a negative one is out of bounds. *)
Definition digit_z (k : Z) : res ascii := if (k <? 0)%Z then Err UB else digit (Z.to_N k).

(** The loops of snitch_append.hpp:85-87 ([neg = false]) and 93-95 ([neg = true]). *)
Fixpoint digits_loop_s (neg : bool) (fuel : nat) (base : Z) (tmp : sstr) (j : Z) (k : nat) : res sstr :=
  if (j =? 0)%Z then Ok tmp
  else match fuel with
       | O => Err Fuel
       | S f =>
         do pos <- csub (vsize tmp) k ;;
         do c <- digit_z (if neg then - Z.rem j base else Z.rem j base)%Z ;;
         do tmp1 <- vset tmp pos c ;;
         digits_loop_s neg f base tmp1 (Z.quot j base) (S k)
       end.

(** snitch_append.hpp:61-62: [max_uint_length = num_digits(2^64 - 1)] and [max_int_length]. *)
Definition max_uint_length : nat := 20.
Definition max_int_length : nat := 21.

(** snitch_append.hpp:64-77 [append_constexpr] for unsigned integers. *)
Definition append_uint_constexpr (base : N) (ss : sstr) (i : N) : res (sstr * bool) :=
  if i =? 0 then append_constexpr ss (lit "0")
  else
    do n <- num_digits_u int_fuel base i ;;
    do tmp <- vresize (new_string max_uint_length) n ;;
    do tmp1 <- digits_loop_u int_fuel base tmp i 1 ;;
    append_constexpr ss (vcontent tmp1).

(** snitch_append.hpp:79-101 [append_constexpr] for signed integers. *)
Definition append_int_constexpr (base : Z) (ss : sstr) (i : Z) : res (sstr * bool) :=
  if (0 <? i)%Z then
    do n <- num_digits_s int_fuel base i ;;
    do tmp <- vresize (new_string max_int_length) n ;;
    do tmp1 <- digits_loop_s false int_fuel base tmp i 1 ;;
    append_constexpr ss (vcontent tmp1)
  else if (i <? 0)%Z then
    do n <- num_digits_s int_fuel base i ;;
    do tmp <- vresize (new_string max_int_length) n ;;
    do tmp1 <- digits_loop_s true int_fuel base tmp i 1 ;;
    do tmp2 <- vset tmp1 0 "-"%char ;;
    append_constexpr ss (vcontent tmp2)
  else append_constexpr ss (lit "0").

(** [std::to_chars(begin, end, value, base)] (C++ standard, [charconv.to.chars]): writes the given text and
    succeeds if it fits in the [room] characters; otherwise fails, leaving unspecified contents
    ([garbage], arbitrary) in the room. Returns the block, and the number of characters written on success. *)
Definition to_chars (b : str) (pos room : nat) (txt garbage : str) : res (str * option nat) :=
  if (length txt <=? room)%nat
  then do b1 <- memwrite b pos txt ;; Ok (b1, Some (length txt))
  else do b1 <- memwrite b pos (firstn room garbage) ;; Ok (b1, None).

(** src/snitch_append.cpp:41-60 (and 18-39) [append_to] with [std::to_chars]; [txt] is the text that
    [std::to_chars] produces for the value, [g1], [g2] the unspecified contents left on failure. *)
Definition append_to (ss : sstr) (txt g1 g2 : str) : res (sstr * bool) :=
  do room <- csub (vcap ss) (vsize ss) ;;
  do (b, r) <- to_chars (vbuf ss) (vsize ss) room txt g1 ;;
  match r with
  | Some n => do ss1 <- vgrow (mkvec b (vsize ss)) n ;; Ok (ss1, true)
  | None =>
    let ss1 := mkvec b (vsize ss) in
    do (b2, r2) <- to_chars (vbuf (new_string 32)) 0 32 txt g2 ;;
    match r2 with
    | None => Ok (ss1, false)
    | Some n =>
      do fallback <- vgrow (mkvec b2 0) n ;;
      append ss1 (vcontent fallback)
    end
  end.

(** Texts produced by [std::to_chars] for integers: most significant digit first, no superfluous zeros,
    lower-case letters, and a minus sign for negative values (C++ standard, [charconv.to.chars]). *)
Fixpoint to_chars_digits (fuel : nat) (base x : N) : str :=
  match fuel with
  | O => []
  | S f =>
    (if base <=? x then to_chars_digits f base (x / base) else []) ++
    match nth_error digit_table (N.to_nat (x mod base)) with Some c => [c] | None => [] end
  end.
Definition to_chars_uint (base x : N) : str := to_chars_digits int_fuel base x.
Definition to_chars_int (x : Z) : str :=
  if (x <? 0)%Z then "-"%char :: to_chars_uint 10 (Z.abs_N x) else to_chars_uint 10 (Z.abs_N x).

(** src/snitch_append.cpp:115-121 and snitch_append.hpp:303-316: run-time [append] of integers. *)
Definition append_uint (ss : sstr) (i : N) (g1 g2 : str) : res (sstr * bool) := append_to ss (to_chars_uint 10 i) g1 g2.
Definition append_int (ss : sstr) (i : Z) (g1 g2 : str) : res (sstr * bool) := append_to ss (to_chars_int i) g1 g2.

(** The padding loop of src/snitch_append.cpp:103-111. *)
Fixpoint pad_loop (fuel : nat) (ss : sstr) (padding : nat) : res (sstr * bool) :=
  match padding with
  | O => Ok (ss, true)
  | _ =>
    match fuel with
    | O => Err Fuel
    | S f =>
      let batch := Nat.min 16 padding in
      do (ss1, ok) <- append_fast ss (firstn batch (lit "0000000000000000")) ;;
      if ok : bool then do padding1 <- csub padding batch ;; pad_loop f ss1 padding1
      else Ok (ss1, false)
    end
  end.

(** src/snitch_append.cpp:89-113 [append_fast] for pointers, 64-bit pointers.
    The address 0 is the null pointer. *)
Definition append_ptr (ss : sstr) (addr : N) (g1 g2 : str) : res (sstr * bool) :=
  if addr =? 0 then append ss (lit "nullptr")
  else
    do (ss1, ok) <- append_fast ss (lit "0x") ;;
    if negb ok then Ok (ss1, false)
    else
      do n <- num_digits_u int_fuel 16 addr ;;
      do padding <- csub 16 n ;;
      do (ss2, ok2) <- pad_loop 17 ss1 padding ;;
      if negb ok2 then Ok (ss2, false)
      else append_to ss2 (to_chars_uint 16 addr) g1 g2.
