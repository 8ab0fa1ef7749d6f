(** Model of the floating-point part of include/snitch/snitch_append.hpp (the implementation used at compile time, and
    at run time when std::to_chars is not used). *)
From Coq Require Import ZArith.
From Verif.Spec Require Import FloatSpec.
From Verif.Model Require Import Base Vector StringUtil Integer Fixed.
Local Open Scope Z_scope.

(** Conversion of an integer to [std::int32_t] (modulo 2^32). *)
Definition cast32 (z : Z) : Z := (z + 2 ^ 31) mod 2 ^ 32 - 2 ^ 31.

(** 104 [min_exp_digits]. *)
Definition min_exp_digits : nat := 2.

(** 106-109 [num_exp_digits]. *)
Definition num_exp_digits (x : Z) : res nat :=
  do a <- (if 0 <? x then Ok x else i32 (- x)) ;;
  do n <- num_digits_u int_fuel 10 (Z.to_N a) ;;
  Ok (if (n <? min_exp_digits)%nat then min_exp_digits else n).

(** 123-126 [max_float_length]: 20 digits, 1 sign, 4 digits of exponent, and 3. *)
Definition max_float_length : nat := 28.

(** 128-136 [round_half_to_even]. *)
Definition round_half_to_even (i : Z) (only_zero : bool) : res Z :=
  do a <- u64 (i + 5) ;;
  let r := a / 10 in
  if only_zero && (i mod 10 =? 5) then u64 (r - (1 - (i / 10) mod 2)) else Ok r.

(** 152-164, loop of [set_precision]. *)
Fixpoint precision_loop (fuel : nat) (p base_digits : nat) (only_zero : bool) (d e : Z) : res (Z * Z) :=
  if (p <? base_digits)%nat then
    match fuel with
    | O => Err Fuel
    | S fuel' =>
      if (p + 1 <? base_digits)%nat then
        do e1 <- i32 (e + 1) ;;
        precision_loop fuel' p (base_digits - 1) (if 0 <? d mod 10 then false else only_zero) (d / 10) e1
      else
        do d1 <- round_half_to_even d only_zero ;;
        do n <- num_digits_u int_fuel 10 (Z.to_N d1) ;;
        do e1 <- i32 (e + 1) ;;
        precision_loop fuel' p n only_zero d1 e1
    end
  else Ok (d, e).

(** 138-167 [set_precision]. *)
Definition set_precision (fd : signed_fixed) (p : nat) : res signed_fixed :=
  do n <- num_digits_u int_fuel 10 (Z.to_N (s_digits fd)) ;;
  do (d, e) <- precision_loop fixed_fuel p n true (s_digits fd) (s_exponent fd) ;;
  Ok (mksigned d e (s_sign fd)).

(** 184-190: the digits, from the last one, with the separator after the first. *)
Fixpoint mantissa_loop (fuel : nat) (tmp : sstr) (j : Z) (k : nat) : res sstr :=
  if j =? 0 then Ok tmp
  else match fuel with
       | O => Err Fuel
       | S fuel' =>
         do (tmp1, k1) <- (if j <? 10
                           then do pos <- csub (vsize tmp) k ;; do t <- vset tmp pos "."%char ;; Ok (t, S k)
                           else Ok (tmp, k)) ;;
         do pos <- csub (vsize tmp1) k1 ;;
         do c <- digit (Z.to_N (j mod 10)) ;;
         do tmp2 <- vset tmp1 pos c ;;
         mantissa_loop fuel' tmp2 (j / 10) (S k1)
       end.

(** 204-207: the digits of the exponent; gives the new [k]. *)
Fixpoint exponent_loop (fuel : nat) (tmp : sstr) (j : Z) (k : nat) : res (sstr * nat) :=
  if j =? 0 then Ok (tmp, k)
  else match fuel with
       | O => Err Fuel
       | S fuel' =>
         do pos <- csub (vsize tmp) k ;;
         do c <- digit (Z.to_N (j mod 10)) ;;
         do tmp1 <- vset tmp pos c ;;
         exponent_loop fuel' tmp1 (j / 10) (S k)
       end.

(** 210-212: padding; [n] is the number of iterations left at most. *)
Fixpoint padding_loop (n : nat) (tmp : sstr) (k : nat) : res (sstr * nat) :=
  match n with
  | O => Ok (tmp, k)
  | S n' =>
    if (k <=? min_exp_digits)%nat then
      do pos <- csub (vsize tmp) k ;;
      do tmp1 <- vset tmp pos "0"%char ;;
      padding_loop n' tmp1 (S k)
    else Ok (tmp, k)
  end.

(** 169-222 [append_constexpr(small_string_span, signed_fixed_data)]. *)
Definition append_fixed (ss : sstr) (fd : signed_fixed) : res (sstr * bool) :=
  do stored_digits <- num_digits_u int_fuel 10 (Z.to_N (s_digits fd)) ;;
  do tmp <- vresize (new_string max_float_length) (stored_digits + 1 + (if s_sign fd then 1 else 0))%nat ;;
  do tmp1 <- mantissa_loop int_fuel tmp (s_digits fd) 1 ;;
  do tmp2 <- (if s_sign fd then vset tmp1 0 "-"%char else Ok tmp1) ;;
  let e := cast32 (s_exponent fd + Z.of_nat stored_digits - 1) in
  do ne <- num_exp_digits e ;;
  do tmp3 <- vgrow tmp2 (ne + 2)%nat ;;
  do a <- (if 0 <? e then Ok e else i32 (- e)) ;;
  do (tmp4, k) <- exponent_loop int_fuel tmp3 a 1 ;;
  do (tmp5, k1) <- padding_loop (S min_exp_digits) tmp4 k ;;
  do pos <- csub (vsize tmp5) k1 ;;
  do tmp6 <- vset tmp5 pos (if 0 <=? e then "+"%char else "-"%char) ;;
  do pos1 <- csub (vsize tmp6) (S k1) ;;
  do tmp7 <- vset tmp6 pos1 "e"%char ;;
  append_constexpr ss (vcontent tmp7).

(** 224-267 [append_constexpr(small_string_span, T f, std::size_t precision)] for IEEE numbers; the argument is the bit
    pattern of [f]. [zeros.substr(0, precision - 1)] is everything if [precision] is 0 (233-239). *)
Definition append_float_bits (t : traits) (ss : sstr) (b : float_bits) (precision : nat) : res (sstr * bool) :=
  let precision := if (precision <=? 19)%nat then precision else 19%nat in
  if bexponent b =? 0 then
    if significand b =? 0 then
      do (ss1, ok1) <- append_constexpr ss (if bsign b then lit "-0." else lit "0.") ;;
      if negb ok1 then Ok (ss1, false) else
      let zeros := repeat "0"%char 18 in
      do (ss2, ok2) <- append_constexpr ss1 (match precision with O => zeros | S n => firstn n zeros end) ;;
      if negb ok2 then Ok (ss2, false) else
      append_constexpr ss2 (lit "e+00")
    else do fd <- to_fixed t b ;; do fd1 <- set_precision fd precision ;; append_fixed ss fd1
  else if bexponent b =? t_special t then
    if significand b =? 0 then append_constexpr ss (if bsign b then lit "-inf" else lit "inf")
    else append_constexpr ss (lit "nan")
  else do fd <- to_fixed t b ;; do fd1 <- set_precision fd precision ;; append_fixed ss fd1.
Definition append_float (t : traits) (ss : sstr) (bits : Z) (precision : nat) : res (sstr * bool) :=
  append_float_bits t ss (to_bits t bits) precision.
(** The same without [std::bit_cast]. *)
Definition append_float_portable (t : traits) (ss : sstr) (f : number) (precision : nat) : res (sstr * bool) :=
  do b <- to_bits_portable t f ;; append_float_bits t ss b precision.

(** src/snitch_append.cpp:18-39, 123-129: run-time [append] of floating-point numbers with [std::to_chars]; [txt] is the
    text that [std::to_chars] makes (scientific notation, 6 or 15 digits after the separator), [g1], [g2] what it leaves
    behind when it fails. *)
Definition append_float_to_chars (ss : sstr) (txt g1 g2 : str) : res (sstr * bool) := append_to ss txt g1 g2.
