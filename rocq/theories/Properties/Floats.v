(** Properties C47, C48, C49, C58: floating-point numbers. *)
From Coq Require Import ZArith QArith.
From Verif.Spec Require Import TextSpec NumberSpec FloatSpec.
From Verif.Model Require Import Base Vector StringUtil Integer Fixed FloatText.
From Verif.Proofs Require Import FixedProofs FloatProofs FloatTextProofs PortableProofs FloatForms TableProofs.
Local Open Scope Z_scope.

(** C47. For every bit pattern of a float or a double, the fields put together again are the pattern. *)
Theorem C47_fields :
  forall (t : traits) (f : format) (bits : Z),
  t = float_traits /\ f = binary32 \/ t = double_traits /\ f = binary64 -> pattern f bits ->
  let b := to_bits t bits in
  bits = (if bsign b then 2 ^ (fraction_bits f + exponent_bits f) else 0) + bexponent b * 2 ^ fraction_bits f + significand b /\
  0 <= significand b < 2 ^ fraction_bits f /\ 0 <= bexponent b < 2 ^ exponent_bits f.
Proof. exact recombine. Qed.
Print Assumptions C47_fields.

(** C47. The fields and the constants of the traits denote the number of IEEE 754; special values are told apart. *)
Theorem C47_values :
  forall (t : traits) (f : format) (bits : Z),
  t = float_traits /\ f = binary32 \/ t = double_traits /\ f = binary64 -> pattern f bits ->
  let b := to_bits t bits in
  match number_of f bits with
  | NotANumber => bexponent b = t_special t /\ significand b <> 0
  | Infinite s => bexponent b = t_special t /\ significand b = 0 /\ bsign b = s
  | Finite s m q => bexponent b <> t_special t /\ bsign b = s /\
      (bexponent b = 0 -> m = significand b /\ q = t_exp_origin t + 1 - t_sig_bits t) /\
      (bexponent b <> 0 -> m = 2 ^ t_sig_bits t + significand b /\ q = bexponent b + t_exp_origin t - t_sig_bits t)
  end.
Proof. exact classes. Qed.
Print Assumptions C47_values.

(** C47. Without std::bit_cast: the loops end, all their operations are exact, and the fields are the same, but for the
    sign of zero, and the sign and the payload of a NaN. *)
Theorem C47_without_bit_cast :
  forall (t : traits) (f : format) (bits : Z),
  t = float_traits /\ f = binary32 \/ t = double_traits /\ f = binary64 -> pattern f bits ->
  to_bits_portable t (number_of f bits) =
  Ok (match number_of f bits with
      | NotANumber => mkbits (t_sig_nan t) (t_special t) false
      | Infinite _ => to_bits t bits
      | Finite _ m _ => if m =? 0 then mkbits 0 0 false else to_bits t bits
      end).
Proof. exact portable_spec. Qed.
Print Assumptions C47_without_bit_cast.

(** -1.5; the smallest float; minus infinity; minus zero. *)
Example C47_example :
  to_bits double_traits 0xBFF8000000000000 = mkbits 0x8000000000000 1023 true /\
  number_of binary64 0xBFF8000000000000 = Finite true 0x18000000000000 (-52) /\
  number_of binary32 1 = Finite false 1 (-149) /\ to_bits_portable float_traits (Finite false 1 (-149)) = Ok (mkbits 1 0 false) /\
  to_bits_portable float_traits (Finite true 0xC00000 (-23)) = Ok (mkbits 0x400000 127 true) /\
  number_of binary32 0xFF800000 = Infinite true /\
  to_bits float_traits 0x80000000 = mkbits 0 0 true /\ to_bits_portable float_traits (number_of binary32 0x80000000) = Ok (mkbits 0 0 false).
Proof. repeat split; vm_compute; reflexivity. Qed.

(** C48. Every 64-bit number of digits is normalised without any change of its value. *)
Theorem C48_make :
  forall d e : Z, 0 < d < 2 ^ 64 -> - 2 ^ 31 + 19 <= e < 2 ^ 31 ->
  exists f, make_fixed d e = Ok f /\ (decimal (digits f) (exponent f) == decimal d e)%Q /\
  (2 ^ 64 - 1) / 10 <= digits f < 2 ^ 64 /\ e - 19 <= exponent f <= e.
Proof. exact make_forms. Qed.
Print Assumptions C48_make.

(** C48. Addition, when the first operand is zero or does not have the larger exponent (as everywhere in the code): no
    overflow, and a relative error of at most 6e-18. Missing: operands in the other order (see [C48_add_refuted]), and
    digits above 2^64 - 6 (see [C48_wrap_refuted]). *)
Theorem C48_add_partial :
  forall f1 f2 : fixed,
  ((2 ^ 64 - 1) / 10 <= digits f1 < 2 ^ 64 - 5 /\ - 2 ^ 29 <= exponent f1 <= 2 ^ 29) \/ f1 = mkfixed 0 (- 2 ^ 31) ->
  (2 ^ 64 - 1) / 10 <= digits f2 < 2 ^ 64 - 5 /\ - 2 ^ 29 <= exponent f2 <= 2 ^ 29 -> exponent f1 <= exponent f2 ->
  exists f, fixed_add f1 f2 = Ok f /\ (2 ^ 64 - 1) / 10 <= digits f < 2 ^ 64 - 5 /\ exponent f2 - 1 <= exponent f <= exponent f2 + 1 /\
  let sum := (decimal (digits f1) (exponent f1) + decimal (digits f2) (exponent f2))%Q in
  within ((6 # 1000000000000000000) * sum) sum (decimal (digits f) (exponent f)).
Proof. exact add_forms. Qed.
Print Assumptions C48_add_partial.

(** C48. Multiplication: no overflow, and a relative error of at most 4.5e-17. *)
Theorem C48_mul_partial :
  forall f1 f2 : fixed,
  (2 ^ 64 - 1) / 10 <= digits f1 < 2 ^ 64 - 5 /\ - 2 ^ 29 <= exponent f1 <= 2 ^ 29 ->
  (2 ^ 64 - 1) / 10 <= digits f2 < 2 ^ 64 - 5 /\ - 2 ^ 29 <= exponent f2 <= 2 ^ 29 ->
  exists f, fixed_mul f1 f2 = Ok f /\ (2 ^ 64 - 1) / 10 <= digits f < 2 ^ 64 - 5 /\ exponent f1 + exponent f2 + 18 <= exponent f <= exponent f1 + exponent f2 + 20 /\
  let product := (decimal (digits f1) (exponent f1) * decimal (digits f2) (exponent f2))%Q in
  within ((45 # 1000000000000000000) * product) product (decimal (digits f) (exponent f)).
Proof. exact mul_forms. Qed.
Print Assumptions C48_mul_partial.

(** C48 does not hold for all operands. 1 + 0.125 gives 1.0125. *)
Theorem C48_add_refuted :
  exists f1 f2 f, ((2 ^ 64 - 1) / 10 <= digits f1 < 2 ^ 64 - 5 /\ - 2 ^ 29 <= exponent f1 <= 2 ^ 29) /\
  ((2 ^ 64 - 1) / 10 <= digits f2 < 2 ^ 64 - 5 /\ - 2 ^ 29 <= exponent f2 <= 2 ^ 29) /\ exponent f2 < exponent f1 /\ fixed_add f1 f2 = Ok f /\
  (decimal (digits f1) (exponent f1) == 1 /\ decimal (digits f2) (exponent f2) == 1 # 8 /\ decimal (digits f) (exponent f) == 10125 # 10000)%Q.
Proof. exact add_wrong. Qed.
Print Assumptions C48_add_refuted.

(** The sum of the largest 64-bit integer with itself wraps around. *)
Theorem C48_wrap_refuted : exists f, make_fixed (2 ^ 64 - 1) 0 = Ok f /\ fixed_add f f = Err Wrap.
Proof. exact add_wraps. Qed.
Print Assumptions C48_wrap_refuted.

(** The product of zero and 0.5 overflows a signed integer. *)
Theorem C48_mul_refuted : exists f1 f2, make_fixed 0 0 = Ok f1 /\ make_fixed 5 (-1) = Ok f2 /\ fixed_mul f1 f2 = Err UB.
Proof. exact mul_overflows. Qed.
Print Assumptions C48_mul_refuted.

(** 0.125 + 1; 0.1 * 3. *)
Example C48_example :
  (do f1 <- make_fixed 125 (-3) ;; do f2 <- make_fixed 1 0 ;; fixed_add f1 f2) = Ok (mkfixed 11250000000000000000 (-19)) /\
  (do f1 <- make_fixed 1 (-1) ;; do f2 <- make_fixed 3 0 ;; fixed_mul f1 f2) = Ok (mkfixed 3000000000000000000 (-19)).
Proof. split; vm_compute; reflexivity. Qed.

(** C49. Every finite number is printed in scientific notation, with the requested number of digits (19 at most), the
    first of which is not 0 but for zero; the longest prefix that fits is appended. *)
Theorem C49_shape :
  forall (t : traits) (f : format) (bits : Z) (ss : sstr) (precision : nat),
  t = float_traits /\ f = binary32 \/ t = double_traits /\ f = binary64 -> pattern f bits -> wf ss -> (1 <= precision)%nat ->
  exists T, match number_of f bits with
            | NotANumber => T = lit "nan"
            | Infinite s => T = (if s then lit "-inf" else lit "inf")
            | Finite s m q => exists d x, scientific (Nat.min precision 19) s d x T /\ (m <> 0 -> 10 ^ (Z.of_nat (Nat.min precision 19) - 1) <= Z.of_N d)
            end /\
  exists ss' b, append_float t ss bits precision = Ok (ss', b) /\ wf ss' /\ vcap ss' = vcap ss /\
    vcontent ss' = firstn (vcap ss) (vcontent ss ++ T) /\ b = (length (vcontent ss ++ T) <=? vcap ss)%nat.
Proof. exact shape. Qed.
Print Assumptions C49_shape.

(** C49. Digits are removed by rounding to nearest, ties to even; no rounding error accumulates over the digits. *)
Theorem C49_rounding :
  forall (d e : Z) (s : bool) (p : nat) (n : Z), (1 <= p)%nat -> 0 < d < 2 ^ 64 - 5 -> - 2 ^ 30 <= e <= 2 ^ 30 ->
  10 ^ (n - 1) <= d < 10 ^ n -> Z.of_nat p <= n ->
  exists R f, set_precision (mksigned d e s) p = Ok f /\ nearest_even d (n - Z.of_nat p) R /\ s_sign f = s /\
  10 ^ (Z.of_nat p - 1) <= s_digits f < 10 ^ Z.of_nat p /\ (decimal (s_digits f) (s_exponent f) == decimal R (e + (n - Z.of_nat p)))%Q.
Proof. exact rounding_forms. Qed.
Print Assumptions C49_rounding.

Definition shown_float (t : traits) (capacity : nat) (bits : Z) (precision : nat) : res (str * bool) :=
  do (ss, b) <- append_float t (new_string capacity) bits precision ;; Ok (vcontent ss, b).

(** -0.1; 0.1f; the largest double; the smallest; minus zero; minus infinity; not enough room; ties. *)
Example C49_example :
  shown_float double_traits 30 0xBFB999999999999A 16 = Ok (lit "-1.000000000000000e-01", true) /\
  shown_float float_traits 30 0x3DCCCCCD 7 = Ok (lit "1.000000e-01", true) /\
  shown_float double_traits 30 0x7FEFFFFFFFFFFFFF 17 = Ok (lit "1.7976931348623157e+308", true) /\
  shown_float double_traits 30 1 16 = Ok (lit "4.940656458412465e-324", true) /\
  shown_float double_traits 30 0x8000000000000000 4 = Ok (lit "-0.000e+00", true) /\
  shown_float double_traits 30 0xFFF0000000000000 16 = Ok (lit "-inf", true) /\
  shown_float float_traits 8 0x3DCCCCCD 7 = Ok (lit "1.000000", false) /\
  shown_float double_traits 30 0x4004000000000000 1 = Ok (lit "2.e+00", true) /\
  shown_float double_traits 30 0x400C000000000000 1 = Ok (lit "4.e+00", true).
Proof. repeat split; vm_compute; reflexivity. Qed.

(** C58. What is printed with [p] digits differs from the number by at most half a unit of the last digit plus 0.48 units
    of the 16th digit, and is the number itself if [p] digits (16 at most) are enough to write it. *)
Theorem C58_accurate :
  forall (t : traits) (f : format) (bits : Z) (ss : sstr) (precision : nat),
  t = float_traits /\ f = binary32 \/ t = double_traits /\ f = binary64 -> pattern f bits -> wf ss -> (1 <= precision)%nat ->
  exists T, prints (Nat.min precision 19) (number_of f bits) T /\
  exists ss' b, append_float t ss bits precision = Ok (ss', b) /\ wf ss' /\ vcap ss' = vcap ss /\
    vcontent ss' = firstn (vcap ss) (vcontent ss ++ T) /\ b = (length (vcontent ss ++ T) <=? vcap ss)%nat.
Proof. exact append_float_spec. Qed.
Print Assumptions C58_accurate.

(** C58. With the precisions used by default (7 and 16), the error is at most 0.501 and 0.98 units of the last digit. *)
Theorem C58_default :
  t_precision float_traits = 7%nat /\ t_precision double_traits = 16%nat /\
  forall x : Z, (error_bound 7 x <= (501 # 1000) * Qpower 10 (x - 6) /\ error_bound 16 x <= (98 # 100) * Qpower 10 (x - 15))%Q.
Proof. exact (conj eq_refl (conj eq_refl default_error)). Qed.
Print Assumptions C58_default.

(** C58. The same without std::bit_cast, but that the sign of a negative zero is lost. *)
Theorem C58_without_bit_cast :
  forall (t : traits) (f : format) (bits : Z) (ss : sstr) (precision : nat),
  t = float_traits /\ f = binary32 \/ t = double_traits /\ f = binary64 -> pattern f bits -> wf ss -> (1 <= precision)%nat ->
  exists T, prints (Nat.min precision 19) (plain_zero (number_of f bits)) T /\
  exists ss' b, append_float_portable t ss (number_of f bits) precision = Ok (ss', b) /\ wf ss' /\ vcap ss' = vcap ss /\
    vcontent ss' = firstn (vcap ss) (vcontent ss ++ T) /\ b = (length (vcontent ss ++ T) <=? vcap ss)%nat.
Proof. exact append_portable_spec. Qed.
Print Assumptions C58_without_bit_cast.

(** C58. With std::to_chars: whatever text (of 32 characters at most) it makes, the longest prefix that fits is appended. *)
Theorem C58_to_chars :
  forall (ss : sstr) (txt g1 g2 : str), wf ss -> (length txt <= 32)%nat -> (vcap ss <= length g1)%nat ->
  exists ss' b, append_float_to_chars ss txt g1 g2 = Ok (ss', b) /\ wf ss' /\ vcap ss' = vcap ss /\
    vcontent ss' = firstn (vcap ss) (vcontent ss ++ txt) /\ b = (length (vcontent ss ++ txt) <=? vcap ss)%nat.
Proof. exact run_time. Qed.
Print Assumptions C58_to_chars.

(** C58. The tables the conversion is made from: the entries are powers of two, each rounded to the nearest decimal
    number of 19 digits. *)
Theorem C58_tables :
  length (binary_table 0) = 10%nat /\ length (binary_table 1) = 10%nat /\ length float_elems = 23%nat /\ length double_elems = 52%nat /\
  forall (table : list (Z * Z)) (power : nat -> Z),
  table = binary_table 0 /\ power = (fun i => 2 ^ Z.of_nat i) \/
  table = binary_table 1 /\ power = (fun i => - 2 ^ Z.of_nat i) \/
  table = float_elems /\ power = (fun i => Z.of_nat i - 23) \/
  table = double_elems /\ power = (fun i => Z.of_nat i - 52) ->
  forall (i : nat) (d e : Z), nth_error table i = Some (d, e) ->
  within ((1 # 2) * Qpower 10 e)%Q (Qpower 2 (power i)) (decimal d e) /\ 10 ^ 18 <= d < 10 ^ 19.
Proof. exact table_entries. Qed.
Print Assumptions C58_tables.

(** Different numbers may be printed alike with the default precision: 1 and the next double. A failed comparison of the
    two for equality is shown with the same text on both sides. *)
Example C58_example :
  number_of binary64 0x3FF0000000000000 <> number_of binary64 0x3FF0000000000001 /\
  shown_float double_traits 30 0x3FF0000000000000 (t_precision double_traits) = Ok (lit "1.000000000000000e+00", true) /\
  shown_float double_traits 30 0x3FF0000000000001 (t_precision double_traits) = Ok (lit "1.000000000000000e+00", true) /\
  (exists d' x', binary 1 (-2) == decimal d' x' /\ (0 <= d' < 10 ^ Z.of_nat 16)%Z)%Q /\
  shown_float double_traits 30 0x3FD0000000000000 16 = Ok (lit "2.500000000000000e-01", true).
Proof. split; [discriminate|]. split; [vm_compute; reflexivity|]. split; [vm_compute; reflexivity|]. split; [exists 25, (-2); split; [reflexivity|cbn; split; [discriminate|reflexivity]]|vm_compute; reflexivity]. Qed.
