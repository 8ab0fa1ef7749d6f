(** Model of include/snitch/snitch_fixed_point.hpp: decimal numbers with a 64-bit integer and an exponent, and the
    conversion of floating-point numbers. Integers are [Z]; unsigned 64-bit arithmetic that would wrap around is the
    outcome [Wrap], signed overflow is the outcome [UB]. *)
From Coq Require Import ZArith.
From Verif.Model Require Import Base.
From Verif.Spec Require Import FloatSpec.
Local Open Scope Z_scope.

Definition u64 (z : Z) : res Z := if (0 <=? z) && (z <? 2 ^ 64) then Ok z else Err Wrap.
Definition i32 (z : Z) : res Z := if (- 2 ^ 31 <=? z) && (z <? 2 ^ 31) then Ok z else Err UB.

(** 18-21 [unsigned_fixed_data], 38-39 [unsigned_fixed]. *)
Record fixed := mkfixed { digits : Z; exponent : Z }.

(** 34-36 [unpack10]: lower and upper part. *)
Definition unpack10 (v : Z) : Z * Z := (v mod 10000000000, v / 10000000000).

(** 41-53 [raise_exponent_to]; a do-while loop, with fuel. *)
Fixpoint raise_exponent_to (fuel : nat) (f : fixed) (new_exponent : Z) : res fixed :=
  match fuel with
  | O => Err Fuel
  | S fuel' =>
    do f1 <- (if digits f =? 0 then Ok (mkfixed 0 new_exponent)
              else
                do limit <- i32 (new_exponent - 1) ;;
                if exponent f <? limit then
                  do e <- i32 (exponent f + 1) ;;
                  Ok (mkfixed (digits f / 10) e)
                else
                  do d <- u64 (digits f + 5) ;;
                  do e <- i32 (exponent f + 1) ;;
                  Ok (mkfixed (d / 10) e)) ;;
    if exponent f1 <? new_exponent then raise_exponent_to fuel' f1 new_exponent else Ok f1
  end.

(** 55-58 [raise_exponent]. *)
Definition raise_exponent (f : fixed) : res fixed :=
  do d <- u64 (digits f + 5) ;;
  do e <- i32 (exponent f + 1) ;;
  Ok (mkfixed (d / 10) e).

(** 64 [cap], from [std::numeric_limits<std::uint64_t>::max() / 10u]. *)
Definition cap : Z := (2 ^ 64 - 1) / 10.

(** 66-71: the loop of the constructor. *)
Fixpoint normalise (fuel : nat) (d e : Z) : res fixed :=
  match fuel with
  | O => Err Fuel
  | S fuel' =>
    do d1 <- u64 (d * 10) ;;
    do e1 <- i32 (e - 1) ;;
    if d1 <? cap then normalise fuel' d1 e1 else Ok (mkfixed d1 e1)
  end.

(** Enough for the loops on 64-bit numbers. *)
Definition fixed_fuel : nat := 32.

(** 61-81, constructor. *)
Definition make_fixed (d e : Z) : res fixed :=
  if 0 <? d then if d <? cap then normalise fixed_fuel d e else Ok (mkfixed d e)
  else Ok (mkfixed d (- 2 ^ 31)).

(** 91-106 [operator+]. *)
Definition fixed_add (f1 f2 : fixed) : res fixed :=
  do (g1, g2) <- (if exponent f2 <? exponent f1 then
                    do g1 <- raise_exponent f1 ;;
                    do target <- i32 (exponent g1 + 1) ;;
                    do g2 <- raise_exponent_to fixed_fuel f2 target ;;
                    Ok (g1, g2)
                  else if exponent f1 <? exponent f2 then
                    do target <- i32 (exponent f2 + 1) ;;
                    do g1 <- raise_exponent_to fixed_fuel f1 target ;;
                    do g2 <- raise_exponent f2 ;;
                    Ok (g1, g2)
                  else
                    do g1 <- raise_exponent f1 ;;
                    do g2 <- raise_exponent f2 ;;
                    Ok (g1, g2)) ;;
  do d <- u64 (digits g1 + digits g2) ;;
  make_fixed d (exponent g1).

(** 112-139 [operator*]. *)
Definition fixed_mul (f1 f2 : fixed) : res fixed :=
  let (l1, u1) := unpack10 (digits f1) in
  let (l2, u2) := unpack10 (digits f2) in
  do a <- u64 (l1 * u2) ;;
  do a5 <- u64 (a + 5) ;;
  do b <- u64 (l2 * u1) ;;
  do b5 <- u64 (b + 5) ;;
  do l_over_10 <- u64 (a5 / 10 + b5 / 10) ;;
  do l5 <- u64 (l_over_10 + 500000000) ;;
  let l_over_1e10 := l5 / 1000000000 in
  do u <- u64 (u1 * u2) ;;
  do d <- u64 (u + l_over_1e10) ;;
  do e1 <- i32 (exponent f1 + exponent f2) ;;
  do e <- i32 (e1 + 20) ;;
  make_fixed d e.

(** 146-241 [float_traits]: the constants they are made of, and 8 * sizeof(bits_full_t). [sig_elems] lists the
    arguments of the constructors. *)
Record traits := mktraits {
  t_bits : Z; t_sig_bits : Z; t_exp_origin : Z; t_special : Z; t_sig_nan : Z; t_precision : nat; t_sig_elems : list (Z * Z) }.

(** 150-192 [float_traits<float>]. *)
Definition float_elems : list (Z * Z) :=
  [(1192092895507812500, -25); (2384185791015625000, -25); (4768371582031250000, -25); (9536743164062500000, -25);
   (1907348632812500000, -24); (3814697265625000000, -24); (7629394531250000000, -24); (1525878906250000000, -23);
   (3051757812500000000, -23); (6103515625000000000, -23); (1220703125000000000, -22); (2441406250000000000, -22);
   (4882812500000000000, -22); (9765625000000000000, -22); (1953125000000000000, -21); (3906250000000000000, -21);
   (7812500000000000000, -21); (1562500000000000000, -20); (3125000000000000000, -20); (6250000000000000000, -20);
   (1250000000000000000, -19); (2500000000000000000, -19); (5000000000000000000, -19)].
Definition float_traits : traits := mktraits 32 23 (-127) 255 4194304 7 float_elems.

(** 195-241 [float_traits<double>]. *)
Definition double_elems : list (Z * Z) :=
  [(2220446049250313081, -34); (4440892098500626162, -34); (8881784197001252323, -34); (1776356839400250465, -33);
   (3552713678800500929, -33); (7105427357601001859, -33); (1421085471520200372, -32); (2842170943040400743, -32);
   (5684341886080801487, -32); (1136868377216160297, -31); (2273736754432320595, -31); (4547473508864641190, -31);
   (9094947017729282379, -31); (1818989403545856476, -30); (3637978807091712952, -30); (7275957614183425903, -30);
   (1455191522836685181, -29); (2910383045673370361, -29); (5820766091346740723, -29); (1164153218269348145, -28);
   (2328306436538696289, -28); (4656612873077392578, -28); (9313225746154785156, -28); (1862645149230957031, -27);
   (3725290298461914062, -27); (7450580596923828125, -27); (1490116119384765625, -26); (2980232238769531250, -26);
   (5960464477539062500, -26); (1192092895507812500, -25); (2384185791015625000, -25); (4768371582031250000, -25);
   (9536743164062500000, -25); (1907348632812500000, -24); (3814697265625000000, -24); (7629394531250000000, -24);
   (1525878906250000000, -23); (3051757812500000000, -23); (6103515625000000000, -23); (1220703125000000000, -22);
   (2441406250000000000, -22); (4882812500000000000, -22); (9765625000000000000, -22); (1953125000000000000, -21);
   (3906250000000000000, -21); (7812500000000000000, -21); (1562500000000000000, -20); (3125000000000000000, -20);
   (6250000000000000000, -20); (1250000000000000000, -19); (2500000000000000000, -19); (5000000000000000000, -19)].
Definition double_traits : traits := mktraits 64 52 (-1023) 2047 2251799813685248 16 double_elems.

(** 157-163, 205-211: derived constants. *)
Definition t_exp_bits (t : traits) : Z := t_bits t - t_sig_bits t - 1.
Definition sign_mask (t : traits) : Z := Z.shiftl 1 (t_bits t - 1).
Definition sig_mask (t : traits) : Z := Z.shiftl 1 (t_sig_bits t) - 1.
Definition exp_mask (t : traits) : Z := Z.ldiff (Z.shiftl 1 (t_bits t - 1) - 1) (sig_mask t).

(** 243-250 [float_bits]. *)
Record float_bits := mkbits { significand : Z; bexponent : Z; bsign : bool }.

(** 252-266 [to_bits] with [std::bit_cast]; the argument is the bit pattern. *)
Definition to_bits (t : traits) (bits : Z) : float_bits :=
  mkbits (Z.land bits (sig_mask t)) (Z.shiftr (Z.land bits (exp_mask t)) (t_sig_bits t)) (negb (Z.land bits (sign_mask t) =? 0)).

(** 268-320 [to_bits] without [std::bit_cast]. The argument is the value, not its bits. A finite number is represented
    by the integer [v] that makes it [v * 2^lowest]. The operations of the code only ever have representable results;
    they are exact then, and any other outcome would be [UB] here: rounding is not modelled. *)
Definition lowest (t : traits) : Z := t_exp_origin t + 1 - t_sig_bits t.
Definition one_f (t : traits) : Z := 2 ^ (- lowest t).
Definition exactly (t : traits) (v : Z) : res Z :=
  if (v mod 2 ^ Z.max 0 (Z.log2 v - t_sig_bits t) =? 0) && (v <? 2 ^ (t_sig_bits t + t_special t - 1)) then Ok v else Err UB.
Definition half (t : traits) (v : Z) : res Z := if Z.even v then exactly t (v / 2) else Err UB.
(** 152, 200 [bits_exp_t]. *)
Definition exp_t (t : traits) (e : Z) : res Z := if (0 <=? e) && (e <? 2 ^ (if t_bits t =? 32 then 8 else 16)) then Ok e else Err Wrap.

(** 294-297 and 299-302: two do-while loops, with fuel. *)
Fixpoint halve_loop (fuel : nat) (t : traits) (v e : Z) : res (Z * Z) :=
  match fuel with
  | O => Err Fuel
  | S fuel' =>
    do v1 <- half t v ;;
    do e1 <- exp_t t (e + 1) ;;
    if 2 * one_f t <=? v1 then halve_loop fuel' t v1 e1 else Ok (v1, e1)
  end.
Fixpoint double_loop (fuel : nat) (t : traits) (v e : Z) : res (Z * Z) :=
  match fuel with
  | O => Err Fuel
  | S fuel' =>
    do v1 <- exactly t (2 * v) ;;
    do e1 <- exp_t t (e - 1) ;;
    if (v1 <? one_f t) && (0 <? e1) then double_loop fuel' t v1 e1 else Ok (v1, e1)
  end.

Definition to_bits_portable (t : traits) (f : number) : res float_bits :=
  match f with
  | NotANumber => Ok (mkbits (t_sig_nan t) (t_special t) false)
  | Infinite s => Ok (mkbits 0 (t_special t) s)
  | Finite s m q =>
    let v := m * 2 ^ (q - lowest t) in
    let sign := s && negb (v =? 0) in (* 286-289: f < 0; negation is exact *)
    do e0 <- exp_t t (- t_exp_origin t) ;;
    let fuel := Z.to_nat (2 ^ t_exp_bits t) in
    do (v1, e1) <- (if 2 * one_f t <=? v then halve_loop fuel t v e0
                    else if v <? one_f t then double_loop fuel t v e0
                    else Ok (v, e0)) ;;
    do v2 <- exactly t (if e1 =? 0 then v1 * 2 ^ (t_sig_bits t - 1) else v1 * 2 ^ t_sig_bits t) ;;
    Ok (mkbits (Z.land (v2 / one_f t) (sig_mask t)) e1 sign)
  end.

(** 324-334 [binary_table], one list for each first index. *)
Definition binary_table (mul_div : nat) : list (Z * Z) :=
  match mul_div with
  | O =>
    [(2000000000000000000, -18); (4000000000000000000, -18); (1600000000000000000, -17); (2560000000000000000, -16);
     (6553600000000000000, -14); (4294967296000000000, -9); (1844674407370955162, 1); (3402823669209384635, 20);
     (1157920892373161954, 59); (1340780792994259710, 136)]
  | _ =>
    [(5000000000000000000, -19); (2500000000000000000, -19); (6250000000000000000, -20); (3906250000000000000, -21);
     (1525878906250000000, -23); (2328306436538696289, -28); (5421010862427522170, -38); (2938735877055718770, -57);
     (8636168555094444625, -96); (7458340731200206743, -173)]
  end.

(** Element of a table of numbers; outside of the table is [UB]. *)
Definition element (l : list (Z * Z)) (i : nat) : res fixed :=
  match nth_error l i with Some (d, e) => make_fixed d e | None => Err UB end.

(** 350-356, loop of [apply_binary_exponent]: [n] iterations from [i] on. *)
Fixpoint power_loop (n : nat) (i : nat) (mul_div : nat) (exponent : Z) (power : fixed) : res fixed :=
  match n with
  | O => Ok power
  | S n' =>
    do p <- (if Z.land exponent (Z.shiftl 1 (Z.of_nat i)) =? 0 then Ok power
             else do x <- element (binary_table mul_div) i ;; fixed_mul power x) ;;
    power_loop n' (S i) mul_div exponent p
  end.

(** 336-359 [apply_binary_exponent]. *)
Definition apply_binary_exponent (t : traits) (fix_ : fixed) (mul_div : nat) (exponent : Z) : res fixed :=
  do one <- make_fixed 1 0 ;;
  do power <- power_loop (Z.to_nat (t_exp_bits t - 1)) 0 mul_div exponent one ;;
  fixed_mul fix_ power.

(** 370-374, loop of [to_fixed]: [n] iterations from [i] on. *)
Fixpoint sum_loop (n : nat) (i : nat) (elems : list (Z * Z)) (significand : Z) (f : fixed) : res fixed :=
  match n with
  | O => Ok f
  | S n' =>
    do f1 <- (if Z.land significand (Z.shiftl 1 (Z.of_nat i)) =? 0 then Ok f
              else do x <- element elems i ;; fixed_add f x) ;;
    sum_loop n' (S i) elems significand f1
  end.

(** 23-27 [signed_fixed_data]. *)
Record signed_fixed := mksigned { s_digits : Z; s_exponent : Z; s_sign : bool }.

(** 361-392 [to_fixed]. *)
Definition to_fixed (t : traits) (b : float_bits) : res signed_fixed :=
  do zero <- make_fixed 0 0 ;;
  do f <- sum_loop (Z.to_nat (t_sig_bits t)) 0 (t_sig_elems t) (significand b) zero ;;
  let subnormal := bexponent b =? 0 in
  do f1 <- (if negb subnormal then do one <- make_fixed 1 0 ;; fixed_add f one else Ok f) ;;
  let e := if subnormal then t_exp_origin t + 1 else bexponent b + t_exp_origin t in
  do f2 <- (if 0 <? e then apply_binary_exponent t f1 0 e
            else if e <? 0 then apply_binary_exponent t f1 1 (- e)
            else Ok f1) ;;
  Ok (mksigned (digits f2) (exponent f2) (bsign b)).
