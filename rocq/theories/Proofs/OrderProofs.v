(** Floating-point numbers are printed in order (C97). *)
From Coq Require Import ZArith NArith QArith Qpower Lqa Lia List ZifyBool ZifyNat ZifyN.
From Verif.Spec Require Import TextSpec NumberSpec FloatSpec OrderSpec.
From Verif.Model Require Import Base Vector StringUtil Integer Fixed FloatText.
From Verif.Proofs Require Import Lists VectorProofs AppendProofs IntegerProofs FixedProofs FloatProofs FloatTextProofs.
Import ListNotations.
Local Open Scope Z_scope.
Ltac Zify.zify_post_hook ::= Z.div_mod_to_equations.

(** ** Products with the same power *)
Lemma digits_low d e : cap <= d -> (1844674407370955161 * p10 e <= decimal d e)%Q.
Proof. intros H. unfold decimal. fold (p10 e). rewrite cap_value in H. apply Qmult_le_compat_r; [|apply Qlt_le_weak, p10_pos]. change 1844674407370955161%Q with (inject_Z 1844674407370955161). now apply Zle_Q. Qed.
Lemma digits_high d e : d < 2 ^ 64 - 5 -> (decimal d e <= 18446744073709551611 * p10 e)%Q.
Proof. intros H. unfold decimal. fold (p10 e). apply Qmult_le_compat_r; [|apply Qlt_le_weak, p10_pos]. change 18446744073709551611%Q with (inject_Z 18446744073709551611). apply Zle_Q. lia. Qed.

Lemma exponents f1 f2 : usable f1 -> usable f2 -> (decimal (digits f1) (exponent f1) + 170 * p10 (exponent f2) <= decimal (digits f2) (exponent f2))%Q -> exponent f1 <= exponent f2.
Proof.
  intros U1 U2 G. destruct (Z_le_gt_dec (exponent f1) (exponent f2)) as [L|L]; auto. exfalso. unfold usable in *.
  pose proof (digits_low (digits f1) (exponent f1) ltac:(lia)) as A. pose proof (digits_high (digits f2) (exponent f2) ltac:(lia)) as B. assert (C : (p10 (exponent f2 + 1) <= p10 (exponent f1))%Q) by (apply p10_le; lia).
  rewrite p10_shift in C by lia. change (inject_Z (10 ^ 1)) with 10%Q in C. pose proof (p10_pos (exponent f2)). set (x := p10 (exponent f2)) in *. set (y := p10 (exponent f1)) in *. clearbody x y. lra.
Qed.

Lemma mul_ordered f1 f2 p : usable f1 -> usable f2 -> usable p -> moderate f1 -> moderate f2 -> moderate p ->
  (decimal (digits f1) (exponent f1) + 170 * p10 (exponent f2) <= decimal (digits f2) (exponent f2))%Q ->
  exists g1 g2, fixed_mul f1 p = Ok g1 /\ fixed_mul f2 p = Ok g2 /\ (decimal (digits g1) (exponent g1) <= decimal (digits g2) (exponent g2))%Q.
Proof.
  intros U1 U2 UP M1 M2 MP G. pose proof (exponents f1 f2 U1 U2 G) as L.
  destruct (mul_value f1 p) as (q1 & k1 & K1 & _ & _ & E1 & V1); auto. destruct (mul_value f2 p) as (q2 & k2 & K2 & _ & _ & E2 & V2); auto.
  eexists _, _. split; [exact E1|]. split; [exact E2|]. cbn [digits exponent]. rewrite !decimal_shift by lia. unfold within in *.
  set (v1 := decimal q1 (exponent f1 + exponent p + 20)) in *. set (v2 := decimal q2 (exponent f2 + exponent p + 20)) in *. clearbody v1 v2. clear E1 E2 K1 K2 k1 k2 q1 q2.
  assert (X1 : (p10 (exponent f1 + exponent p + 20) <= p10 (exponent f2 + exponent p + 20))%Q) by (apply p10_le; lia).
  assert (X2 : (p10 (exponent f2 + exponent p + 20) == 100000000000000000000 * (p10 (exponent f2) * p10 (exponent p)))%Q).
  { rewrite p10_shift by lia. rewrite p10_plus. change (inject_Z (10 ^ 20)) with 100000000000000000000%Q. ring. }
  rewrite X2 in *. clear X2. unfold usable in UP. pose proof (digits_low (digits p) (exponent p) ltac:(lia)) as PL.
  pose proof (p10_pos (exponent f2)) as P2. pose proof (p10_pos (exponent p)) as PP. set (a := decimal (digits f1) (exponent f1)) in *. set (b := decimal (digits f2) (exponent f2)) in *. set (c := decimal (digits p) (exponent p)) in *.
  set (x := p10 (exponent f2)) in *. set (y := p10 (exponent p)) in *. set (z := p10 (exponent f1 + exponent p + 20)) in *. clearbody a b c x y z.
  assert (H : (170 * x * (1844674407370955161 * y) <= b * c - a * c)%Q). { assert (0 < c)%Q by lra. assert (170 * x * c <= (b - a) * c)%Q by (apply Qmult_le_compat_r; lra). assert (170 * x * (1844674407370955161 * y) <= 170 * x * c)%Q by (apply Qmult_le_l; lra). lra. }
  assert (E : (170 * x * (1844674407370955161 * y) == 313594649253062377370 * (x * y))%Q) by ring. rewrite E in H. assert (0 < x * y)%Q by (apply Qmult_lt_0_compat; auto). set (xy := (x * y)%Q) in *. set (ac := (a * c)%Q) in *. set (bc := (b * c)%Q) in *. clearbody xy ac bc. lra.
Qed.

(** ** Numbers of the same scale *)
Lemma sums_apart f1 f2 m1 m2 sig : 0 <= sig <= 52 -> accurate f1 m1 (p2 (- sig)) -> accurate f2 m2 (p2 (- sig)) -> 0 < m1 < m2 -> m2 <= 2 ^ (sig + 1) ->
  usable f1 /\ usable f2 /\ moderate f1 /\ moderate f2 /\ (decimal (digits f1) (exponent f1) + 170 * p10 (exponent f2) <= decimal (digits f2) (exponent f2))%Q.
Proof.
  intros SG A1 A2 M ML. destruct A1 as [(-> & _)|(_ & U1 & X1 & V1)]; [lia|]. destruct A2 as [(-> & _)|(_ & U2 & X2 & V2)]; [lia|]. unfold moderate. split; auto. split; auto. split; [lia|]. split; [lia|].
  unfold usable in U2. pose proof (digits_low (digits f2) (exponent f2) ltac:(lia)) as L.
  assert (UL : (p2 (-52) <= p2 (- sig))%Q). { replace (- sig) with (-52 + (52 - sig)) by lia. rewrite p2_plus. pose proof (p2_pos (-52)). assert (1 <= p2 (52 - sig))%Q by (rewrite p2_nonneg by lia; change 1%Q with (inject_Z 1); apply Zle_Q; assert (0 < 2 ^ (52 - sig)) by (apply Z.pow_pos_nonneg; lia); lia). nra. }
  assert (UM : (inject_Z m2 * p2 (- sig) <= 2)%Q).
  { apply Qle_trans with (inject_Z (2 ^ (sig + 1)) * p2 (- sig))%Q; [apply Qmult_le_compat_r; [now apply Zle_Q|apply Qlt_le_weak, p2_pos]|]. rewrite <- p2_nonneg by lia. rewrite <- p2_plus. replace (sig + 1 + - sig) with 1 by lia. vm_compute. discriminate. }
  assert (MM : (inject_Z m1 * p2 (- sig) + p2 (- sig) <= inject_Z m2 * p2 (- sig))%Q).
  { assert (m1 + 1 <= m2) by lia. apply Zle_Q in H. rewrite inject_Z_plus in H. change (inject_Z 1) with 1%Q in H. pose proof (p2_pos (- sig)). nra. }
  assert (MP : (0 <= inject_Z m1 * p2 (- sig))%Q). { assert (inject_Z 0 <= inject_Z m1)%Q by (apply Zle_Q; lia). change (inject_Z 0) with 0%Q in H. pose proof (p2_pos (- sig)). nra. }
  assert (C : (p2 (-52) == 1 # 4503599627370496)%Q) by reflexivity. rewrite C in UL. unfold within, eps in *.
  set (u := p2 (- sig)) in *. set (a := (inject_Z m1 * u)%Q) in *. set (b := (inject_Z m2 * u)%Q) in *. set (v := decimal (digits f1) (exponent f1)) in *. set (w := decimal (digits f2) (exponent f2)) in *. set (y := p10 (exponent f2)) in *. clearbody u a b v w y. lra.
Qed.

Definition finish (t : traits) (f : fixed) (x : Z) : res fixed :=
  if 0 <? x then apply_binary_exponent t f 0 x else if x <? 0 then apply_binary_exponent t f 1 (- x) else Ok f.
Definition power_exponent (t : traits) (b : float_bits) : Z := if bexponent b =? 0 then t_exp_origin t + 1 else bexponent b + t_exp_origin t.

Lemma to_fixed_parts t f b : known t f -> 0 <= significand b < 2 ^ t_sig_bits t ->
  exists s, accurate s (mantissa t b) (p2 (- t_sig_bits t)) /\
  to_fixed t b = (do g <- finish t s (power_exponent t b) ;; Ok (mksigned (digits g) (exponent g) (bsign b))).
Proof.
  intros KN SB. destruct one_ok as (one & EO & O23 & O52).
  assert (T : t_sig_bits t <= 52 /\ elements_ok (t_sig_bits t) (t_sig_elems t) /\ element_of one (2 ^ t_sig_bits t) (p2 (- t_sig_bits t)) /\ 0 <= t_sig_bits t).
  { destruct KN as [(-> & _)|(-> & _)]; cbn [t_sig_bits t_sig_elems float_traits double_traits]; (split; [lia|]; split; [auto using float_elements_ok, double_elements_ok|split; [auto|lia]]). }
  destruct T as (T1 & T2 & T3 & T4). unfold to_fixed. change (make_fixed 0 0) with (Ok (mkfixed 0 (- 2 ^ 31))). cbn [bind].
  destruct (sum_loop_spec (t_sig_bits t) (t_sig_elems t) (significand b) T1 T2 (Z.to_nat (t_sig_bits t)) 0 (mkfixed 0 (- 2 ^ 31))) as (f1 & E1 & A1).
  { lia. }
  { left. change (Z.of_nat 0) with 0. split; [apply Z.mod_1_r|split; reflexivity]. }
  rewrite E1. cbn [bind]. rewrite Z.mod_small in A1 by lia. rewrite EO. cbn [bind].
  assert (N : exists f2, (if negb (bexponent b =? 0) then fixed_add f1 one else Ok f1) = Ok f2 /\ accurate f2 (mantissa t b) (p2 (- t_sig_bits t))).
  { unfold mantissa. destruct (bexponent b =? 0); cbn [negb]; [exists f1; auto|]. destruct (add_step f1 one (significand b) (2 ^ t_sig_bits t) (p2 (- t_sig_bits t)) (p2_pos _)) as (f2 & E2 & A2); auto.
    - apply Z.pow_le_mono_r; lia.
    - exists f2. rewrite Z.add_comm. auto. }
  destruct N as (f2 & E2 & A2). rewrite E2. cbn [bind]. exists f2. split; auto.
Qed.

(** The second is printed as a number that is not smaller. *)
Definition ordered (t : traits) (b1 b2 : float_bits) : Prop :=
  exists d1 e1 d2 e2, to_fixed t b1 = Ok (mksigned d1 e1 (bsign b1)) /\ to_fixed t b2 = Ok (mksigned d2 e2 (bsign b2)) /\ (decimal d1 e1 <= decimal d2 e2)%Q.
Lemma ordered_trans t b1 b2 b3 : ordered t b1 b2 -> ordered t b2 b3 -> ordered t b1 b3.
Proof.
  intros (d1 & e1 & d2 & e2 & E1 & E2 & L) (d2' & e2' & d3 & e3 & E2' & E3 & L'). rewrite E2 in E2'. injection E2' as <- <-. exists d1, e1, d3, e3. split; auto. split; auto. lra.
Qed.
Lemma to_fixed_sign t k s g g' d e : to_fixed t (mkbits k s g) = Ok (mksigned d e g) -> to_fixed t (mkbits k s g') = Ok (mksigned d e g').
Proof.
  unfold to_fixed. cbn [significand bexponent bsign]. intros H. repeat match type of H with bind ?a _ = _ => destruct a; cbn [bind] in *; [|discriminate] end. injection H as <- <-. reflexivity.
Qed.

Lemma apply_ordered t n mul_div e f1 f2 : powers_check t mul_div n = true -> 0 <= e < Z.of_nat n -> usable f1 -> usable f2 -> moderate f1 -> moderate f2 ->
  (decimal (digits f1) (exponent f1) + 170 * p10 (exponent f2) <= decimal (digits f2) (exponent f2))%Q ->
  exists g1 g2, apply_binary_exponent t f1 mul_div e = Ok g1 /\ apply_binary_exponent t f2 mul_div e = Ok g2 /\ (decimal (digits g1) (exponent g1) <= decimal (digits g2) (exponent g2))%Q.
Proof.
  intros PC E U1 U2 M1 M2 G. destruct (power_spec t mul_div n e PC E) as (p & EP & UP & XP & _). unfold apply_binary_exponent. unfold power_of in EP. destruct (make_fixed 1 0) as [one|]; cbn [bind] in *; [|discriminate]. rewrite EP. cbn [bind].
  apply mul_ordered; auto. unfold moderate. lia.
Qed.

Lemma same_scale t f b1 b2 : known t f -> 0 <= significand b1 < 2 ^ t_sig_bits t -> 0 <= significand b2 < 2 ^ t_sig_bits t ->
  0 <= bexponent b1 < t_special t -> power_exponent t b1 = power_exponent t b2 -> 0 < mantissa t b1 -> mantissa t b1 < mantissa t b2 -> ordered t b1 b2.
Proof.
  intros K S1 S2 X1 PE MP ML. assert (KT : 0 <= t_sig_bits t <= 52) by (destruct K as [(-> & _)|(-> & _)]; cbn; lia).
  destruct (to_fixed_parts t f b1 K S1) as (s1 & A1 & E1). destruct (to_fixed_parts t f b2 K S2) as (s2 & A2 & E2). unfold ordered. rewrite E1, E2, <- PE. clear E1 E2. set (x := power_exponent t b1) in *.
  assert (M2 : mantissa t b2 <= 2 ^ (t_sig_bits t + 1)). { rewrite Z.pow_add_r by lia. change (2 ^ 1) with 2. unfold mantissa. destruct (bexponent b2 =? 0); lia. }
  assert (PW : exists n, powers_check t 0 n = true /\ powers_check t 1 n = true /\ - Z.of_nat n < x < Z.of_nat n).
  { unfold x, power_exponent. destruct K as [(-> & _)|(-> & _)]; cbn [t_exp_origin t_special float_traits double_traits] in *.
    - exists 128%nat. split; [apply float_powers_up|]. split; [apply float_powers_down|]. destruct (bexponent b1 =? 0); lia.
    - exists 1024%nat. split; [apply double_powers_up|]. split; [apply double_powers_down|]. destruct (bexponent b1 =? 0); lia. }
  destruct PW as (n & P0 & P1 & XN). destruct (sums_apart s1 s2 _ _ _ KT A1 A2) as (U1 & U2 & MD1 & MD2 & G); auto.
  assert (F : exists g1 g2, finish t s1 x = Ok g1 /\ finish t s2 x = Ok g2 /\ (decimal (digits g1) (exponent g1) <= decimal (digits g2) (exponent g2))%Q).
  { unfold finish. destruct (Z.ltb_spec 0 x) as [L|L]; [|destruct (Z.ltb_spec x 0) as [L'|L']].
    - apply (apply_ordered t n); auto. lia.
    - apply (apply_ordered t n); auto. lia.
    - exists s1, s2. split; auto. split; auto. pose proof (p10_pos (exponent s2)). lra. }
  destruct F as (g1 & g2 & -> & -> & L). cbn [bind]. exists (digits g1), (exponent g1), (digits g2), (exponent g2). auto.
Qed.

(** ** From one scale to the next *)
Definition step_check (t : traits) (k : Z) : bool :=
  match to_fixed t (mkbits (2 ^ t_sig_bits t - 1) k false), to_fixed t (mkbits 0 (k + 1) false) with
  | Ok f1, Ok f2 =>
    let e := Z.min (s_exponent f1) (s_exponent f2) in
    negb (s_sign f1) && negb (s_sign f2) && (s_digits f1 * 10 ^ (s_exponent f1 - e) <=? s_digits f2 * 10 ^ (s_exponent f2 - e))
  | _, _ => false
  end.
Definition steps_check (t : traits) : bool := forallb (fun i => step_check t (Z.of_nat i)) (seq 1 (Z.to_nat (t_special t - 2))).
Lemma double_steps : steps_check double_traits = true.
Proof. vm_cast_no_check (eq_refl true). Qed.
Lemma float_steps : steps_check float_traits = true.
Proof. vm_cast_no_check (eq_refl true). Qed.
Lemma next_scale t f k s1 s2 : known t f -> 1 <= k <= t_special t - 2 -> ordered t (mkbits (2 ^ t_sig_bits t - 1) k s1) (mkbits 0 (k + 1) s2).
Proof.
  intros K KB. assert (C : step_check t k = true).
  { assert (H : steps_check t = true) by (destruct K as [(-> & _)|(-> & _)]; [apply float_steps|apply double_steps]). unfold steps_check in H. rewrite forallb_forall in H. specialize (H (Z.to_nat k)). rewrite Z2Nat.id in H by lia. apply H. apply in_seq. lia. }
  unfold step_check in C. destruct (to_fixed t (mkbits (2 ^ t_sig_bits t - 1) k false)) as [[d1 e1 g1]|] eqn:E1; [|discriminate]. destruct (to_fixed t (mkbits 0 (k + 1) false)) as [[d2 e2 g2]|] eqn:E2; [|discriminate]. cbn [s_digits s_exponent s_sign] in C.
  rewrite !andb_true_iff, !negb_true_iff, Z.leb_le in C. destruct C as ((-> & ->) & L). exists d1, e1, d2, e2. cbn [bsign]. split; [now apply to_fixed_sign with false|]. split; [now apply to_fixed_sign with false|].
  set (e := Z.min e1 e2) in *. rewrite <- (decimal_shift d1 e1 (e1 - e)), <- (decimal_shift d2 e2 (e2 - e)) by lia. replace (e1 - (e1 - e)) with e by lia. replace (e2 - (e2 - e)) with e by lia. now apply decimal_le.
Qed.

(** ** All numbers *)
Lemma ordered_refl t f b1 b2 : known t f -> 0 <= significand b1 < 2 ^ t_sig_bits t -> 0 <= bexponent b1 < t_special t -> 0 < mantissa t b1 -> significand b1 = significand b2 -> bexponent b1 = bexponent b2 -> ordered t b1 b2.
Proof.
  intros K S X M ES EX. destruct (to_fixed_accurate t f b1 K S X M) as (d & e & E & _). exists d, e, d, e. split; auto. split; [|lra]. destruct b1 as [s1 k1 g1], b2 as [s2 k2 g2]. cbn [significand bexponent bsign] in *. subst. now apply to_fixed_sign with g1.
Qed.
Lemma within_scale t f k g1 g2 s1 s2 : known t f -> 1 <= k < t_special t -> 0 <= s1 -> s1 <= s2 -> s2 < 2 ^ t_sig_bits t -> ordered t (mkbits s1 k g1) (mkbits s2 k g2).
Proof.
  intros K KB A L B. assert (P : mantissa t (mkbits s1 k g1) = 2 ^ t_sig_bits t + s1 /\ mantissa t (mkbits s2 k g2) = 2 ^ t_sig_bits t + s2). { unfold mantissa. cbn [bexponent significand]. rewrite (proj2 (Z.eqb_neq k 0)) by lia. auto. } destruct P as (P1 & P2).
  destruct (Z.eq_dec s1 s2) as [->|N].
  - apply (ordered_refl t f); cbn [significand bexponent]; auto; lia.
  - apply (same_scale t f); cbn [significand bexponent]; auto; lia.
Qed.
Lemma climb t f g : known t f -> forall n k, 1 <= k -> k + Z.of_nat n <= t_special t - 1 -> ordered t (mkbits 0 k g) (mkbits 0 (k + Z.of_nat n) g).
Proof.
  intros K. assert (P : 0 < 2 ^ t_sig_bits t) by (destruct K as [(-> & _)|(-> & _)]; reflexivity). induction n as [|n IH]; intros k K1 KN.
  - rewrite Z.add_0_r. apply (within_scale t f); auto; lia.
  - apply ordered_trans with (mkbits 0 (k + 1) g).
    + apply ordered_trans with (mkbits (2 ^ t_sig_bits t - 1) k g); [apply (within_scale t f); auto; lia|apply (next_scale t f); auto; lia].
    + replace (k + Z.of_nat (S n)) with (k + 1 + Z.of_nat n) by lia. apply IH; lia.
Qed.
Theorem all_ordered t f b1 b2 : known t f -> 0 <= significand b1 < 2 ^ t_sig_bits t -> 0 <= significand b2 < 2 ^ t_sig_bits t ->
  0 <= bexponent b1 < t_special t -> 0 <= bexponent b2 < t_special t -> 0 < mantissa t b1 ->
  bexponent b1 < bexponent b2 \/ bexponent b1 = bexponent b2 /\ significand b1 <= significand b2 -> ordered t b1 b2.
Proof.
  intros K S1 S2 X1 X2 M L. destruct L as [L|(E & L)].
  - assert (T : ordered t (mkbits 0 (Z.max 1 (bexponent b1 + 1)) (bsign b1)) b2).
    { apply ordered_trans with (mkbits 0 (bexponent b2) (bsign b1)).
      - replace (bexponent b2) with (Z.max 1 (bexponent b1 + 1) + Z.of_nat (Z.to_nat (bexponent b2 - Z.max 1 (bexponent b1 + 1)))) by lia. apply (climb t f); auto; lia.
      - destruct b2 as [s2 k2 g2]. cbn [significand bexponent] in *. apply (within_scale t f); auto; lia. }
    apply ordered_trans with (2 := T). destruct (Z.eq_dec (bexponent b1) 0) as [Z0|NZ].
    + rewrite Z0. apply (same_scale t f); auto; cbn [significand bexponent]; try lia.
      * unfold power_exponent. rewrite Z0. cbn [bexponent]. change (Z.max 1 (0 + 1)) with 1. cbn [Z.eqb]. lia.
      * unfold mantissa. rewrite Z0. cbn [bexponent significand]. change (Z.max 1 (0 + 1)) with 1. cbn [Z.eqb]. lia.
    + replace (Z.max 1 (bexponent b1 + 1)) with (bexponent b1 + 1) by lia. apply ordered_trans with (mkbits (2 ^ t_sig_bits t - 1) (bexponent b1) (bsign b1)).
      * destruct b1 as [s1 k1 g1]. cbn [significand bexponent bsign] in *. apply (within_scale t f); auto; lia.
      * apply (next_scale t f); auto. lia.
  - destruct (Z.eq_dec (significand b1) (significand b2)) as [ES|NS]; [apply (ordered_refl t f); auto|].
    apply (same_scale t f); auto; unfold power_exponent, mantissa in *; rewrite E in *; auto. destruct (bexponent b2 =? 0); lia.
Qed.
