(** From the order of decimal numbers to the order of what is printed (C97). *)
From Coq Require Import ZArith NArith QArith Qpower Lqa Lia List ZifyBool ZifyNat ZifyN.
From Verif.Spec Require Import TextSpec NumberSpec FloatSpec OrderSpec.
From Verif.Model Require Import Base Vector StringUtil Integer Fixed FloatText.
From Verif.Proofs Require Import Lists VectorProofs AppendProofs IntegerProofs FixedProofs FloatProofs FloatTextProofs OrderProofs.
Import ListNotations.
Local Open Scope Z_scope.
Ltac Zify.zify_post_hook ::= Z.div_mod_to_equations.

(** ** Rounding keeps the order *)
Lemma inject_le_inv a b c : (0 < c)%Q -> (inject_Z a * c <= inject_Z b * c)%Q -> a <= b.
Proof. intros C H. rewrite Zle_Qle. apply Qmult_lt_0_le_reg_r with c; auto. Qed.
Lemma decimal_le_inv a b e : (decimal a e <= decimal b e)%Q -> a <= b.
Proof. unfold decimal. apply inject_le_inv. apply p10_pos. Qed.

Lemma nearest_mono d1 d2 k R1 R2 : 0 <= k -> d1 <= d2 -> nearest_even d1 k R1 -> nearest_even d2 k R2 -> R1 <= R2.
Proof.
  intros K L (A1 & B1) (A2 & B2). assert (P : 0 < 10 ^ k) by (apply Z.pow_pos_nonneg; lia). set (u := 10 ^ k) in *. clearbody u.
  destruct (Z_le_gt_dec R1 R2) as [|G]; auto. exfalso. assert (R2 + 1 <= R1) by lia. assert (R2 * u + u <= R1 * u) by nia.
  assert (d1 = d2 /\ R1 * u = R2 * u + u) as (-> & E) by lia. assert (R1 = R2 + 1) as -> by nia.
  assert (T1 : Z.even (R2 + 1) = true) by (apply B1; lia). assert (T2 : Z.even R2 = true) by (apply B2; lia). rewrite Z.even_add, T2 in T1. discriminate.
Qed.
Lemma nearest_range d n p R : 1 <= p <= n -> 10 ^ (n - 1) <= d < 10 ^ n -> nearest_even d (n - p) R -> 10 ^ (p - 1) <= R <= 10 ^ p.
Proof.
  intros P D (A & _). assert (E1 : 10 ^ n = 10 ^ p * 10 ^ (n - p)) by (rewrite <- Z.pow_add_r by lia; f_equal; lia). assert (E2 : 10 ^ (n - 1) = 10 ^ (p - 1) * 10 ^ (n - p)) by (rewrite <- Z.pow_add_r by lia; f_equal; lia).
  assert (U : 0 < 10 ^ (n - p)) by (apply Z.pow_pos_nonneg; lia). rewrite E1, E2 in D. set (u := 10 ^ (n - p)) in *. set (a := 10 ^ (p - 1)) in *. set (b := 10 ^ p) in *. clearbody u a b. split; nia.
Qed.
Lemma rounded_mono d1 e1 n1 R1 d2 e2 n2 R2 p : 1 <= p <= n1 -> p <= n2 -> 10 ^ (n1 - 1) <= d1 < 10 ^ n1 -> 10 ^ (n2 - 1) <= d2 < 10 ^ n2 ->
  nearest_even d1 (n1 - p) R1 -> nearest_even d2 (n2 - p) R2 -> (decimal d1 e1 <= decimal d2 e2)%Q ->
  (decimal R1 (e1 + (n1 - p)) <= decimal R2 (e2 + (n2 - p)))%Q.
Proof.
  intros P1 P2 D1 D2 N1 N2 L. pose proof (nearest_range d1 n1 p R1 ltac:(lia) D1 N1) as B1. pose proof (nearest_range d2 n2 p R2 ltac:(lia) D2 N2) as B2.
  destruct (Z_lt_le_dec (e1 + n1) (e2 + n2)) as [LT|GE].
  - apply Qle_trans with (decimal (10 ^ p) (e1 + (n1 - p))); [apply decimal_le; lia|]. apply Qle_trans with (decimal (10 ^ (p - 1)) (e2 + (n2 - p))); [|apply decimal_le; lia].
    unfold decimal. fold (p10 (e1 + (n1 - p))) (p10 (e2 + (n2 - p))). rewrite <- !p10_nonneg by lia. rewrite <- !p10_plus. apply p10_le. lia.
  - assert (E : e1 + n1 = e2 + n2).
    { destruct (Z.eq_dec (e1 + n1) (e2 + n2)) as [|NE]; auto. exfalso.
      assert (A : (decimal d2 e2 < decimal (10 ^ n2) e2)%Q) by (apply decimal_lt; lia). assert (B : (decimal (10 ^ (n1 - 1)) e1 <= decimal d1 e1)%Q) by (apply decimal_le; lia).
      assert (C : (decimal (10 ^ n2) e2 <= decimal (10 ^ (n1 - 1)) e1)%Q) by (unfold decimal; fold (p10 e1) (p10 e2); rewrite <- !p10_nonneg by lia; rewrite <- !p10_plus; apply p10_le; lia). lra. }
    replace (e2 + (n2 - p)) with (e1 + (n1 - p)) by lia. apply decimal_le.
    (* a common unit *)
    set (e := Z.min e1 e2). set (k1 := e1 - e). set (k2 := e2 - e). assert (K1 : 0 <= k1) by (unfold k1, e; lia). assert (K2 : 0 <= k2) by (unfold k2, e; lia).
    assert (Q1 : 0 < 10 ^ k1) by (apply Z.pow_pos_nonneg; lia). assert (Q2 : 0 < 10 ^ k2) by (apply Z.pow_pos_nonneg; lia).
    assert (S : forall d k n R, 0 <= k -> 0 <= n - p -> nearest_even d (n - p) R -> nearest_even (d * 10 ^ k) (n - p + k) R).
    { intros d k n R KK NN (X & Y). assert (0 < 10 ^ k) by (apply Z.pow_pos_nonneg; lia). unfold nearest_even. rewrite Z.pow_add_r by lia. replace (R * (10 ^ (n - p) * 10 ^ k) - d * 10 ^ k) with ((R * 10 ^ (n - p) - d) * 10 ^ k) by ring.
      rewrite Z.abs_mul, (Z.abs_eq (10 ^ k)) by lia. split; [nia|]. intros T. apply Y. nia. }
    apply (nearest_mono (d1 * 10 ^ k1) (d2 * 10 ^ k2) (n1 - p + k1)); [lia| |apply S; auto; lia|replace (n1 - p + k1) with (n2 - p + k2) by (unfold k1, k2; lia); apply S; auto; lia].
    apply decimal_le_inv with e. replace e with (e1 - k1) at 1 by (unfold k1; lia). replace e with (e2 - k2) at 1 by (unfold k2; lia). rewrite !decimal_shift by lia. exact L.
Qed.

(** ** What is printed *)
Lemma printed t f bits ss p : known t f -> pattern f bits -> exponent_of f bits <> t_special t -> mantissa t (to_bits t bits) <> 0 -> wf ss -> (1 <= p <= 19)%nat ->
  exists T d e n R D E, appended ss T (do fd <- to_fixed t (to_bits t bits) ;; do fd1 <- set_precision fd p ;; append_fixed ss fd1) /\
    to_fixed t (to_bits t bits) = Ok (mksigned d e (negative f bits)) /\ Z.of_nat p <= n /\ 10 ^ (n - 1) <= d < 10 ^ n /\ nearest_even d (n - Z.of_nat p) R /\
    scientific p (negative f bits) (Z.to_N D) (E + Z.of_nat p - 1) T /\ 0 < D /\ (decimal D E == decimal R (e + (n - Z.of_nat p)))%Q.
Proof.
  intros K P SP NZ W PP.
  assert (FB : 0 <= significand (to_bits t bits) < 2 ^ t_sig_bits t /\ 0 <= bexponent (to_bits t bits) < t_special t /\ bsign (to_bits t bits) = negative f bits).
  { rewrite (to_bits_fields t f bits K P). cbn [significand bexponent bsign]. unfold fraction_of in *. unfold exponent_of in *. destruct K as [(-> & ->)|(-> & ->)]; cbn [t_special t_sig_bits float_traits double_traits fraction_bits exponent_bits binary32 binary64] in *; (split; [apply Z.mod_pos_bound; lia|]); (split; [|reflexivity]).
    - assert (0 <= bits / 2 ^ 23 mod 2 ^ 8 < 2 ^ 8) by (apply Z.mod_pos_bound; lia). change (2 ^ 8) with 256 in *. lia.
    - assert (0 <= bits / 2 ^ 52 mod 2 ^ 11 < 2 ^ 11) by (apply Z.mod_pos_bound; lia). change (2 ^ 11) with 2048 in *. lia. }
  destruct FB as (FB & EB & SB). set (b := to_bits t bits) in *. clearbody b.
  assert (MP : 0 < mantissa t b). { unfold mantissa in *. destruct (bexponent b =? 0); [lia|]. assert (0 < 2 ^ t_sig_bits t) by lia. lia. }
  destruct (to_fixed_accurate t f b K FB EB MP) as (d & e & -> & DB & E6 & _). cbn [bind]. rewrite cap_value in DB.
  destruct (digits_count d ltac:(lia)) as (n & EN & DN & N1).
  assert (N19 : 19 <= Z.of_nat n). { destruct (Z_le_gt_dec 19 (Z.of_nat n)); auto. exfalso. assert (10 ^ Z.of_nat n <= 10 ^ 18) by (apply Z.pow_le_mono_r; lia). change (10 ^ 18) with 1000000000000000000 in *. lia. }
  assert (N20 : (n <= 20)%nat) by (apply (num_digits_u_le20 10 ltac:(lia) ltac:(lia) (Z.to_N d)); auto; lia).
  destruct (set_precision_spec d e (bsign b) p (Z.of_nat n)) as (R & D & E & -> & NE & DP & RD); try lia. cbn [bind].
  assert (D64 : 0 < D < 2 ^ 64). { assert (0 < 10 ^ (Z.of_nat p - 1)) by (apply Z.pow_pos_nonneg; lia). assert (10 ^ Z.of_nat p <= 10 ^ 19) by (apply Z.pow_le_mono_r; lia). change (10 ^ 19) with 10000000000000000000 in *. lia. }
  destruct (append_fixed_spec ss D E (bsign b) p) as (T & -> & SC); auto; try lia. rewrite <- SB. exists T, d, e, (Z.of_nat n), R, D, E. split; [now apply appended_constexpr|]. split; auto. split; [lia|]. split; auto. split; auto. split; auto. split; [lia|].
  destruct RD as [(-> & ->)|(-> & -> & ->)]; [reflexivity|]. set (c := e + (Z.of_nat n - Z.of_nat p)).
  rewrite <- (decimal_shift (10 ^ (Z.of_nat p - 1)) (c + 1) 1) by lia. replace (c + 1 - 1) with c by lia. rewrite <- Z.pow_add_r by lia. replace (Z.of_nat p - 1 + 1) with (Z.of_nat p) by lia. reflexivity.
Qed.

(** ** The order of bit patterns *)
Lemma binary_zero m q : 0 <= m -> (binary m q == 0)%Q -> m = 0.
Proof. intros M H. unfold binary in H. fold (p2 q) in H. pose proof (p2_pos q). destruct (Z.eq_dec m 0) as [|N]; auto. exfalso. assert (inject_Z 1 <= inject_Z m)%Q by (apply Zle_Q; lia). change (inject_Z 1) with 1%Q in *. nra. Qed.
Lemma binary_nonneg m q : 0 <= m -> (0 <= binary m q)%Q.
Proof. intros M. unfold binary. fold (p2 q). pose proof (p2_pos q). assert (inject_Z 0 <= inject_Z m)%Q by (apply Zle_Q; lia). change (inject_Z 0) with 0%Q in *. nra. Qed.
Lemma p2_le a b : a <= b -> (p2 a <= p2 b)%Q.
Proof.
  intros H. replace b with (a + (b - a)) by lia. rewrite p2_plus, (p2_nonneg (b - a)) by lia. pose proof (p2_pos a). assert (0 < 2 ^ (b - a)) by (apply Z.pow_pos_nonneg; lia). assert (1 <= inject_Z (2 ^ (b - a)))%Q by (change 1%Q with (inject_Z 1); apply Zle_Q; lia). nra.
Qed.
Lemma by_fields t f b1 b2 : known t f -> 0 <= significand b1 < 2 ^ t_sig_bits t -> 0 <= significand b2 < 2 ^ t_sig_bits t -> 0 <= bexponent b1 -> 0 <= bexponent b2 ->
  (binary (mantissa t b1) (scale t b1) <= binary (mantissa t b2) (scale t b2))%Q ->
  bexponent b1 < bexponent b2 \/ bexponent b1 = bexponent b2 /\ significand b1 <= significand b2.
Proof.
  intros K S1 S2 X1 X2 L. destruct (Z_lt_le_dec (bexponent b1) (bexponent b2)) as [|G]; [now left|]. destruct (Z.eq_dec (bexponent b1) (bexponent b2)) as [E|N].
  - right. split; auto. unfold mantissa, scale in L. rewrite E in L. unfold binary in L. apply inject_le_inv in L; [destruct (bexponent b2 =? 0); lia|apply p2_pos].
  - exfalso. assert (KT : 0 <= t_sig_bits t) by (destruct K as [(-> & _)|(-> & _)]; cbn; lia). unfold mantissa, scale in L. rewrite (proj2 (Z.eqb_neq (bexponent b1) 0)) in L by lia. set (sg := t_sig_bits t) in *. set (o := t_exp_origin t) in *.
    assert (A : (binary (2 ^ sg) (bexponent b1 + o - sg) <= binary (2 ^ sg + significand b1) (bexponent b1 + o - sg))%Q) by (unfold binary; apply Qmult_le_compat_r; [apply Zle_Q; lia|apply Qlt_le_weak, p2_pos]).
    unfold binary in *. fold (p2 (bexponent b1 + o - sg)) in *. destruct (Z.eqb_spec (bexponent b2) 0) as [Z0|NZ].
    + fold (p2 (o + 1 - sg)) in L. assert (B : (p2 (o + 1 - sg) <= p2 (bexponent b1 + o - sg))%Q) by (apply p2_le; lia). assert (C : (inject_Z (significand b2) + 1 <= inject_Z (2 ^ sg))%Q) by (change 1%Q with (inject_Z 1); rewrite <- inject_Z_plus; apply Zle_Q; lia).
      assert (D : (0 <= inject_Z (significand b2))%Q) by (change 0%Q with (inject_Z 0); apply Zle_Q; lia). pose proof (p2_pos (o + 1 - sg)). set (y := p2 (o + 1 - sg)) in *. set (x := p2 (bexponent b1 + o - sg)) in *. set (c := inject_Z (2 ^ sg)) in *. set (d := inject_Z (significand b2)) in *. clearbody x y c d. nra.
    + fold (p2 (bexponent b2 + o - sg)) in L. assert (B : (p2 (bexponent b2 + o - sg + 1) <= p2 (bexponent b1 + o - sg))%Q) by (apply p2_le; lia). rewrite p2_plus in B. change (p2 1) with 2%Q in B.
      assert (C : (inject_Z (2 ^ sg + significand b2) + 1 <= 2 * inject_Z (2 ^ sg))%Q) by (change 1%Q with (inject_Z 1); change 2%Q with (inject_Z 2); rewrite <- inject_Z_mult, <- inject_Z_plus; apply Zle_Q; lia).
      assert (D : (0 <= inject_Z (2 ^ sg))%Q) by (change 0%Q with (inject_Z 0); apply Zle_Q; assert (0 < 2 ^ sg) by (apply Z.pow_pos_nonneg; lia); lia). pose proof (p2_pos (bexponent b2 + o - sg)). set (y := p2 (bexponent b2 + o - sg)) in *. set (x := p2 (bexponent b1 + o - sg)) in *. set (c := inject_Z (2 ^ sg)) in *. set (d := inject_Z (2 ^ sg + significand b2)) in *. clearbody x y c d. nra.
Qed.

(** ** Two numbers *)
Definition printed_as (t : traits) (f : format) (ss : sstr) (bits : Z) (precision : nat) (T : str) (a : Q) : Prop :=
  appended ss T (append_float t ss bits precision) /\ exists d x, scientific (Nat.min precision 19) (negative f bits) d x T /\ (a == scientific_value (Nat.min precision 19) d x)%Q.

Lemma field_bounds t f bits : known t f -> pattern f bits -> 0 <= significand (to_bits t bits) < 2 ^ t_sig_bits t /\ 0 <= bexponent (to_bits t bits) <= t_special t /\ bsign (to_bits t bits) = negative f bits /\ bexponent (to_bits t bits) = exponent_of f bits.
Proof.
  intros K P. rewrite (to_bits_fields t f bits K P). cbn [significand bexponent bsign]. unfold fraction_of in *. unfold exponent_of in *. destruct K as [(-> & ->)|(-> & ->)]; cbn [t_special t_sig_bits float_traits double_traits fraction_bits exponent_bits binary32 binary64] in *; (split; [apply Z.mod_pos_bound; lia|]); (split; [|auto]).
  - assert (0 <= bits / 2 ^ 23 mod 2 ^ 8 < 2 ^ 8) by (apply Z.mod_pos_bound; lia). change (2 ^ 8) with 256 in *. lia.
  - assert (0 <= bits / 2 ^ 52 mod 2 ^ 11 < 2 ^ 11) by (apply Z.mod_pos_bound; lia). change (2 ^ 11) with 2048 in *. lia.
Qed.
Lemma finite_not_special t f bits s m q : known t f -> pattern f bits -> number_of f bits = Finite s m q -> exponent_of f bits <> t_special t /\ s = negative f bits /\ m = mantissa t (to_bits t bits) /\ q = scale t (to_bits t bits).
Proof.
  intros K P E. assert (N : exponent_of f bits <> t_special t).
  { intros X. unfold number_of in E. assert (SE : t_special t = 2 ^ exponent_bits f - 1) by (destruct K as [(-> & ->)|(-> & ->)]; reflexivity). rewrite <- SE, X, Z.eqb_refl in E. destruct (fraction_of f bits =? 0); discriminate. }
  split; auto. rewrite (same_value t f bits K P N) in E. injection E as <- <- <-. auto.
Qed.
Lemma append_float_nonzero t f bits ss precision : known t f -> pattern f bits -> exponent_of f bits <> t_special t -> mantissa t (to_bits t bits) <> 0 ->
  append_float t ss bits precision = (do fd <- to_fixed t (to_bits t bits) ;; do fd1 <- set_precision fd (Nat.min precision 19) ;; append_fixed ss fd1).
Proof.
  intros K P N M. unfold append_float, append_float_bits. replace (if (precision <=? 19)%nat then precision else 19%nat) with (Nat.min precision 19) by (destruct (Nat.leb_spec precision 19); lia).
  destruct (field_bounds t f bits K P) as (_ & _ & _ & BE). rewrite BE. unfold mantissa in M. rewrite BE in M. destruct (Z.eqb_spec (exponent_of f bits) 0) as [E|E].
  - rewrite (proj2 (Z.eqb_neq _ _) M). reflexivity.
  - rewrite (proj2 (Z.eqb_neq _ _) N). reflexivity.
Qed.
Lemma one_zero t f bits ss precision s q : known t f -> pattern f bits -> number_of f bits = Finite s 0 q -> wf ss -> (1 <= precision)%nat -> exists T, printed_as t f ss bits precision T 0.
Proof.
  intros K P E W PP. destruct (append_float_spec t f bits ss precision K P W PP) as (T & H & A). rewrite E in H. destruct H as (d & x & SC & Z0 & _). destruct (Z0 eq_refl) as (-> & ->). exists T. split; auto. exists 0%N, 0.
  destruct (finite_not_special t f bits s 0 q K P E) as (_ & <- & _). split; auto. unfold scientific_value, decimal. change (inject_Z (Z.of_N 0)) with 0%Q. ring.
Qed.
Lemma one_number t f bits ss precision s m q : known t f -> pattern f bits -> number_of f bits = Finite s m q -> wf ss -> (1 <= precision)%nat -> exists T a, printed_as t f ss bits precision T a /\ (0 <= a)%Q.
Proof.
  intros K P E W PP. destruct (append_float_spec t f bits ss precision K P W PP) as (T & H & A). rewrite E in H. destruct H as (d & x & SC & _). exists T. eexists. split; [split; [exact A|exists d, x; split; [|reflexivity]]|].
  - destruct (finite_not_special t f bits s m q K P E) as (_ & <- & _). exact SC.
  - unfold scientific_value, decimal. pose proof (p10_pos (x - (Z.of_nat (Nat.min precision 19) - 1))) as Q. unfold p10 in Q. assert (0 <= inject_Z (Z.of_N d))%Q by (change 0%Q with (inject_Z 0); apply Zle_Q; lia). nra.
Qed.
Lemma two_numbers t f bits1 bits2 ss1 ss2 precision s1 m1 q1 s2 m2 q2 : known t f -> pattern f bits1 -> pattern f bits2 -> wf ss1 -> wf ss2 -> (1 <= precision)%nat ->
  number_of f bits1 = Finite s1 m1 q1 -> number_of f bits2 = Finite s2 m2 q2 -> m1 <> 0 -> m2 <> 0 ->
  exists T1 a1 T2 a2, printed_as t f ss1 bits1 precision T1 a1 /\ printed_as t f ss2 bits2 precision T2 a2 /\
    ((binary m1 q1 <= binary m2 q2)%Q -> (a1 <= a2)%Q) /\ ((binary m2 q2 <= binary m1 q1)%Q -> (a2 <= a1)%Q) /\ (0 <= a1 /\ 0 <= a2)%Q.
Proof.
  intros K P1 P2 W1 W2 PP E1 E2 NZ1 NZ2.
  destruct (finite_not_special t f bits1 s1 m1 q1 K P1 E1) as (N1 & _ & M1 & Q1). destruct (finite_not_special t f bits2 s2 m2 q2 K P2 E2) as (N2 & _ & M2 & Q2). subst m1 q1 m2 q2.
  destruct (field_bounds t f bits1 K P1) as (S1 & X1 & G1 & B1). destruct (field_bounds t f bits2 K P2) as (S2 & X2 & G2 & B2).
  assert (SG : 0 < 2 ^ t_sig_bits t) by lia. assert (MP1 : 0 < mantissa t (to_bits t bits1)) by (unfold mantissa in *; destruct (bexponent (to_bits t bits1) =? 0); lia).
  assert (MP2 : 0 < mantissa t (to_bits t bits2)) by (unfold mantissa in *; destruct (bexponent (to_bits t bits2) =? 0); lia).
  destruct (printed t f bits1 ss1 (Nat.min precision 19)) as (T1 & d1 & e1 & n1 & R1 & D1 & Y1 & A1 & F1 & NB1 & DN1 & NE1 & SC1 & DP1 & V1); auto; [lia|].
  destruct (printed t f bits2 ss2 (Nat.min precision 19)) as (T2 & d2 & e2 & n2 & R2 & D2 & Y2 & A2 & F2 & NB2 & DN2 & NE2 & SC2 & DP2 & V2); auto; [lia|].
  exists T1, (decimal D1 Y1), T2, (decimal D2 Y2). split; [|split; [|split; [|split]]].
  - split; [now rewrite (append_float_nonzero t f) by auto|]. eexists _, _. split; [exact SC1|]. unfold scientific_value. rewrite Z2N.id by lia. replace (Y1 + Z.of_nat (Nat.min precision 19) - 1 - (Z.of_nat (Nat.min precision 19) - 1)) with Y1 by lia. reflexivity.
  - split; [now rewrite (append_float_nonzero t f) by auto|]. eexists _, _. split; [exact SC2|]. unfold scientific_value. rewrite Z2N.id by lia. replace (Y2 + Z.of_nat (Nat.min precision 19) - 1 - (Z.of_nat (Nat.min precision 19) - 1)) with Y2 by lia. reflexivity.
  - intros L. rewrite <- B1 in N1. rewrite <- B2 in N2. pose proof (by_fields t f _ _ K S1 S2 ltac:(lia) ltac:(lia) L) as LX. pose proof (all_ordered t f _ _ K S1 S2 ltac:(lia) ltac:(lia) MP1 LX) as (d1' & e1' & d2' & e2' & F1' & F2' & LE).
    rewrite F1 in F1'. injection F1' as <- <- _. rewrite F2 in F2'. injection F2' as <- <- _. pose proof (rounded_mono d1 e1 n1 R1 d2 e2 n2 R2 (Z.of_nat (Nat.min precision 19)) ltac:(lia) ltac:(lia) DN1 DN2 NE1 NE2 LE) as RM. now rewrite <- V1, <- V2 in RM.
  - intros L. rewrite <- B1 in N1. rewrite <- B2 in N2. pose proof (by_fields t f _ _ K S2 S1 ltac:(lia) ltac:(lia) L) as LX. pose proof (all_ordered t f _ _ K S2 S1 ltac:(lia) ltac:(lia) MP2 LX) as (d2' & e2' & d1' & e1' & F2' & F1' & LE).
    rewrite F1 in F1'. injection F1' as <- <- _. rewrite F2 in F2'. injection F2' as <- <- _. pose proof (rounded_mono d2 e2 n2 R2 d1 e1 n1 R1 (Z.of_nat (Nat.min precision 19)) ltac:(lia) ltac:(lia) DN2 DN1 NE2 NE1 LE) as RM. now rewrite <- V1, <- V2 in RM.
  - unfold decimal. fold (p10 Y1) (p10 Y2). pose proof (p10_pos Y1). pose proof (p10_pos Y2). assert (inject_Z 0 <= inject_Z D1)%Q by (apply Zle_Q; lia). assert (inject_Z 0 <= inject_Z D2)%Q by (apply Zle_Q; lia). change (inject_Z 0) with 0%Q in *. split; nra.
Qed.
Lemma two_texts t f bits1 bits2 ss1 ss2 precision s1 m1 q1 s2 m2 q2 : known t f -> pattern f bits1 -> pattern f bits2 -> wf ss1 -> wf ss2 -> (1 <= precision)%nat ->
  number_of f bits1 = Finite s1 m1 q1 -> number_of f bits2 = Finite s2 m2 q2 -> 0 <= m1 -> 0 <= m2 ->
  exists T1 a1 T2 a2, printed_as t f ss1 bits1 precision T1 a1 /\ printed_as t f ss2 bits2 precision T2 a2 /\
    ((binary m1 q1 <= binary m2 q2)%Q -> (a1 <= a2)%Q) /\ ((binary m2 q2 <= binary m1 q1)%Q -> (a2 <= a1)%Q) /\ (0 <= a1 /\ 0 <= a2)%Q /\
    ((binary m1 q1 == 0)%Q -> (a1 == 0)%Q) /\ ((binary m2 q2 == 0)%Q -> (a2 == 0)%Q).
Proof.
  intros K P1 P2 W1 W2 PP E1 E2 M1 M2. pose proof (binary_nonneg m1 q1 M1) as B1. pose proof (binary_nonneg m2 q2 M2) as B2.
  assert (ZB : forall q, (binary 0 q == 0)%Q) by (intros; unfold binary; change (inject_Z 0) with 0%Q; ring).
  destruct (Z.eq_dec m1 0) as [->|NZ1]; [|destruct (Z.eq_dec m2 0) as [->|NZ2]].
  - destruct (one_zero t f bits1 ss1 precision s1 q1) as (T1 & H1); auto. destruct (Z.eq_dec m2 0) as [->|NZ2].
    + destruct (one_zero t f bits2 ss2 precision s2 q2) as (T2 & H2); auto. exists T1, 0%Q, T2, 0%Q. split; [exact H1|]. split; [exact H2|]. repeat split; intros; lra.
    + destruct (one_number t f bits2 ss2 precision s2 m2 q2) as (T2 & a2 & H2 & A2); auto. exists T1, 0%Q, T2, a2. split; [exact H1|]. split; [exact H2|].
      assert (N : ~ (binary m2 q2 == 0)%Q) by (intros Z; apply (binary_zero m2 q2) in Z; auto). specialize (ZB q1). split; [auto|]. split; [intros L; exfalso; apply N; lra|]. split; [auto with qarith|]. split; [reflexivity|]. intros Z. contradiction.
  - destruct (one_zero t f bits2 ss2 precision s2 q2) as (T2 & H2); auto. destruct (one_number t f bits1 ss1 precision s1 m1 q1) as (T1 & a1 & H1 & A1); auto. exists T1, a1, T2, 0%Q. split; [exact H1|]. split; [exact H2|].
    assert (N : ~ (binary m1 q1 == 0)%Q) by (intros Z; apply (binary_zero m1 q1) in Z; auto). specialize (ZB q2). split; [intros L; exfalso; apply N; lra|]. split; [auto|]. split; [auto with qarith|]. split; [|reflexivity]. intros Z. contradiction.
  - destruct (two_numbers t f bits1 bits2 ss1 ss2 precision s1 m1 q1 s2 m2 q2) as (T1 & a1 & T2 & a2 & H1 & H2 & L1 & L2 & A); auto. exists T1, a1, T2, a2. do 5 (split; auto). split; intros Z; [apply (binary_zero m1 q1) in Z|apply (binary_zero m2 q2) in Z]; auto; contradiction.
Qed.

Lemma reads_signed t f ss bits precision T a : printed_as t f ss bits precision T a -> reads T (Real (signed (negative f bits) a)).
Proof. intros (_ & d & x & SC & E). eapply reads_number; [exact SC|]. unfold signed. destruct (negative f bits); rewrite E; reflexivity. Qed.

(** The order of what is printed, whatever the room. *)
Theorem printed_in_order t f bits1 bits2 ss1 ss2 precision x1 x2 : known t f -> pattern f bits1 -> pattern f bits2 -> wf ss1 -> wf ss2 -> (1 <= precision)%nat ->
  number_value (number_of f bits1) = Some x1 -> number_value (number_of f bits2) = Some x2 ->
  exists T1 y1 T2 y2, appended ss1 T1 (append_float t ss1 bits1 precision) /\ appended ss2 T2 (append_float t ss2 bits2 precision) /\ reads T1 y1 /\ reads T2 y2 /\
    (at_most x1 x2 -> at_most y1 y2) /\ (at_most x2 x1 -> at_most y2 y1).
Proof.
  intros K P1 P2 W1 W2 PP E1 E2.
  assert (INF : forall bits ss s, pattern f bits -> wf ss -> number_of f bits = Infinite s -> exists T, appended ss T (append_float t ss bits precision) /\ reads T (if s then MinusInfinity else PlusInfinity)).
  { intros bits ss s P W E. destruct (append_float_spec t f bits ss precision K P W PP) as (T & H & A). rewrite E in H. cbn in H. exists T. split; auto. subst T. destruct s; constructor. }
  assert (FIN : forall bits ss s m q, pattern f bits -> wf ss -> number_of f bits = Finite s m q -> exists T r, appended ss T (append_float t ss bits precision) /\ reads T (Real r)).
  { intros bits ss s m q P W E. destruct (one_number t f bits ss precision s m q) as (T & a & H & _); auto. exists T. eexists. split; [apply H|eapply reads_signed; exact H]. }
  destruct (number_of f bits1) as [|s1|s1 m1 q1] eqn:N1; [discriminate| |]; (destruct (number_of f bits2) as [|s2|s2 m2 q2] eqn:N2; [discriminate| |]); cbn [number_value] in *; injection E1 as <-; injection E2 as <-.
  - destruct (INF bits1 ss1 s1) as (T1 & A1 & R1); auto. destruct (INF bits2 ss2 s2) as (T2 & A2 & R2); auto. eexists T1, _, T2, _. split; [exact A1|]. split; [exact A2|]. split; [exact R1|]. split; [exact R2|auto].
  - destruct (INF bits1 ss1 s1) as (T1 & A1 & R1); auto. destruct (FIN bits2 ss2 s2 m2 q2) as (T2 & r & A2 & R2); auto. eexists T1, _, T2, _. split; [exact A1|]. split; [exact A2|]. split; [exact R1|]. split; [exact R2|destruct s1; split; intros L; exact L].
  - destruct (FIN bits1 ss1 s1 m1 q1) as (T1 & r & A1 & R1); auto. destruct (INF bits2 ss2 s2) as (T2 & A2 & R2); auto. eexists T1, _, T2, _. split; [exact A1|]. split; [exact A2|]. split; [exact R1|]. split; [exact R2|destruct s2; split; intros L; exact L].
  - assert (F1 := finite_not_special t f bits1 s1 m1 q1 K P1 N1). assert (F2 := finite_not_special t f bits2 s2 m2 q2 K P2 N2).
    assert (M1 : 0 <= m1). { destruct F1 as (_ & _ & -> & _). destruct (field_bounds t f bits1 K P1) as (S1 & _). unfold mantissa. destruct (bexponent (to_bits t bits1) =? 0); lia. }
    assert (M2 : 0 <= m2). { destruct F2 as (_ & _ & -> & _). destruct (field_bounds t f bits2 K P2) as (S2 & _). unfold mantissa. destruct (bexponent (to_bits t bits2) =? 0); lia. }
    pose proof (binary_nonneg m1 q1 M1) as B1. pose proof (binary_nonneg m2 q2 M2) as B2. destruct F1 as (_ & G1 & _). destruct F2 as (_ & G2 & _).
    destruct (two_texts t f bits1 bits2 ss1 ss2 precision s1 m1 q1 s2 m2 q2) as (T1 & a1 & T2 & a2 & H1 & H2 & L1 & L2 & (A1 & A2) & Z1 & Z2); auto.
    eexists T1, _, T2, _. split; [apply H1|]. split; [apply H2|]. split; [eapply reads_signed; exact H1|]. split; [eapply reads_signed; exact H2|]. rewrite <- G1, <- G2. cbn [at_most].
    set (c1 := binary m1 q1) in *. set (c2 := binary m2 q2) in *. clearbody c1 c2. clear - A1 A2 Z1 Z2 L1 L2 B1 B2. destruct s1, s2; cbn [signed]; split; intros L; try (assert (X1 : (c1 == 0)%Q) by lra; assert (X2 : (c2 == 0)%Q) by lra; specialize (Z1 X1); specialize (Z2 X2)); try (specialize (L1 ltac:(lra))); try (specialize (L2 ltac:(lra))); lra.
Qed.
