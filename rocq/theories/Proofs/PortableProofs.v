(** Decoding floating-point numbers without [std::bit_cast]. *)
From Coq Require Import ZArith Lia List ZifyBool ZifyNat ZifyN.
From Verif.Spec Require Import FloatSpec.
From Verif.Model Require Import Base Vector StringUtil Integer Fixed FloatText.
From Verif.Proofs Require Import VectorProofs FixedProofs FloatProofs FloatTextProofs.
Local Open Scope Z_scope.

Definition B (t : traits) : Z := - t_exp_origin t.
Record sane (t : traits) : Prop := {
  sig2 : 2 <= t_sig_bits t; B2 : 2 <= B t; special : t_special t = 2 * B t + 1; room : B t - 1 + t_sig_bits t <= t_special t - 2; expt : t_special t < 2 ^ (if t_bits t =? 32 then 8 else 16);
  fuel_ok : t_special t < 2 ^ t_exp_bits t }.
Lemma known_sane t f : known t f -> sane t.
Proof. intros [(-> & _)|(-> & _)]; constructor; vm_compute; congruence. Qed.

Section S.
Variables (t : traits) (W : sane t).
Lemma lowest_B : - lowest t = B t - 1 + t_sig_bits t.
Proof. unfold lowest, B. lia. Qed.
Lemma exactly_ok m k : 0 <= m < 2 ^ (t_sig_bits t + 1) -> 0 <= k <= t_special t - 2 -> exactly t (m * 2 ^ k) = Ok (m * 2 ^ k).
Proof using W.
  destruct W as [S2 B2 SP RM EX FU]. intros M K. unfold exactly. replace (m * 2 ^ k mod _ =? 0) with true; [replace (m * 2 ^ k <? _) with true; [reflexivity|]|].
  - symmetry. apply Z.ltb_lt. replace (t_sig_bits t + t_special t - 1) with (t_sig_bits t + 1 + (t_special t - 2)) by lia. rewrite Z.pow_add_r by lia.
    assert (2 ^ k <= 2 ^ (t_special t - 2)) by (apply Z.pow_le_mono_r; lia). assert (0 < 2 ^ k) by (apply Z.pow_pos_nonneg; lia). nia.
  - symmetry. apply Z.eqb_eq. destruct (Z.eq_dec m 0) as [->|M0]; [rewrite Z.mul_0_l; apply Z.mod_0_l; apply Z.pow_nonzero; lia|].
    rewrite Z.log2_mul_pow2 by lia. assert (Z.log2 m < t_sig_bits t + 1) by (apply Z.log2_lt_pow2; lia). set (j := Z.max 0 (k + Z.log2 m - t_sig_bits t)). assert (J : 0 <= j <= k) by (unfold j; lia).
    replace k with (k - j + j) by lia. rewrite Z.pow_add_r by lia. rewrite Z.mul_assoc. apply Z.mod_mul. apply Z.pow_nonzero; lia.
Qed.
Lemma exp_t_ok e : 0 <= e <= t_special t -> exp_t t e = Ok e.
Proof using W. destruct W as [S2 B2 SP RM EX FU]. intros E. unfold exp_t. replace ((0 <=? e) && (e <? 2 ^ (if t_bits t =? 32 then 8 else 16))) with true; auto. symmetry. lia. Qed.
Lemma pow2_pos k : 0 <= k -> 0 < 2 ^ k.
Proof. intros. apply Z.pow_pos_nonneg; lia. Qed.
Lemma pow2_S k : 0 <= k -> 2 ^ (k + 1) = 2 * 2 ^ k.
Proof. intros. rewrite Z.pow_add_r by lia. lia. Qed.
Lemma one_value : one_f t = 2 ^ (B t - 1) * 2 ^ t_sig_bits t.
Proof using W. destruct W. unfold one_f. rewrite lowest_B, Z.pow_add_r by lia. reflexivity. Qed.

Lemma scaled b s m n : 0 < b -> 0 < n -> 0 <= s <= m -> 2 * (b * s) <= m * (2 * b * n).
Proof. intros. assert (b * s <= b * m) by nia. assert (b * m * 1 <= b * m * n) by nia. nia. Qed.
Lemma halve_spec m : 2 ^ t_sig_bits t <= m < 2 ^ (t_sig_bits t + 1) -> forall n fuel e, (n < fuel)%nat -> 0 <= e -> e + 1 + Z.of_nat n < t_special t ->
  B t + 1 + Z.of_nat n < t_special t ->
  halve_loop fuel t (m * 2 ^ (B t + Z.of_nat n)) e = Ok (m * 2 ^ (B t - 1), e + 1 + Z.of_nat n).
Proof using W.
  intros M. induction n as [|n IH]; intros fuel e F E L L2; (destruct fuel as [|fuel]; [lia|]); cbn [halve_loop]; unfold half; pose proof W as [S2 B2 SP RM EX FU]; pose proof (pow2_pos (t_sig_bits t) ltac:(lia)) as PS.
  - replace (B t + Z.of_nat 0) with (B t - 1 + 1) by lia. rewrite pow2_S by lia. rewrite Z.mul_assoc, (Z.mul_comm m 2), <- Z.mul_assoc. rewrite Z.even_mul. cbn [orb Z.even]. rewrite Z.mul_comm, Z.div_mul by lia. rewrite exactly_ok by lia. cbn [bind]. rewrite exp_t_ok by lia. cbn [bind].
    replace (2 * one_f t <=? m * 2 ^ (B t - 1)) with false; [do 2 f_equal; lia|]. symmetry. apply Z.leb_gt. rewrite one_value. pose proof (pow2_pos (B t - 1) ltac:(lia)). rewrite pow2_S in M by lia. nia.
  - replace (B t + Z.of_nat (S n)) with (B t + Z.of_nat n + 1) by lia. rewrite pow2_S by lia. rewrite Z.mul_assoc, (Z.mul_comm m 2), <- Z.mul_assoc. rewrite Z.even_mul. cbn [orb Z.even]. rewrite (Z.mul_comm 2), Z.div_mul by lia. rewrite exactly_ok by lia. cbn [bind]. rewrite exp_t_ok by lia. cbn [bind].
    replace (2 * one_f t <=? m * 2 ^ (B t + Z.of_nat n)) with true; [rewrite IH by lia; do 2 f_equal; lia|]. symmetry. apply Z.leb_le. rewrite one_value.
    replace (B t + Z.of_nat n) with (B t - 1 + 1 + Z.of_nat n) by lia. rewrite Z.pow_add_r, pow2_S by lia. apply scaled; try (apply pow2_pos; lia). lia.
Qed.

(** [k] is the power at which the loop stops: the number reaches 1, or the exponent 0. *)
Lemma double_spec m k : 0 <= m < 2 ^ (t_sig_bits t + 1) -> 0 <= k <= t_special t - 2 -> (forall j, 0 <= j < k -> m * 2 ^ j < one_f t) ->
  forall n fuel e, (n < fuel)%nat -> Z.of_nat n + 1 <= k -> Z.of_nat n + 1 <= e < t_special t -> (one_f t <= m * 2 ^ k \/ e = Z.of_nat n + 1) ->
  double_loop fuel t (m * 2 ^ (k - 1 - Z.of_nat n)) e = Ok (m * 2 ^ k, e - 1 - Z.of_nat n).
Proof using W.
  intros M K BL. induction n as [|n IH]; intros fuel e F NK E ST; (destruct fuel as [|fuel]; [lia|]); cbn [double_loop].
  - replace (2 * (m * 2 ^ (k - 1 - Z.of_nat 0))) with (m * 2 ^ k) by (replace k with (k - 1 - Z.of_nat 0 + 1) at 1 by lia; rewrite pow2_S by lia; lia). rewrite exactly_ok by lia. cbn [bind]. rewrite exp_t_ok by lia. cbn [bind].
    replace ((m * 2 ^ k <? one_f t) && (0 <? e - 1)) with false by lia. do 2 f_equal; lia.
  - replace (2 * (m * 2 ^ (k - 1 - Z.of_nat (S n)))) with (m * 2 ^ (k - 1 - Z.of_nat n)) by (replace (k - 1 - Z.of_nat n) with (k - 1 - Z.of_nat (S n) + 1) by lia; rewrite pow2_S by lia; lia). rewrite exactly_ok by lia. cbn [bind]. rewrite exp_t_ok by lia. cbn [bind].
    pose proof (BL (k - 1 - Z.of_nat n) ltac:(lia)). replace ((m * 2 ^ (k - 1 - Z.of_nat n) <? one_f t) && (0 <? e - 1)) with true by lia. rewrite IH by lia. do 2 f_equal; lia.
Qed.

Lemma mask_spec m : 0 <= m -> Z.land m (sig_mask t) = m mod 2 ^ t_sig_bits t.
Proof using W. destruct W. intros M. unfold sig_mask. rewrite Z.shiftl_1_l. change (2 ^ t_sig_bits t - 1) with (Z.pred (2 ^ t_sig_bits t)). rewrite <- Z.ones_equiv. apply Z.land_ones. lia. Qed.

Lemma portable_normal s e x : 1 <= e < t_special t -> 0 <= x < 2 ^ t_sig_bits t ->
  to_bits_portable t (Finite s (2 ^ t_sig_bits t + x) (e - 1 + lowest t)) = Ok (mkbits x e s).
Proof using W.
  intros E X. pose proof W as [S2 B2 SP RM EX FU]. unfold to_bits_portable. replace (e - 1 + lowest t - lowest t) with (e - 1) by lia. set (m := 2 ^ t_sig_bits t + x).
  assert (M : 2 ^ t_sig_bits t <= m < 2 ^ (t_sig_bits t + 1)) by (rewrite pow2_S by lia; lia). pose proof (pow2_pos (t_sig_bits t) ltac:(lia)) as PS. fold (B t). rewrite exp_t_ok by lia. cbn [bind].
  assert (NZ : m * 2 ^ (e - 1) =? 0 = false) by (apply Z.eqb_neq; pose proof (pow2_pos (e - 1) ltac:(lia)); nia). rewrite NZ. cbn [negb]. rewrite andb_true_r.
  assert (LOOP : (if 2 * one_f t <=? m * 2 ^ (e - 1) then halve_loop (Z.to_nat (2 ^ t_exp_bits t)) t (m * 2 ^ (e - 1)) (B t)
                  else if m * 2 ^ (e - 1) <? one_f t then double_loop (Z.to_nat (2 ^ t_exp_bits t)) t (m * 2 ^ (e - 1)) (B t) else Ok (m * 2 ^ (e - 1), B t)) = Ok (m * 2 ^ (B t - 1), e)).
  { pose proof one_value as OV. pose proof (pow2_pos (B t - 1) ltac:(lia)) as PB. destruct (Z_lt_ge_dec (B t) e) as [L|L].
    - replace (2 * one_f t <=? m * 2 ^ (e - 1)) with true.
      + replace (e - 1) with (B t + Z.of_nat (Z.to_nat (e - 1 - B t))) by lia. rewrite halve_spec by lia. do 2 f_equal. lia.
      + symmetry. apply Z.leb_le. replace (e - 1) with (B t - 1 + 1 + (e - 1 - B t)) by lia. rewrite Z.pow_add_r, pow2_S by lia. rewrite OV. apply scaled; try (apply pow2_pos; lia). lia.
    - replace (2 * one_f t <=? m * 2 ^ (e - 1)) with false.
      + destruct (Z.eq_dec e (B t)) as [->|NE].
        * replace (m * 2 ^ (B t - 1) <? one_f t) with false; [reflexivity|]. symmetry. apply Z.ltb_ge. nia.
        * assert (BL : forall j, 0 <= j < B t - 1 -> m * 2 ^ j < one_f t). { intros j J. rewrite OV. replace (B t - 1) with (j + 1 + (B t - 2 - j)) by lia. rewrite Z.pow_add_r, pow2_S by lia. rewrite pow2_S in M by lia. pose proof (pow2_pos j ltac:(lia)). pose proof (pow2_pos (B t - 2 - j) ltac:(lia)). assert (m * 2 ^ j < 2 * 2 ^ t_sig_bits t * 2 ^ j) by nia. nia. }
          replace (m * 2 ^ (e - 1) <? one_f t) with true by (symmetry; apply Z.ltb_lt; apply BL; lia).
          replace (e - 1) with (B t - 1 - 1 - Z.of_nat (Z.to_nat (B t - 1 - e))) by lia. rewrite double_spec; try lia; auto; try (do 2 f_equal; lia); left; rewrite OV; nia.
      + symmetry. apply Z.leb_gt. rewrite OV. assert (2 ^ (e - 1) <= 2 ^ (B t - 1)) by (apply Z.pow_le_mono_r; lia). rewrite pow2_S in M by lia. pose proof (pow2_pos (e - 1) ltac:(lia)). nia. }
  rewrite LOOP. cbn [bind]. rewrite (proj2 (Z.eqb_neq e 0)) by lia. rewrite <- Z.mul_assoc, <- Z.pow_add_r by lia. rewrite exactly_ok by lia. cbn [bind].
  assert (OV : one_f t = 2 ^ (B t - 1 + t_sig_bits t)) by (unfold one_f; now rewrite lowest_B). rewrite OV, Z.div_mul by (apply Z.pow_nonzero; lia). rewrite mask_spec by lia. do 2 f_equal. unfold m.
  replace (2 ^ t_sig_bits t + x) with (x + 1 * 2 ^ t_sig_bits t) by lia. rewrite Z.mod_add by lia. apply Z.mod_small. lia.
Qed.

Lemma portable_small s x : 0 <= x < 2 ^ t_sig_bits t ->
  to_bits_portable t (Finite s x (lowest t)) = Ok (mkbits x 0 (s && negb (x =? 0))).
Proof using W.
  intros X. pose proof W as [S2 B2 SP RM EX FU]. unfold to_bits_portable. rewrite Z.sub_diag. change (2 ^ 0) with 1. rewrite Z.mul_1_r. fold (B t). rewrite exp_t_ok by lia. cbn [bind]. pose proof one_value as OV. pose proof (pow2_pos (B t - 1) ltac:(lia)) as PB. pose proof (pow2_pos (t_sig_bits t) ltac:(lia)) as PS.
  assert (BL : forall j, 0 <= j < B t -> x * 2 ^ j < one_f t). { intros j J. rewrite OV. assert (2 ^ j <= 2 ^ (B t - 1)) by (apply Z.pow_le_mono_r; lia). pose proof (pow2_pos j ltac:(lia)). nia. }
  pose proof (BL 0 ltac:(lia)) as B0. change (2 ^ 0) with 1 in B0. rewrite Z.mul_1_r in B0. replace (2 * one_f t <=? x) with false by lia. replace (x <? one_f t) with true by lia.
  assert (LOOP : double_loop (Z.to_nat (2 ^ t_exp_bits t)) t (x * 2 ^ (B t - 1 - Z.of_nat (Z.to_nat (B t - 1)))) (B t) = Ok (x * 2 ^ B t, B t - 1 - Z.of_nat (Z.to_nat (B t - 1)))).
  { apply double_spec; auto; try lia. rewrite pow2_S; lia. }
  replace (B t - 1 - Z.of_nat (Z.to_nat (B t - 1))) with 0 in LOOP by lia. change (2 ^ 0) with 1 in LOOP. rewrite Z.mul_1_r in LOOP. rewrite LOOP. cbn [bind Z.eqb].
  rewrite <- Z.mul_assoc, <- Z.pow_add_r by lia. rewrite exactly_ok by (rewrite ?pow2_S; lia). cbn [bind].
  assert (OV2 : one_f t = 2 ^ (B t + (t_sig_bits t - 1))) by (unfold one_f; rewrite lowest_B; f_equal; lia). rewrite OV2, Z.div_mul by (apply Z.pow_nonzero; lia). rewrite mask_spec by lia. do 2 f_equal. apply Z.mod_small. lia.
Qed.
End S.

(** The two versions of the code agree, but for the sign of zero and for the sign and payload of a NaN. *)
Theorem portable_spec t f bits : known t f -> pattern f bits ->
  to_bits_portable t (number_of f bits) =
  Ok (match number_of f bits with
      | NotANumber => mkbits (t_sig_nan t) (t_special t) false
      | Infinite _ => to_bits t bits
      | Finite _ m _ => if m =? 0 then mkbits 0 0 false else to_bits t bits
      end).
Proof.
  intros K P. pose proof (known_sane t f K) as W. rewrite (to_bits_fields t f bits K P).
  assert (SP : t_special t = 2 ^ exponent_bits f - 1 /\ t_sig_bits t = fraction_bits f /\ - bias f = t_exp_origin t) by (destruct K as [(-> & ->)|(-> & ->)]; cbn; lia). destruct SP as (SE & SF & SO).
  assert (FP : 0 <= fraction_of f bits < 2 ^ fraction_bits f /\ 0 <= exponent_of f bits < 2 ^ exponent_bits f) by (unfold fraction_of, exponent_of; destruct K as [(_ & ->)|(_ & ->)]; split; apply Z.mod_pos_bound; cbn [fraction_bits exponent_bits binary32 binary64]; lia).
  destruct FP as (FP & EP). unfold number_of. destruct (Z.eqb_spec (exponent_of f bits) (2 ^ exponent_bits f - 1)) as [E|E].
  - destruct (Z.eqb_spec (fraction_of f bits) 0) as [F0|F0]; [|reflexivity]. cbn [to_bits_portable]. rewrite F0, E, SE. reflexivity.
  - destruct (Z.eqb_spec (exponent_of f bits) 0) as [E0|E0].
    + replace (1 - bias f - fraction_bits f) with (lowest t) by (unfold lowest; lia). rewrite portable_small by (rewrite ?SF; auto). rewrite E0. destruct (Z.eqb_spec (fraction_of f bits) 0) as [->|]; cbn [negb]; [rewrite andb_false_r; reflexivity|rewrite andb_true_r; reflexivity].
    + replace (exponent_of f bits - bias f - fraction_bits f) with (exponent_of f bits - 1 + lowest t) by (unfold lowest; lia). rewrite <- SF in FP |- *. rewrite portable_normal by (auto; lia).
      assert (0 < 2 ^ t_sig_bits t) by lia. rewrite (proj2 (Z.eqb_neq (2 ^ t_sig_bits t + fraction_of f bits) 0)) by lia. reflexivity.
Qed.

Theorem append_portable_spec t f bits ss precision : known t f -> pattern f bits -> wf ss -> (1 <= precision)%nat ->
  exists T, prints (Nat.min precision 19) (plain_zero (number_of f bits)) T /\ appended ss T (append_float_portable t ss (number_of f bits) precision).
Proof.
  intros K P W PP. unfold append_float_portable. rewrite (portable_spec t f bits K P). cbn [bind].
  pose proof (append_float_spec t f bits ss precision K P W PP) as G. unfold append_float in G.
  assert (S : t_special t <> 0 /\ t_sig_nan t <> 0) by (destruct K as [(-> & _)|(-> & _)]; cbn; lia). destruct S as (S1 & S2).
  destruct (number_of f bits) as [|s|s m q].
  - unfold append_float_bits. cbn [bexponent significand]. rewrite (proj2 (Z.eqb_neq _ _) S1), Z.eqb_refl, (proj2 (Z.eqb_neq _ _) S2). eexists. split; [|now apply appended_constexpr]. reflexivity.
  - exact G.
  - destruct (Z.eqb_spec m 0) as [->|NZ].
    + replace (plain_zero (Finite s 0 q)) with (Finite false 0 q) by (destruct s; reflexivity). unfold append_float_bits. cbn [bexponent significand bsign Z.eqb].
      replace (if (precision <=? 19)%nat then precision else 19%nat) with (Nat.min precision 19) by (destruct (Nat.leb_spec precision 19); lia).
      eexists. split; [apply (zero_text false); lia|]. apply appended_seq; [now apply appended_constexpr|]. intros ss1 W1. apply appended_seq; [now apply appended_constexpr|]. intros ss2 W2. now apply appended_constexpr.
    + replace (plain_zero (Finite s m q)) with (Finite s m q) by (destruct s, m; try reflexivity; lia). exact G.
Qed.
