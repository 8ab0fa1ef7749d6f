(** The statements about floating-point numbers, in the form of the properties. *)
From Coq Require Import ZArith NArith QArith Qpower Lqa Lia List ZifyBool ZifyNat ZifyN.
From Verif.Spec Require Import TextSpec NumberSpec FloatSpec.
From Verif.Model Require Import Base Vector StringUtil Integer Fixed FloatText.
From Verif.Proofs Require Import Lists VectorProofs AppendProofs IntegerProofs FixedProofs FloatProofs FloatTextProofs PortableProofs.
Import ListNotations.
Local Open Scope Z_scope.
Ltac Zify.zify_post_hook ::= Z.div_mod_to_equations.

Lemma recombine t f bits : known t f -> pattern f bits ->
  let b := to_bits t bits in
  bits = (if bsign b then 2 ^ (fraction_bits f + exponent_bits f) else 0) + bexponent b * 2 ^ fraction_bits f + significand b /\
  0 <= significand b < 2 ^ fraction_bits f /\ 0 <= bexponent b < 2 ^ exponent_bits f.
Proof.
  intros K P. cbn zeta. rewrite (to_bits_fields t f bits K P). cbn [significand bexponent bsign]. unfold pattern, negative, exponent_of, fraction_of in *.
  assert (F : 0 < 2 ^ fraction_bits f /\ 0 < 2 ^ exponent_bits f /\ 2 ^ (fraction_bits f + exponent_bits f) = 2 ^ fraction_bits f * 2 ^ exponent_bits f /\ 2 ^ (fraction_bits f + exponent_bits f + 1) = 2 * (2 ^ fraction_bits f * 2 ^ exponent_bits f)) by (destruct K as [(_ & ->)|(_ & ->)]; cbn; lia).
  destruct F as (FA & FB & E1 & E2). rewrite E1, E2 in *. clear E1 E2. set (a := 2 ^ fraction_bits f) in *. set (c := 2 ^ exponent_bits f) in *. clearbody a c. split; [|split; apply Z.mod_pos_bound; lia].
  rewrite <- Z.div_div by lia. set (h := bits / a). assert (H : bits = a * h + bits mod a) by (apply Z.div_mod; lia). assert (MB : 0 <= bits mod a < a) by (apply Z.mod_pos_bound; lia).
  assert (HB : 0 <= h < 2 * c) by nia. assert (H2 : h = c * (h / c) + h mod c) by (apply Z.div_mod; lia). assert (0 <= h mod c < c) by (apply Z.mod_pos_bound; lia).
  assert (Q : h / c = 0 \/ h / c = 1) by nia. destruct Q as [Q|Q]; rewrite Q in *; cbn [Z.odd]; nia.
Qed.

Lemma classes t f bits : known t f -> pattern f bits ->
  let b := to_bits t bits in
  match number_of f bits with
  | NotANumber => bexponent b = t_special t /\ significand b <> 0
  | Infinite s => bexponent b = t_special t /\ significand b = 0 /\ bsign b = s
  | Finite s m q => bexponent b <> t_special t /\ bsign b = s /\
      (bexponent b = 0 -> m = significand b /\ q = t_exp_origin t + 1 - t_sig_bits t) /\
      (bexponent b <> 0 -> m = 2 ^ t_sig_bits t + significand b /\ q = bexponent b + t_exp_origin t - t_sig_bits t)
  end.
Proof.
  intros K P. cbn zeta. pose proof (same_value t f bits K P) as SV. rewrite (to_bits_fields t f bits K P) in *. cbn [significand bexponent bsign] in *.
  assert (SE : t_special t = 2 ^ exponent_bits f - 1) by (destruct K as [(-> & ->)|(-> & ->)]; reflexivity).
  destruct (Z.eq_dec (exponent_of f bits) (t_special t)) as [E|E].
  - unfold number_of. rewrite <- SE, (proj2 (Z.eqb_eq _ _) E). destruct (Z.eqb_spec (fraction_of f bits) 0); auto.
  - rewrite (SV E). unfold mantissa, scale. cbn [significand bexponent]. split; auto. split; auto. split; intros H; [rewrite H; auto|rewrite (proj2 (Z.eqb_neq _ _) H); auto].
Qed.

Lemma pos_within err x y : within err x y -> within err y x.
Proof. unfold within. lra. Qed.

Lemma make_forms d e : 0 < d < 2 ^ 64 -> - 2 ^ 31 + 19 <= e < 2 ^ 31 ->
  exists f, make_fixed d e = Ok f /\ (decimal (digits f) (exponent f) == decimal d e)%Q /\ (2 ^ 64 - 1) / 10 <= digits f < 2 ^ 64 /\ e - 19 <= exponent f <= e.
Proof.
  intros D E. destruct (make_fixed_spec d e D E) as (k & K & M & C & U). exists (mkfixed (d * 10 ^ k) (e - k)). cbn [digits exponent]. split; auto. split; [apply decimal_shift; lia|]. fold cap. rewrite cap_value in *. split; [|lia].
  destruct U as [->|U]; [|lia]. change (10 ^ 0) with 1 in *. lia.
Qed.

Definition normal (f : fixed) : Prop := (2 ^ 64 - 1) / 10 <= digits f < 2 ^ 64 - 5 /\ - 2 ^ 29 <= exponent f <= 2 ^ 29.
Lemma add_forms f1 f2 : normal f1 \/ f1 = mkfixed 0 (- 2 ^ 31) -> normal f2 -> exponent f1 <= exponent f2 ->
  exists f, fixed_add f1 f2 = Ok f /\ (2 ^ 64 - 1) / 10 <= digits f < 2 ^ 64 - 5 /\ exponent f2 - 1 <= exponent f <= exponent f2 + 1 /\
  let sum := (decimal (digits f1) (exponent f1) + decimal (digits f2) (exponent f2))%Q in
  within ((6 # 1000000000000000000) * sum) sum (decimal (digits f) (exponent f)).
Proof.
  intros N1 (D2 & E2) LE. assert (U2 : usable f2) by (unfold usable; exact D2). assert (M2 : moderate f2) by (unfold moderate; exact E2).
  assert (H1 : is_zero f1 \/ usable f1 /\ moderate f1 /\ exponent f1 <= exponent f2) by (destruct N1 as [(D1 & E1)| ->]; [right; unfold usable, moderate, cap; auto|left; split; reflexivity]).
  destruct (add_spec f1 f2 H1 U2 M2 _ eq_refl) as (k & K & E & C). destruct (add_value f1 f2 _ H1 U2 M2 E) as (V & U & X). eexists. split; [exact E|]. split; [exact U|]. split; [exact X|]. cbn zeta.
  assert (P1 : (0 <= decimal (digits f1) (exponent f1))%Q) by (destruct N1 as [((D1 & _) & _)| ->]; [apply Qlt_le_weak, decimal_pos; rewrite (cap_value : (2 ^ 64 - 1) / 10 = _) in D1; lia|discriminate]).
  assert (P2 : (p10 (exponent f2 + 1) <= (6 # 1000000000000000000) * decimal (digits f2) (exponent f2))%Q).
  { unfold decimal. fold (p10 (exponent f2)). rewrite p10_shift by lia. change (inject_Z (10 ^ 1)) with 10%Q. assert (inject_Z 1844674407370955161 <= inject_Z (digits f2))%Q by (apply Zle_Q; rewrite (cap_value : (2 ^ 64 - 1) / 10 = _) in D2; lia). change (inject_Z 1844674407370955161) with 1844674407370955161%Q in H. pose proof (p10_pos (exponent f2)). nra. }
  unfold within in *. lra.
Qed.

Lemma mul_forms f1 f2 : normal f1 -> normal f2 ->
  exists f, fixed_mul f1 f2 = Ok f /\ (2 ^ 64 - 1) / 10 <= digits f < 2 ^ 64 - 5 /\ exponent f1 + exponent f2 + 18 <= exponent f <= exponent f1 + exponent f2 + 20 /\
  let product := (decimal (digits f1) (exponent f1) * decimal (digits f2) (exponent f2))%Q in
  within ((45 # 1000000000000000000) * product) product (decimal (digits f) (exponent f)).
Proof.
  intros (D1 & E1) (D2 & E2). destruct (mul_value f1 f2) as (q & k & K & Q & C & -> & V); auto. eexists. split; [reflexivity|]. cbn [digits exponent]. fold cap in *. rewrite cap_value in *. split; [lia|]. split; [lia|]. cbn zeta. unfold within in *. rewrite decimal_shift by lia.
  assert (P : ((1500000001 # 1000000000) * p10 (exponent f1 + exponent f2 + 20) <= (45 # 1000000000000000000) * (decimal (digits f1) (exponent f1) * decimal (digits f2) (exponent f2)))%Q); [|lra].
  rewrite decimal_mult. unfold decimal. fold (p10 (exponent f1 + exponent f2)). rewrite p10_shift by lia. assert (inject_Z 3400000000000000000000000000000000000 <= inject_Z (digits f1 * digits f2))%Q by (apply Zle_Q; apply Z.le_trans with (1844674407370955161 * 1844674407370955161); [vm_compute; discriminate|apply Z.mul_le_mono_nonneg; lia]).
  set (a := inject_Z (digits f1 * digits f2)) in *. clearbody a. pose proof (p10_pos (exponent f1 + exponent f2)) as X. set (x := p10 (exponent f1 + exponent f2)) in *. clearbody x. clear - H X. unfold inject_Z in H. change (inject_Z (10 ^ 20)) with (inject_Z 100000000000000000000). unfold inject_Z. nra.
Qed.

(** The other order. *)
Lemma add_wrong : exists f1 f2 f, normal f1 /\ normal f2 /\ exponent f2 < exponent f1 /\ fixed_add f1 f2 = Ok f /\
  (decimal (digits f1) (exponent f1) == 1 /\ decimal (digits f2) (exponent f2) == 1 # 8 /\ decimal (digits f) (exponent f) == 10125 # 10000)%Q.
Proof.
  exists (mkfixed 10000000000000000000 (-19)), (mkfixed 12500000000000000000 (-20)), (mkfixed 10125000000000000000 (-19)). unfold normal. cbn [digits exponent].
  split; [lia|]. split; [lia|]. split; [lia|]. split; [vm_compute; reflexivity|]. vm_compute. auto.
Qed.
Lemma add_wraps : exists f, make_fixed (2 ^ 64 - 1) 0 = Ok f /\ fixed_add f f = Err Wrap.
Proof. exists (mkfixed 18446744073709551615 0). split; vm_compute; reflexivity. Qed.
Lemma mul_overflows : exists f1 f2, make_fixed 0 0 = Ok f1 /\ make_fixed 5 (-1) = Ok f2 /\ fixed_mul f1 f2 = Err UB.
Proof. exists (mkfixed 0 (-2147483648)), (mkfixed 5000000000000000000 (-19)). repeat split; vm_compute; reflexivity. Qed.

Lemma shape t f bits ss precision : known t f -> pattern f bits -> wf ss -> (1 <= precision)%nat ->
  exists T, match number_of f bits with
            | NotANumber => T = lit "nan"
            | Infinite s => T = (if s then lit "-inf" else lit "inf")
            | Finite s m q => exists d x, scientific (Nat.min precision 19) s d x T /\ (m <> 0 -> 10 ^ (Z.of_nat (Nat.min precision 19) - 1) <= Z.of_N d)
            end /\
  exists ss' b, append_float t ss bits precision = Ok (ss', b) /\ wf ss' /\ vcap ss' = vcap ss /\
    vcontent ss' = firstn (vcap ss) (vcontent ss ++ T) /\ b = (length (vcontent ss ++ T) <=? vcap ss)%nat.
Proof.
  intros K P W PP. destruct (append_float_spec t f bits ss precision K P W PP) as (T & PR & A). exists T. split; [|exact A]. destruct (number_of f bits) as [|s|s m q]; cbn [prints] in PR; [exact PR|destruct s; exact PR|].
  destruct PR as (d & x & SC & Z0 & NZ & _). exists d, x. split; auto. intros H. apply NZ in H. lia.
Qed.

Lemma rounding_forms d e s p n : (1 <= p)%nat -> 0 < d < 2 ^ 64 - 5 -> - 2 ^ 30 <= e <= 2 ^ 30 -> 10 ^ (n - 1) <= d < 10 ^ n -> Z.of_nat p <= n ->
  exists R f, set_precision (mksigned d e s) p = Ok f /\ nearest_even d (n - Z.of_nat p) R /\ s_sign f = s /\
  10 ^ (Z.of_nat p - 1) <= s_digits f < 10 ^ Z.of_nat p /\ (decimal (s_digits f) (s_exponent f) == decimal R (e + (n - Z.of_nat p)))%Q.
Proof.
  intros P D E N L. destruct (set_precision_spec d e s p n) as (R & D' & E' & SP & NE & B & C); auto; [lia|]. exists R, (mksigned D' E' s). split; auto. split; auto. split; auto. cbn [s_digits s_exponent]. split; auto.
  destruct C as [(-> & ->)|(-> & -> & ->)]; [reflexivity|]. set (c := e + (n - Z.of_nat p)). rewrite <- (decimal_shift (10 ^ (Z.of_nat p - 1)) (c + 1) 1) by lia. replace (c + 1 - 1) with c by lia. rewrite <- Z.pow_add_r by lia. replace (Z.of_nat p - 1 + 1) with (Z.of_nat p) by lia. reflexivity.
Qed.

Lemma default_error (x : Z) :
  ((error_bound 7 x <= (501 # 1000) * Qpower 10 (x - 6)) /\ (error_bound 16 x <= (98 # 100) * Qpower 10 (x - 15)))%Q.
Proof.
  unfold error_bound. fold (p10 (x - (Z.of_nat 7 - 1))) (p10 (x - 15)) (p10 (x - 6)) (p10 (x - (Z.of_nat 16 - 1))).
  change (Z.of_nat 7 - 1) with 6. change (Z.of_nat 16 - 1) with 15. pose proof (p10_pos (x - 15)). split; [|lra].
  replace (x - 6) with (x - 15 + 9) by lia. rewrite p10_shift by lia. change (inject_Z (10 ^ 9)) with 1000000000%Q. lra.
Qed.

Lemma run_time ss (txt g1 g2 : str) : wf ss -> (length txt <= 32)%nat -> (vcap ss <= length g1)%nat ->
  exists ss' b, append_float_to_chars ss txt g1 g2 = Ok (ss', b) /\ wf ss' /\ vcap ss' = vcap ss /\
    vcontent ss' = firstn (vcap ss) (vcontent ss ++ txt) /\ b = (length (vcontent ss ++ txt) <=? vcap ss)%nat.
Proof. apply append_to_spec. Qed.
