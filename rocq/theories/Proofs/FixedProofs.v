(** Decimal fixed-point numbers: arithmetic without wrap-around and with bounded error. *)
From Coq Require Import ZArith QArith Qpower Lqa Lia.
From Verif.Model Require Import Base Fixed.
From Verif.Spec Require Import FloatSpec.
Local Open Scope Z_scope.
Ltac Zify.zify_post_hook ::= Z.div_mod_to_equations.

(** ** Powers of ten *)
Definition p10 (e : Z) : Q := Qpower 10 e.
Lemma p10_pos e : (0 < p10 e)%Q.
Proof. unfold p10. apply Qpower_0_lt. reflexivity. Qed.
Lemma p10_plus a b : (p10 (a + b) == p10 a * p10 b)%Q.
Proof. unfold p10. apply Qpower_plus. discriminate. Qed.
Lemma p10_nonneg k : 0 <= k -> (p10 k == inject_Z (10 ^ k))%Q.
Proof.
  intros H. unfold p10. rewrite <- (Z2Nat.id k H). generalize (Z.to_nat k). clear k H. intros k. induction k as [|k IH]; [reflexivity|].
  rewrite Nat2Z.inj_succ. unfold Z.succ. rewrite Qpower_plus by discriminate. rewrite IH. rewrite Z.pow_add_r by lia. rewrite inject_Z_mult. reflexivity.
Qed.
Lemma p10_shift e k : 0 <= k -> (p10 (e + k) == p10 e * inject_Z (10 ^ k))%Q.
Proof. intros H. rewrite p10_plus. rewrite (p10_nonneg k H). reflexivity. Qed.
Lemma p10_le a b : a <= b -> (p10 a <= p10 b)%Q.
Proof.
  intros H. replace b with (a + (b - a)) by lia. rewrite p10_shift by lia. pose proof (p10_pos a).
  assert (1 <= 10 ^ (b - a)) by (apply (Z.pow_le_mono_r 10 0); lia). assert (1 <= inject_Z (10 ^ (b - a)))%Q by (change 1%Q with (inject_Z 1); rewrite <- Zle_Qle; auto). nra.
Qed.
Lemma decimal_shift d e k : 0 <= k -> (decimal (d * 10 ^ k) (e - k) == decimal d e)%Q.
Proof.
  intros H. unfold decimal. fold (p10 (e - k)) (p10 e). replace e with (e - k + k) at 2 by lia. rewrite p10_shift by auto. rewrite inject_Z_mult. ring.
Qed.
Lemma decimal_le a b e : a <= b -> (decimal a e <= decimal b e)%Q.
Proof. intros H. unfold decimal. fold (p10 e). pose proof (p10_pos e). apply Qmult_le_compat_r; [rewrite <- Zle_Qle; auto|apply Qlt_le_weak; auto]. Qed.
Lemma decimal_lt a b e : a < b -> (decimal a e < decimal b e)%Q.
Proof. intros H. unfold decimal. fold (p10 e). pose proof (p10_pos e). apply Qmult_lt_compat_r; auto. rewrite <- Zlt_Qlt; auto. Qed.
Lemma decimal_pos d e : 0 < d -> (0 < decimal d e)%Q.
Proof. intros H. assert (decimal 0 e < decimal d e)%Q by (apply decimal_lt; auto). unfold decimal in *. change (inject_Z 0) with 0%Q in *. lra. Qed.

(** ** Checked arithmetic *)
Lemma u64_ok z : 0 <= z < 2 ^ 64 -> u64 z = Ok z.
Proof. intros H. unfold u64. replace ((0 <=? z) && (z <? 2 ^ 64)) with true; auto. symmetry. apply andb_true_iff. split; [apply Z.leb_le|apply Z.ltb_lt]; lia. Qed.
Lemma i32_ok z : - 2 ^ 31 <= z < 2 ^ 31 -> i32 z = Ok z.
Proof. intros H. unfold i32. replace ((- 2 ^ 31 <=? z) && (z <? 2 ^ 31)) with true; auto. symmetry. apply andb_true_iff. split; [apply Z.leb_le|apply Z.ltb_lt]; lia. Qed.

Lemma cap_value : cap = 1844674407370955161.
Proof. reflexivity. Qed.

(** ** The constructor *)
Lemma normalise_spec n : forall fuel d e, (n <= fuel)%nat -> 0 < d < cap -> cap <= d * 10 ^ Z.of_nat n -> - 2 ^ 31 <= e - Z.of_nat n -> e <= 2 ^ 31 ->
  exists k, 1 <= k <= Z.of_nat n /\ normalise fuel d e = Ok (mkfixed (d * 10 ^ k) (e - k)) /\ cap <= d * 10 ^ k <= 10 * (cap - 1).
Proof.
  induction n as [|n IH]; intros fuel d e F D C E1 E2; [change (10 ^ Z.of_nat 0) with 1 in C; lia|]. destruct fuel as [|fuel]; [lia|]. cbn [normalise].
  rewrite cap_value in *. rewrite u64_ok by lia. cbn [bind]. rewrite i32_ok by lia. cbn [bind]. destruct (Z.ltb_spec (d * 10) 1844674407370955161) as [L|L].
  - destruct (IH fuel (d * 10) (e - 1)) as (k & K & -> & C2); try lia.
    + rewrite Nat2Z.inj_succ in C. unfold Z.succ in C. rewrite Z.pow_add_r in C by lia. lia.
    + exists (k + 1). split; [lia|]. assert (P : d * 10 ^ (k + 1) = d * 10 * 10 ^ k) by (rewrite Z.pow_add_r by lia; ring). rewrite P. split; [do 2 f_equal; lia|lia].
  - exists 1. change (10 ^ 1) with 10. split; [lia|]. split; [auto|lia].
Qed.
Lemma make_fixed_spec d e : 0 < d < 2 ^ 64 -> - 2 ^ 31 + 19 <= e < 2 ^ 31 ->
  exists k, 0 <= k <= 19 /\ make_fixed d e = Ok (mkfixed (d * 10 ^ k) (e - k)) /\ cap <= d * 10 ^ k /\ (k = 0 \/ d * 10 ^ k <= 10 * (cap - 1)).
Proof.
  intros D E. unfold make_fixed. rewrite (proj2 (Z.ltb_lt 0 d)) by lia. destruct (Z.ltb_spec d cap) as [L|L].
  - destruct (normalise_spec 19 fixed_fuel d e) as (k & K & -> & C); try lia.
    + unfold fixed_fuel. lia.
    + rewrite cap_value. change (10 ^ Z.of_nat 19) with 10000000000000000000. lia.
    + exists k. split; [lia|]. split; auto. lia.
  - exists 0. rewrite Z.mul_1_r, Z.sub_0_r. split; [lia|]. split; auto.
Qed.
(** How many digits are added to a number known from below. *)
Lemma few_digits d k n : 0 <= k -> 0 <= n -> 0 < d -> d * 10 ^ k <= 10 * (cap - 1) -> 10 * (cap - 1) < d * 10 ^ (n + 1) -> k <= n.
Proof.
  intros K N D A B. destruct (Z_le_gt_dec k n) as [L|L]; auto. exfalso. assert (10 ^ (n + 1) <= 10 ^ k) by (apply Z.pow_le_mono_r; lia). nia.
Qed.

(** ** Raising the exponent *)
Definition rounded (d k : Z) : Z := (d + 5 * 10 ^ (k - 1)) / 10 ^ k.
Lemma rounded_1 d : rounded d 1 = (d + 5) / 10.
Proof. reflexivity. Qed.
Lemma pow10_step k : 1 <= k -> 10 ^ k = 10 * 10 ^ (k - 1).
Proof. intros H. replace k with (1 + (k - 1)) at 1 by lia. rewrite Z.pow_add_r by lia. reflexivity. Qed.
Lemma rounded_step d k : 2 <= k -> rounded (d / 10) (k - 1) = rounded d k.
Proof.
  intros H. unfold rounded. rewrite (pow10_step k) by lia. assert (P : 0 < 10 ^ (k - 1)) by (apply Z.pow_pos_nonneg; lia). rewrite <- Z.div_div by lia.
  f_equal. rewrite (pow10_step (k - 1)) by lia. set (q := 10 ^ (k - 1 - 1)). replace (d + 5 * (10 * q)) with (d + 5 * q * 10) by ring. now rewrite Z.div_add by lia.
Qed.
Lemma rounded_small d k : 1 <= k -> 0 <= d < 10 ^ (k - 1) -> rounded d k = 0.
Proof. intros H D. unfold rounded. apply Z.div_small. rewrite (pow10_step k) by lia. lia. Qed.
Lemma rounded_error d k : 1 <= k -> 0 <= d -> 2 * d - 10 ^ k <= 2 * (10 ^ k * rounded d k) <= 2 * d + 10 ^ k.
Proof.
  intros H D. unfold rounded. pose proof (pow10_step k H) as E. assert (P : 0 < 10 ^ (k - 1)) by (apply Z.pow_pos_nonneg; lia). set (a := 10 ^ k) in *. set (b := 10 ^ (k - 1)) in *. clearbody a b.
  pose proof (Z.div_mod (d + 5 * b) a ltac:(lia)) as M. pose proof (Z.mod_pos_bound (d + 5 * b) a ltac:(lia)) as B. set (q := (d + 5 * b) / a) in *. clearbody q.
  set (r := (d + 5 * b) mod a) in *. clearbody r. lia.
Qed.
Lemma rounded_nonneg d k : 1 <= k -> 0 <= d -> 0 <= rounded d k.
Proof. intros H D. unfold rounded. apply Z.div_pos; [|apply Z.pow_pos_nonneg; lia]. assert (0 <= 10 ^ (k - 1)) by (apply Z.pow_nonneg; lia). lia. Qed.
Lemma rounded_bound d k : 1 <= k -> 0 <= d -> rounded d k <= (d + 5) / 10.
Proof.
  intros H D. unfold rounded. rewrite (pow10_step k) by lia. assert (P : 0 < 10 ^ (k - 1)) by (apply Z.pow_pos_nonneg; lia). rewrite (Z.mul_comm 10), <- Z.div_div by lia.
  apply Z.div_le_mono; [lia|]. rewrite Z.div_add by lia. assert (d / 10 ^ (k - 1) <= d) by (apply Z.div_le_upper_bound; nia). lia.
Qed.

Lemma raise_to_spec n : forall fuel f new, (n < fuel)%nat -> 0 <= digits f < 10 ^ Z.of_nat n -> digits f < 2 ^ 64 - 5 -> exponent f < new -> - 2 ^ 31 < new < 2 ^ 31 -> - 2 ^ 31 <= exponent f ->
  raise_exponent_to fuel f new = Ok (mkfixed (rounded (digits f) (new - exponent f)) new).
Proof.
  induction n as [|n IH]; intros fuel [d e] new F D D2 E N E2; cbn [digits exponent] in *; (destruct fuel as [|fuel]; [lia|]); cbn [raise_exponent_to digits exponent].
  - assert (d = 0) as -> by (cbn in D; lia). cbn [Z.eqb bind exponent]. rewrite Z.ltb_irrefl. rewrite rounded_small; auto; [lia|]. split; [lia|]. apply Z.pow_pos_nonneg; lia.
  - destruct (Z.eqb_spec d 0) as [->|NZ]; cbn [bind exponent].
    { rewrite Z.ltb_irrefl. rewrite rounded_small; auto; [lia|]. split; [lia|]. apply Z.pow_pos_nonneg; lia. }
    rewrite i32_ok by lia. cbn [bind]. destruct (Z.ltb_spec e (new - 1)) as [L|L].
    + rewrite i32_ok by lia. cbn [bind exponent]. rewrite (proj2 (Z.ltb_lt (e + 1) new)) by lia. rewrite IH; cbn [digits exponent]; try lia.
      * do 2 f_equal. rewrite <- (rounded_step d (new - e)) by lia. f_equal. lia.
      * rewrite Nat2Z.inj_succ, Z.pow_succ_r in D by lia. lia.
    + rewrite u64_ok by lia. cbn [bind]. rewrite i32_ok by lia. cbn [bind exponent]. rewrite (proj2 (Z.ltb_ge (e + 1) new)) by lia.
      assert (new = e + 1) as -> by lia. replace (e + 1 - e) with 1 by lia. now rewrite rounded_1.
Qed.
Lemma raise_spec f : 0 <= digits f < 2 ^ 64 - 5 -> - 2 ^ 31 <= exponent f < 2 ^ 31 - 1 -> raise_exponent f = Ok (mkfixed ((digits f + 5) / 10) (exponent f + 1)).
Proof. intros D E. unfold raise_exponent. rewrite u64_ok by lia. cbn [bind]. rewrite i32_ok by lia. reflexivity. Qed.

(** ** Sums *)
(** The number of the fixed-point numbers of the theorems: normalised and small enough for rounding. *)
Definition is_zero (f : fixed) : Prop := digits f = 0 /\ exponent f = - 2 ^ 31.
Definition usable (f : fixed) : Prop := cap <= digits f < 2 ^ 64 - 5.
Definition moderate (f : fixed) : Prop := - 2 ^ 29 <= exponent f <= 2 ^ 29.

Lemma add_spec f1 f2 : is_zero f1 \/ usable f1 /\ moderate f1 /\ exponent f1 <= exponent f2 -> usable f2 -> moderate f2 ->
  forall s, s = (if digits f1 =? 0 then 0 else rounded (digits f1) (exponent f2 + 1 - exponent f1)) + (digits f2 + 5) / 10 ->
  exists k, 0 <= k <= 2 /\ fixed_add f1 f2 = Ok (mkfixed (s * 10 ^ k) (exponent f2 + 1 - k)) /\ cap <= s * 10 ^ k <= 10 * (cap - 1).
Proof.
  intros H1 H2 M2. unfold usable, moderate, is_zero in *. destruct f1 as [d1 e1], f2 as [d2 e2]. cbn [digits exponent] in *. intros s HS. rewrite cap_value in *.
  assert (S1 : 0 <= (if d1 =? 0 then 0 else rounded d1 (e2 + 1 - e1)) <= 1844674407370955161).
  { destruct (Z.eqb_spec d1 0); [lia|]. split; [apply rounded_nonneg; lia|]. etransitivity; [apply rounded_bound; lia|]. lia. }
  assert (SB : 184467440737095516 <= s <= 3689348814741910322) by (rewrite HS; lia).
  assert (MK : forall e, - 2 ^ 31 + 19 <= e < 2 ^ 31 -> exists k, 0 <= k <= 2 /\ make_fixed s e = Ok (mkfixed (s * 10 ^ k) (e - k)) /\ 1844674407370955161 <= s * 10 ^ k <= 10 * (1844674407370955161 - 1)).
  { intros e E. destruct (make_fixed_spec s e) as (k & K & -> & C & C2); [lia|lia|]. rewrite cap_value in *. exists k. split; [|split; auto].
    - destruct C2 as [->|C2]; [lia|]. split; [lia|]. apply (few_digits s); rewrite ?cap_value; lia.
    - destruct C2 as [->|C2]; [|lia]. change (10 ^ 0) with 1 in *. lia. }
  assert (RT : e1 < e2 -> raise_exponent_to fixed_fuel (mkfixed d1 e1) (e2 + 1) = Ok (mkfixed (if d1 =? 0 then 0 else rounded d1 (e2 + 1 - e1)) (e2 + 1))).
  { intros L. rewrite (raise_to_spec 20); cbn [digits exponent]; try lia; try (unfold fixed_fuel; lia).
    destruct (Z.eqb_spec d1 0) as [->|]; auto. rewrite rounded_small; auto; [lia|]. split; [lia|]. apply Z.pow_pos_nonneg; lia. }
  unfold fixed_add. cbn [digits exponent]. rewrite (proj2 (Z.ltb_ge e2 e1)) by lia. destruct (Z.ltb_spec e1 e2) as [L|L].
  - rewrite i32_ok by lia. cbn [bind]. rewrite RT by lia. cbn [bind]. rewrite raise_spec by (cbn [digits exponent]; lia). cbn [bind digits exponent]. rewrite <- HS. rewrite u64_ok by lia. cbn [bind].
    apply MK. lia.
  - assert (e1 = e2) as -> by lia. rewrite !raise_spec by (cbn [digits exponent]; lia). cbn [bind digits exponent].
    assert (s = (d1 + 5) / 10 + (d2 + 5) / 10) as <-.
    { rewrite HS. destruct (Z.eqb_spec d1 0) as [->|]; [reflexivity|]. replace (e2 + 1 - e2) with 1 by lia. now rewrite rounded_1. }
    rewrite u64_ok by lia. cbn [bind]. apply MK. lia.
Qed.

(** In value: the error is at most one unit of the last digit before normalisation. *)
Lemma rounded_value d e k : 1 <= k -> 0 <= d -> within ((1 # 2) * p10 (e + k)) (decimal d e) (decimal (rounded d k) (e + k)).
Proof.
  intros K D. pose proof (rounded_error d k K D) as B. unfold within, decimal. fold (p10 e) (p10 (e + k)). rewrite p10_shift by lia. pose proof (p10_pos e) as P.
  set (x := p10 e) in *. clearbody x. set (r := rounded d k) in *. clearbody r. set (t := 10 ^ k) in *. clearbody t.
  assert (B1 : (2 * inject_Z d - inject_Z t <= 2 * (inject_Z t * inject_Z r))%Q).
  { destruct B as [B _]. rewrite Zle_Qle in B. rewrite ?inject_Z_mult, ?inject_Z_plus in B. unfold Z.sub in B. rewrite inject_Z_plus, inject_Z_opp, ?inject_Z_mult in B. change (inject_Z 2) with 2%Q in B. lra. }
  assert (B2 : (2 * (inject_Z t * inject_Z r) <= 2 * inject_Z d + inject_Z t)%Q).
  { destruct B as [_ B]. rewrite Zle_Qle in B. rewrite ?inject_Z_plus, ?inject_Z_mult in B. change (inject_Z 2) with 2%Q in B. lra. }
  set (dd := inject_Z d) in *. set (rr := inject_Z r) in *. set (tt := inject_Z t) in *. clearbody dd rr tt. clear B.
  split; nra.
Qed.

Lemma add_value f1 f2 f : is_zero f1 \/ usable f1 /\ moderate f1 /\ exponent f1 <= exponent f2 -> usable f2 -> moderate f2 -> fixed_add f1 f2 = Ok f ->
  within (p10 (exponent f2 + 1)) (decimal (digits f1) (exponent f1) + decimal (digits f2) (exponent f2)) (decimal (digits f) (exponent f)) /\
  usable f /\ exponent f2 - 1 <= exponent f <= exponent f2 + 1.
Proof.
  intros H1 H2 M2 E. destruct (add_spec f1 f2 H1 H2 M2 _ eq_refl) as (k & K & E' & C). rewrite E in E'. injection E' as ->. cbn [digits exponent]. rewrite cap_value in *.
  set (s := (if digits f1 =? 0 then 0 else rounded (digits f1) (exponent f2 + 1 - exponent f1)) + (digits f2 + 5) / 10) in *.
  split; [|split; [split; cbn [digits]; rewrite ?cap_value; lia|lia]].
  unfold within. rewrite decimal_shift by lia.
  assert (A : within ((1 # 2) * p10 (exponent f2 + 1)) (decimal (digits f2) (exponent f2)) (decimal ((digits f2 + 5) / 10) (exponent f2 + 1))).
  { rewrite <- rounded_1. apply rounded_value; [lia|]. unfold usable in H2. rewrite cap_value in H2. lia. }
  assert (B : within ((1 # 2) * p10 (exponent f2 + 1)) (decimal (digits f1) (exponent f1)) (decimal (if digits f1 =? 0 then 0 else rounded (digits f1) (exponent f2 + 1 - exponent f1)) (exponent f2 + 1))).
  { destruct (Z.eqb_spec (digits f1) 0) as [Z|NZ].
    - rewrite Z. unfold decimal, within. change (inject_Z 0) with 0%Q. pose proof (p10_pos (exponent f2 + 1)). lra.
    - destruct H1 as [H1|(H1 & M1 & L)]; [destruct H1; contradiction|]. pose proof (rounded_value (digits f1) (exponent f1) (exponent f2 + 1 - exponent f1)) as R.
      replace (exponent f1 + (exponent f2 + 1 - exponent f1)) with (exponent f2 + 1) in R by lia. apply R; [lia|]. unfold usable in H1. rewrite cap_value in H1. lia. }
  assert (S : (decimal s (exponent f2 + 1) == decimal (if digits f1 =? 0 then 0 else rounded (digits f1) (exponent f2 + 1 - exponent f1)) (exponent f2 + 1) + decimal ((digits f2 + 5) / 10) (exponent f2 + 1))%Q).
  { unfold s, decimal. rewrite inject_Z_plus. ring. }
  rewrite S. destruct A as [A1 A2], B as [B1 B2]. split; lra.
Qed.

(** ** Products *)
Definition product (d1 d2 : Z) : Z :=
  d1 / 10000000000 * (d2 / 10000000000) +
  ((d1 mod 10000000000 * (d2 / 10000000000) + 5) / 10 + (d2 mod 10000000000 * (d1 / 10000000000) + 5) / 10 + 500000000) / 1000000000.

Lemma product_error d1 d2 : 0 <= d1 -> 0 <= d2 ->
  d1 * d2 - 150000000100000000000 <= product d1 d2 * 100000000000000000000 <= d1 * d2 + 50000000100000000000.
Proof.
  intros D1 D2. unfold product.
  pose proof (Z.div_mod d1 10000000000 ltac:(lia)) as E1. pose proof (Z.mod_pos_bound d1 10000000000 ltac:(lia)) as B1.
  pose proof (Z.div_mod d2 10000000000 ltac:(lia)) as E2. pose proof (Z.mod_pos_bound d2 10000000000 ltac:(lia)) as B2.
  set (u1 := d1 / 10000000000) in *. set (l1 := d1 mod 10000000000) in *. set (u2 := d2 / 10000000000) in *. set (l2 := d2 mod 10000000000) in *. clearbody u1 l1 u2 l2.
  assert (C : 0 <= l1 * l2 <= 100000000000000000000) by nia.
  assert (E : d1 * d2 = u1 * u2 * 100000000000000000000 + (l1 * u2 + l2 * u1) * 10000000000 + l1 * l2) by (rewrite E1, E2; ring).
  rewrite E. set (c := l1 * l2) in *. set (a := l1 * u2). set (b := l2 * u1). set (u := u1 * u2). clearbody a b c u. lia.
Qed.
Lemma product_bounds d1 d2 : cap <= d1 < 2 ^ 64 -> cap <= d2 < 2 ^ 64 -> 34028236000000000 <= product d1 d2 < 3402823670000000000.
Proof.
  intros D1 D2. rewrite cap_value in *. pose proof (product_error d1 d2 ltac:(lia) ltac:(lia)) as E. nia.
Qed.
Lemma mul_spec f1 f2 : cap <= digits f1 < 2 ^ 64 -> cap <= digits f2 < 2 ^ 64 -> moderate f1 -> moderate f2 ->
  exists k, 0 <= k <= 2 /\ fixed_mul f1 f2 = Ok (mkfixed (product (digits f1) (digits f2) * 10 ^ k) (exponent f1 + exponent f2 + 20 - k)) /\
    cap <= product (digits f1) (digits f2) * 10 ^ k <= 10 * (cap - 1).
Proof.
  intros D1 D2 M1 M2. pose proof (product_bounds _ _ D1 D2) as PB. unfold moderate in *. destruct f1 as [d1 e1], f2 as [d2 e2]. cbn [digits exponent] in *.
  unfold fixed_mul, unpack10. cbn [digits exponent].
  assert (A : 0 <= d1 / 10000000000 <= 1844674407 /\ 0 <= d2 / 10000000000 <= 1844674407 /\ 0 <= d1 mod 10000000000 < 10000000000 /\ 0 <= d2 mod 10000000000 < 10000000000) by (rewrite cap_value in *; lia).
  unfold product in *. set (u1 := d1 / 10000000000) in *. set (l1 := d1 mod 10000000000) in *. set (u2 := d2 / 10000000000) in *. set (l2 := d2 mod 10000000000) in *. clearbody u1 l1 u2 l2.
  destruct A as (A1 & A2 & A3 & A4). assert (B1 : 0 <= l1 * u2 <= 18446744068155325593) by nia. assert (B2 : 0 <= l2 * u1 <= 18446744068155325593) by nia. assert (B3 : 0 <= u1 * u2 <= 3402823667840801649) by nia.
  set (a := l1 * u2) in *. set (b := l2 * u1) in *. set (u := u1 * u2) in *. clearbody a b u.
  rewrite u64_ok by lia. cbn [bind]. rewrite u64_ok by lia. cbn [bind]. rewrite u64_ok by lia. cbn [bind]. rewrite u64_ok by lia. cbn [bind]. rewrite u64_ok by lia. cbn [bind].
  rewrite u64_ok by lia. cbn [bind]. rewrite u64_ok by lia. cbn [bind]. rewrite u64_ok by lia. cbn [bind]. rewrite i32_ok by lia. cbn [bind]. rewrite i32_ok by lia. cbn [bind].
  set (q := u + ((a + 5) / 10 + (b + 5) / 10 + 500000000) / 1000000000) in *. clearbody q.
  destruct (make_fixed_spec q (e1 + e2 + 20)) as (k & K & -> & C & C2); [lia|lia|]. rewrite cap_value in *. exists k.
  assert (C3 : q * 10 ^ k <= 10 * (1844674407370955161 - 1)) by (destruct C2 as [->|C2]; [change (10 ^ 0) with 1 in *|]; lia).
  split; [|split; auto]. split; [lia|]. apply (few_digits q); rewrite ?cap_value; lia.
Qed.

Lemma decimal_mult d1 e1 d2 e2 : (decimal d1 e1 * decimal d2 e2 == decimal (d1 * d2) (e1 + e2))%Q.
Proof. unfold decimal. fold (p10 e1) (p10 e2) (p10 (e1 + e2)). rewrite p10_plus, inject_Z_mult. ring. Qed.
Lemma mul_value f1 f2 : usable f1 -> usable f2 -> moderate f1 -> moderate f2 ->
  exists q k, 0 <= k <= 2 /\ 34028236000000000 <= q /\ cap <= q * 10 ^ k <= 10 * (cap - 1) /\ fixed_mul f1 f2 = Ok (mkfixed (q * 10 ^ k) (exponent f1 + exponent f2 + 20 - k)) /\
    within ((1500000001 # 1000000000) * p10 (exponent f1 + exponent f2 + 20)) (decimal (digits f1) (exponent f1) * decimal (digits f2) (exponent f2)) (decimal q (exponent f1 + exponent f2 + 20)).
Proof.
  unfold usable. intros U1 U2 M1 M2. destruct (mul_spec f1 f2) as (k & K & E & C); auto; try lia. exists (product (digits f1) (digits f2)), k. split; auto.
  assert (PB := product_bounds (digits f1) (digits f2) ltac:(lia) ltac:(lia)). split; [lia|]. split; auto. split; auto. unfold within. rewrite decimal_mult.
  assert (P := product_error (digits f1) (digits f2)). rewrite cap_value in *. specialize (P ltac:(lia) ltac:(lia)). clear - P. set (q := product _ _) in *. clearbody q. set (d := digits f1 * digits f2) in *. clearbody d.
  set (e := exponent f1 + exponent f2). clearbody e. unfold decimal. fold (p10 e) (p10 (e + 20)). rewrite p10_shift by lia. pose proof (p10_pos e) as X. set (x := p10 e) in *. clearbody x.
  assert (P1 : (inject_Z d - 150000000100000000000 <= inject_Z q * 100000000000000000000)%Q).
  { destruct P as [P _]. rewrite Zle_Qle in P. unfold Z.sub in P. rewrite inject_Z_plus, inject_Z_mult in P. exact P. }
  assert (P2 : (inject_Z q * 100000000000000000000 <= inject_Z d + 50000000100000000000)%Q).
  { destruct P as [_ P]. rewrite Zle_Qle in P. rewrite inject_Z_plus, inject_Z_mult in P. exact P. }
  set (dd := inject_Z d) in *. set (qq := inject_Z q) in *. clearbody dd qq. clear P. change (inject_Z (10 ^ 20)) with 100000000000000000000%Q. split; nra.
Qed.
