(** The conversion of floating-point numbers to decimal fixed-point numbers, with its error. *)
From Coq Require Import ZArith QArith Qpower Lqa Lia List.
From Verif.Model Require Import Base Fixed.
From Verif.Spec Require Import FloatSpec.
From Verif.Proofs Require Import FixedProofs.
Import ListNotations.
Local Open Scope Z_scope.
Ltac Zify.zify_post_hook ::= Z.div_mod_to_equations.

(** ** Powers of two *)
Definition p2 (q : Z) : Q := Qpower 2 q.
Lemma p2_pos q : (0 < p2 q)%Q.
Proof. unfold p2. apply Qpower_0_lt. reflexivity. Qed.
Lemma p2_plus a b : (p2 (a + b) == p2 a * p2 b)%Q.
Proof. unfold p2. apply Qpower_plus. discriminate. Qed.
Lemma p2_nonneg k : 0 <= k -> (p2 k == inject_Z (2 ^ k))%Q.
Proof.
  intros H. unfold p2. rewrite <- (Z2Nat.id k H). generalize (Z.to_nat k). clear k H. intros k. induction k as [|k IH]; [reflexivity|].
  rewrite Nat2Z.inj_succ. unfold Z.succ. rewrite Qpower_plus by discriminate. rewrite IH. rewrite Z.pow_add_r by lia. rewrite inject_Z_mult. reflexivity.
Qed.

(** ** Comparison of d * 10^e with 2^q by integers *)
Definition tens (n : nat) : list Z := let fix go n acc := match n with O => [] | S n' => acc :: go n' (10 * acc) end in go n 1.
Lemma tens_nth n i : (i < n)%nat -> nth i (tens n) 0 = 10 ^ Z.of_nat i.
Proof.
  unfold tens. set (go := fix go n acc := match n with O => [] | S n' => acc :: go n' (10 * acc) end).
  assert (G : forall n i acc, (i < n)%nat -> nth i (go n acc) 0 = acc * 10 ^ Z.of_nat i).
  { clear. induction n as [|n IH]; intros i acc L; [lia|]. destruct i as [|i]; cbn [go nth]; [change (10 ^ Z.of_nat 0) with 1; lia|]. fold go. rewrite IH by lia.
    rewrite Nat2Z.inj_succ, Z.pow_succ_r by lia. ring. }
  intros L. rewrite G by auto. lia.
Qed.
Definition close (t : list Z) (K d e q : Z) : bool :=
  let X := Z.shiftl (nth (Z.to_nat (Z.max e 0)) t 0) (Z.max (- q) 0) in
  let Y := Z.shiftl (nth (Z.to_nat (Z.max (- e) 0)) t 0) (Z.max q 0) in
  K * Z.abs (d * X - Y) <=? Y.
Lemma close_spec n K d e q : close (tens n) K d e q = true -> Z.abs e < Z.of_nat n -> 0 < K ->
  (- p2 q <= inject_Z K * (decimal d e - p2 q) <= p2 q)%Q.
Proof.
  intros C N KP. unfold close in C. rewrite !tens_nth in C by lia. rewrite !Z.shiftl_mul_pow2 in C by lia. rewrite !Z2Nat.id in C by lia. apply Z.leb_le in C.
  set (w := (p10 (Z.min e 0) * p2 (Z.min q 0))%Q). assert (W : (0 < w)%Q) by (unfold w; pose proof (p10_pos (Z.min e 0)); pose proof (p2_pos (Z.min q 0)); nra).
  assert (I10 : (p10 (Z.min e 0) * p10 (Z.max (- e) 0) == 1)%Q).
  { rewrite <- p10_plus. replace (Z.min e 0 + Z.max (- e) 0) with 0 by lia. reflexivity. }
  assert (I2 : (p2 (Z.min q 0) * p2 (Z.max (- q) 0) == 1)%Q).
  { rewrite <- p2_plus. replace (Z.min q 0 + Z.max (- q) 0) with 0 by lia. reflexivity. }
  assert (X : (p10 e == inject_Z (10 ^ Z.max e 0 * 2 ^ Z.max (- q) 0) * w)%Q).
  { replace e with (Z.max e 0 + Z.min e 0) at 1 by lia. rewrite inject_Z_mult, <- p10_nonneg, <- p2_nonneg by lia. rewrite p10_plus. unfold w.
    transitivity (p10 (Z.max e 0) * p10 (Z.min e 0) * (p2 (Z.min q 0) * p2 (Z.max (- q) 0)))%Q; [rewrite I2|]; ring. }
  assert (Y : (p2 q == inject_Z (10 ^ Z.max (- e) 0 * 2 ^ Z.max q 0) * w)%Q).
  { replace q with (Z.max q 0 + Z.min q 0) at 1 by lia. rewrite inject_Z_mult, <- p10_nonneg, <- p2_nonneg by lia. rewrite p2_plus. unfold w.
    transitivity (p2 (Z.max q 0) * p2 (Z.min q 0) * (p10 (Z.min e 0) * p10 (Z.max (- e) 0)))%Q; [rewrite I10|]; ring. }
  set (x := 10 ^ Z.max e 0 * 2 ^ Z.max (- q) 0) in *. set (y := 10 ^ Z.max (- e) 0 * 2 ^ Z.max q 0) in *. clearbody x y w. unfold decimal. fold (p10 e). rewrite X, Y. clear X Y I10 I2.
  assert (C1 : - y <= K * (d * x - y) <= y) by (destruct (Z.abs_spec (d * x - y)) as [[_ E]|[_ E]]; rewrite E in C; nia).
  destruct C1 as [C1 C2]. rewrite Zle_Qle in C1, C2. unfold Z.sub in C1, C2. rewrite ?inject_Z_opp, ?inject_Z_mult, ?inject_Z_plus, ?inject_Z_opp, ?inject_Z_mult in C1, C2.
  set (dd := inject_Z d) in *. set (xx := inject_Z x) in *. set (yy := inject_Z y) in *. set (kk := inject_Z K) in *. clearbody dd xx yy kk. split; nra.
Qed.

(** ** Adding a power of two to the sum of smaller ones *)
Definition eps : Q := 6 # 1000000000000000000.
Definition accurate (f : fixed) (m : Z) (u : Q) : Prop :=
  m = 0 /\ is_zero f \/
  0 < m /\ usable f /\ -100 <= exponent f <= 100 /\ within (eps * (inject_Z m * u)) (inject_Z m * u) (decimal (digits f) (exponent f)).
Definition element_of (x : fixed) (w : Z) (u : Q) : Prop :=
  cap <= digits x <= 10 * (cap - 1) /\ -60 <= exponent x <= 0 /\
  (- (inject_Z w * u) <= 2000000000000000000 * (decimal (digits x) (exponent x) - inject_Z w * u) <= inject_Z w * u)%Q.

Lemma Zle_Q a b : a <= b -> (inject_Z a <= inject_Z b)%Q.
Proof. intros H. now rewrite <- Zle_Qle. Qed.

Lemma add_step f x m w u : (0 < u)%Q -> 0 <= m < w -> w <= 2 ^ 52 -> accurate f m u -> element_of x w u ->
  exists f', fixed_add f x = Ok f' /\ accurate f' (m + w) u.
Proof.
  intros U M W A (XD & XE & XV). set (a := p10 (exponent x)). assert (AP : (0 < a)%Q) by apply p10_pos.
  assert (AX : (1844674407370955161 * a <= decimal (digits x) (exponent x))%Q).
  { unfold decimal. fold (p10 (exponent x)). fold a. rewrite cap_value in XD. apply Qmult_le_compat_r; [|lra]. change 1844674407370955161%Q with (inject_Z 1844674407370955161). apply Zle_Q. lia. }
  assert (AX2 : (decimal (digits x) (exponent x) < 18446744073709551610 * a)%Q).
  { unfold decimal. fold (p10 (exponent x)). fold a. rewrite cap_value in XD. apply Qmult_lt_compat_r; [auto|]. change 18446744073709551610%Q with (inject_Z 18446744073709551610). rewrite <- Zlt_Qlt. lia. }
  assert (MW : (inject_Z m * u + u <= inject_Z w * u)%Q).
  { assert (m + 1 <= w) by lia. apply Zle_Q in H. rewrite inject_Z_plus in H. change (inject_Z 1) with 1%Q in H. nra. }
  assert (WU : (inject_Z w * u <= 4503599627370496 * u)%Q).
  { apply Qmult_le_compat_r; [|lra]. change 4503599627370496%Q with (inject_Z (2 ^ 52)). now apply Zle_Q. }
  assert (MU : (0 <= inject_Z m * u)%Q). { assert (inject_Z 0 <= inject_Z m)%Q by (apply Zle_Q; lia). change (inject_Z 0) with 0%Q in H. nra. }
  assert (MX : moderate x) by (unfold moderate; lia). assert (UX : usable x) by (unfold usable; rewrite cap_value in *; lia).
  assert (P1 : (p10 (exponent x + 1) == 10 * a)%Q) by (rewrite p10_shift by lia; unfold a; change (inject_Z (10 ^ 1)) with 10%Q; ring).
  assert (C : is_zero f \/ usable f /\ moderate f /\ exponent f <= exponent x).
  { destruct A as [(-> & Z0)|(MP & UF & EF & V)]; [now left|right]. split; auto. split; [unfold moderate; lia|].
    destruct (Z_le_gt_dec (exponent f) (exponent x)) as [L|L]; auto. exfalso.
    assert (F1 : (p10 (exponent x + 1) <= p10 (exponent f))%Q) by (apply p10_le; lia).
    assert (F2 : (1844674407370955161 * p10 (exponent f) <= decimal (digits f) (exponent f))%Q).
    { unfold decimal. fold (p10 (exponent f)). unfold usable in UF. rewrite cap_value in UF. apply Qmult_le_compat_r; [|apply Qlt_le_weak, p10_pos].
      change 1844674407370955161%Q with (inject_Z 1844674407370955161). apply Zle_Q. lia. }
    destruct V as [_ V]. unfold eps in V. set (mu := (inject_Z m * u)%Q) in *. set (wu := (inject_Z w * u)%Q) in *. clearbody mu wu a. lra. }
  destruct (add_spec f x C UX MX _ eq_refl) as (k & K & E & _). eexists. split; [exact E|]. right. destruct (add_value _ _ _ C UX MX E) as (V & UF & EF).
  split; [lia|]. split; auto. split; [lia|]. rewrite inject_Z_plus. unfold within in *. rewrite P1 in V.
  assert (A' : within (eps * (inject_Z m * u)) (inject_Z m * u) (decimal (digits f) (exponent f))).
  { destruct A as [(-> & Z0 & _)|(MP & _ & _ & V')]; [|exact V']. rewrite Z0. unfold within, decimal, eps. change (inject_Z 0) with 0%Q. lra. }
  unfold within in A'. unfold eps in *. set (v := decimal (digits f) (exponent f)) in *. set (dx := decimal (digits x) (exponent x)) in *.
  match goal with |- (_ <= ?y)%Q /\ _ => set (v' := y) in * end. clearbody v dx v'. clear - V A' XV AX AP MU MW U.
  setoid_replace ((inject_Z m + inject_Z w) * u)%Q with (inject_Z m * u + inject_Z w * u)%Q by ring. set (mu := (inject_Z m * u)%Q) in *. set (wu := (inject_Z w * u)%Q) in *. clearbody mu wu. lra.
Qed.

(** ** The sum *)
Definition elements_ok (sig : Z) (l : list (Z * Z)) : Prop :=
  forall i, 0 <= i < sig -> exists x, element l (Z.to_nat i) = Ok x /\ element_of x (2 ^ i) (p2 (- sig)).
Definition element_check (t : list Z) (sig : Z) (l : list (Z * Z)) (i : nat) : bool :=
  match element l i with
  | Ok x => (cap <=? digits x) && (digits x <=? 10 * (cap - 1)) && (-60 <=? exponent x) && (exponent x <=? 0) && close t 2000000000000000000 (digits x) (exponent x) (Z.of_nat i - sig)
  | Err _ => false
  end.
Lemma element_check_ok sig l i : 0 <= i -> element_check (tens 70) sig l (Z.to_nat i) = true -> exists x, element l (Z.to_nat i) = Ok x /\ element_of x (2 ^ i) (p2 (- sig)).
Proof.
  intros I. unfold element_check. destruct (element l (Z.to_nat i)) as [x|]; [|discriminate]. rewrite !andb_true_iff, !Z.leb_le. intros ((((A & B) & C) & D) & E).
  exists x. split; auto. split; [lia|]. split; [lia|]. apply close_spec in E; [|lia|lia]. rewrite Z2Nat.id in E by lia.
  assert (P : (p2 (i - sig) == inject_Z (2 ^ i) * p2 (- sig))%Q) by (rewrite <- p2_nonneg by lia; rewrite <- p2_plus; reflexivity). rewrite P in E. exact E.
Qed.
Lemma elements_check sig l : forallb (element_check (tens 70) sig l) (seq 0 (Z.to_nat sig)) = true -> elements_ok sig l.
Proof.
  intros H i I. rewrite forallb_forall in H. apply element_check_ok; [lia|]. apply H. apply in_seq. lia.
Qed.
Lemma float_elements_ok : elements_ok 23 float_elems.
Proof. apply elements_check. vm_compute. reflexivity. Qed.
Lemma double_elements_ok : elements_ok 52 double_elems.
Proof. apply elements_check. vm_compute. reflexivity. Qed.

Lemma bit_test s i : 0 <= i -> (Z.land s (Z.shiftl 1 i) =? 0) = negb (Z.testbit s i).
Proof.
  intros I. rewrite Z.shiftl_1_l. destruct (Z.testbit s i) eqn:T; cbn [negb].
  - apply Z.eqb_neq. intros E. assert (F : Z.testbit (Z.land s (2 ^ i)) i = true) by (rewrite Z.land_spec, T, Z.pow2_bits_true by auto; reflexivity). rewrite E, Z.bits_0 in F. discriminate.
  - apply Z.eqb_eq. apply Z.bits_inj'. intros n N. rewrite Z.land_spec, Z.bits_0. destruct (Z.eq_dec n i) as [->|D]; [now rewrite T|]. rewrite Z.pow2_bits_false by auto. apply andb_false_r.
Qed.
Lemma mod_step s i : 0 <= i -> s mod 2 ^ (i + 1) = s mod 2 ^ i + (if Z.testbit s i then 2 ^ i else 0).
Proof.
  intros I. rewrite Z.pow_add_r by lia. assert (0 < 2 ^ i) by (apply Z.pow_pos_nonneg; lia). rewrite Z.rem_mul_r by lia. f_equal. change (2 ^ 1) with 2. rewrite <- Z.testbit_spec' by auto.
  destruct (Z.testbit s i); cbn [Z.b2z]; lia.
Qed.

Lemma sum_loop_spec sig l s : sig <= 52 -> elements_ok sig l -> forall n i f, Z.of_nat i + Z.of_nat n = sig -> accurate f (s mod 2 ^ Z.of_nat i) (p2 (- sig)) ->
  exists f', sum_loop n i l s f = Ok f' /\ accurate f' (s mod 2 ^ sig) (p2 (- sig)).
Proof.
  intros S52 OK. induction n as [|n IH]; intros i f E A; cbn [sum_loop].
  - exists f. split; auto. replace sig with (Z.of_nat i) at 1 by lia. exact A.
  - rewrite bit_test by lia. assert (P : 0 < 2 ^ Z.of_nat i) by (apply Z.pow_pos_nonneg; lia). pose proof (mod_step s (Z.of_nat i) ltac:(lia)) as MS.
    replace (Z.of_nat i + 1) with (Z.of_nat (S i)) in MS by lia. destruct (Z.testbit s (Z.of_nat i)); cbn [negb].
    + destruct (OK (Z.of_nat i)) as (x & EX & X); [lia|]. rewrite Nat2Z.id in EX. rewrite EX. cbn [bind].
      destruct (add_step f x (s mod 2 ^ Z.of_nat i) (2 ^ Z.of_nat i) (p2 (- sig)) (p2_pos _)) as (f' & -> & A'); auto.
      * apply Z.mod_pos_bound. lia.
      * apply Z.pow_le_mono_r; lia.
      * cbn [bind]. apply IH; [lia|]. rewrite MS. exact A'.
    + cbn [bind]. apply IH; [lia|]. rewrite MS, Z.add_0_r. exact A.
Qed.

(** ** The powers of two *)
Definition power_of (t : traits) (mul_div : nat) (e : Z) : res fixed :=
  do one <- make_fixed 1 0 ;; power_loop (Z.to_nat (t_exp_bits t - 1)) 0 mul_div e one.
Definition power_check (tt : list Z) (t : traits) (mul_div : nat) (e : Z) : bool :=
  match power_of t mul_div e with
  | Ok p => (cap <=? digits p) && (digits p <=? 10 * (cap - 1)) && (-400 <=? exponent p) && (exponent p <=? 400) &&
            close tt 41666666666666666 (digits p) (exponent p) (match mul_div with O => e | _ => - e end)
  | Err _ => false
  end.
Definition powers_check (t : traits) (mul_div : nat) (n : nat) : bool :=
  let tt := tens 410 in forallb (fun i => power_check tt t mul_div (Z.of_nat i)) (seq 0 n).
Lemma double_powers_up : powers_check double_traits 0 1024 = true.
Proof. vm_compute. reflexivity. Qed.
Lemma double_powers_down : powers_check double_traits 1 1024 = true.
Proof. vm_compute. reflexivity. Qed.
Lemma float_powers_up : powers_check float_traits 0 128 = true.
Proof. vm_compute. reflexivity. Qed.
Lemma float_powers_down : powers_check float_traits 1 128 = true.
Proof. vm_compute. reflexivity. Qed.

Lemma power_spec t mul_div n e : powers_check t mul_div n = true -> 0 <= e < Z.of_nat n ->
  exists p, power_of t mul_div e = Ok p /\ usable p /\ -400 <= exponent p <= 400 /\
  let q := match mul_div with O => e | _ => - e end in
  (- p2 q <= 41666666666666666 * (decimal (digits p) (exponent p) - p2 q) <= p2 q)%Q.
Proof.
  intros H E. unfold powers_check in H. rewrite forallb_forall in H. specialize (H (Z.to_nat e) ltac:(apply in_seq; lia)). cbv zeta in H. rewrite Z2Nat.id in H by lia.
  unfold power_check in H. destruct (power_of t mul_div e) as [p|]; [|discriminate]. rewrite !andb_true_iff, !Z.leb_le in H. destruct H as ((((A & B) & C) & D) & F).
  exists p. split; auto. split; [unfold usable; rewrite cap_value in *; lia|]. split; [lia|]. apply close_spec in F; [exact F|lia|lia].
Qed.

(** ** Everything together *)
Lemma product_of_errors (S s P p : Q) : (0 < s -> 0 < p -> - (eps * s) <= S - s <= eps * s -> - p <= 41666666666666666 * (P - p) <= p ->
  - ((31 # 1000000000000000000) * (s * p)) <= S * P - s * p <= (31 # 1000000000000000000) * (s * p))%Q.
Proof.
  intros HS HP [A1 A2] [B1 B2]. unfold eps in *. set (a := (S - s)%Q) in *. set (b := (P - p)%Q) in *.
  assert (E : (S * P - s * p == a * p + s * b + a * b)%Q) by (unfold a, b; ring). rewrite E. clear E. clearbody a b. clear S P.
  assert (X1 : (- ((6 # 1000000000000000000) * (s * p)) <= a * p)%Q) by nra. assert (X2 : (a * p <= (6 # 1000000000000000000) * (s * p))%Q) by nra.
  assert (Y1 : (- (s * p) <= 41666666666666666 * (s * b))%Q) by nra. assert (Y2 : (41666666666666666 * (s * b) <= s * p)%Q) by nra.
  assert (Z : (- ((6 # 1000000000000000000) * (s * p)) <= 41666666666666666 * (a * b) <= (6 # 1000000000000000000) * (s * p))%Q).
  { assert (B3 : (- p <= 41666666666666666 * b <= p)%Q) by lra. set (c := (41666666666666666 * b)%Q) in *. assert (E : (41666666666666666 * (a * b) == a * c)%Q) by (unfold c; ring). rewrite E. clearbody c. clear B1 B2 Y1 Y2 E.
    destruct B3 as [B3 B4]. split; nra. }
  set (sp := (s * p)%Q) in *. set (ap := (a * p)%Q) in *. set (sb := (s * b)%Q) in *. set (ab := (a * b)%Q) in *. assert (0 < sp)%Q by (unfold sp; nra). clearbody sp ap sb ab. clear - X1 X2 Y1 Y2 Z H. lra.
Qed.

(** The error is at most 0.48 units of the 16th digit: 10^u is such a unit if the number is at most 10^(u + 16). *)
Definition precise (x : Q) (d e : Z) : Prop :=
  forall u, (x <= p10 (u + 16))%Q \/ (decimal d e <= p10 (u + 16))%Q -> within ((48 # 100) * p10 u) x (decimal d e).

Lemma p10_gap a b : (p10 a < p10 b)%Q -> (10 * p10 a <= p10 b)%Q.
Proof.
  intros H. assert (a < b) by (destruct (Z_lt_ge_dec a b); auto; exfalso; assert (p10 b <= p10 a)%Q by (apply p10_le; lia); lra).
  assert (p10 (a + 1) <= p10 b)%Q by (apply p10_le; lia). rewrite p10_shift in H1 by lia. change (inject_Z (10 ^ 1)) with 10%Q in H1. lra.
Qed.
Lemma p10_16 u : (p10 (u + 16) == 10000000000000000 * p10 u)%Q.
Proof. rewrite p10_shift by lia. change (inject_Z (10 ^ 16)) with 10000000000000000%Q. ring. Qed.

Lemma apply_accurate t f mul_div n e m sig : powers_check t mul_div n = true -> 0 <= e < Z.of_nat n ->
  0 < m -> accurate f m (p2 (- sig)) ->
  exists g, apply_binary_exponent t f mul_div e = Ok g /\ usable g /\ -600 <= exponent g <= 600 /\
  precise (binary m ((match mul_div with O => e | _ => - e end) - sig)) (digits g) (exponent g).
Proof.
  intros PC E MP A. destruct A as [(-> & _)|(_ & UF & EF & V)]; [lia|]. destruct (power_spec t mul_div n e PC E) as (p & EP & UP & XP & VP). cbv zeta in VP.
  set (q := match mul_div with O => e | _ => - e end) in *. unfold apply_binary_exponent. unfold power_of in EP. destruct (make_fixed 1 0) as [one|]; cbn [bind] in *; [|discriminate]. rewrite EP. cbn [bind].
  destruct (mul_value f p) as (d & k & K & D & C & EM & VM); auto; try (unfold moderate; lia). rewrite EM. eexists. split; [reflexivity|]. cbn [digits exponent]. split; [unfold usable; cbn [digits]; rewrite cap_value in *; lia|]. split; [lia|].
  intros u HU. unfold within. rewrite decimal_shift in * by lia.
  assert (XV : (binary m (q - sig) == inject_Z m * p2 (- sig) * p2 q)%Q).
  { unfold binary. fold (p2 (q - sig)). replace (q - sig) with (- sig + q) by lia. rewrite p2_plus. ring. }
  rewrite XV in *. clear XV. set (e0 := exponent f + exponent p + 20) in *. rewrite p10_16 in HU.
  assert (R : (0 < p10 e0)%Q) by apply p10_pos. assert (UP' : (0 < p10 u)%Q) by apply p10_pos.
  assert (DQ : (34028236000000000 * p10 e0 <= decimal d e0)%Q).
  { unfold decimal. fold (p10 e0). apply Qmult_le_compat_r; [|lra]. change 34028236000000000%Q with (inject_Z 34028236000000000). now apply Zle_Q. }
  set (s := (inject_Z m * p2 (- sig))%Q) in *. set (pp := p2 q) in *. assert (SP : (0 < s)%Q).
  { unfold s. pose proof (p2_pos (- sig)). assert (inject_Z 0 < inject_Z m)%Q by (rewrite <- Zlt_Qlt; lia). change (inject_Z 0) with 0%Q in H0. nra. }
  assert (PP : (0 < pp)%Q) by apply p2_pos. set (S := decimal (digits f) (exponent f)) in *. set (P := decimal (digits p) (exponent p)) in *.
  assert (X := product_of_errors S s P pp SP PP). unfold within in V. specialize (X ltac:(lra) VP). unfold within in VM. set (v := decimal d e0) in *.
  assert (H : (0 < s * pp)%Q) by nra. set (sp := (s * pp)%Q) in *. set (SPq := (S * P)%Q) in *. clearbody v S s P pp sp SPq.
  assert (G : (10 * p10 e0 <= p10 u)%Q). { apply p10_gap. set (r := p10 e0) in *. set (U := p10 u) in *. clearbody r U. clear - X VM HU DQ R H UP'. destruct HU; lra. }
  set (r := p10 e0) in *. set (U := p10 u) in *. clearbody r U. clear - X VM HU DQ R H UP' G. destruct HU; lra.
Qed.

Lemma one_ok : exists one, make_fixed 1 0 = Ok one /\ element_of one (2 ^ 23) (p2 (- 23)) /\ element_of one (2 ^ 52) (p2 (- 52)) .
Proof.
  exists (mkfixed 10000000000000000000 (-19)). split; [reflexivity|]. split; (split; [cbv; split; discriminate|]; split; [cbv; split; discriminate|]; vm_compute; split; discriminate).
Qed.

(** The formats. *)
Definition known (t : traits) (f : format) : Prop := t = float_traits /\ f = binary32 \/ t = double_traits /\ f = binary64.

(** The value of the fields of a finite number. *)
Definition mantissa (t : traits) (b : float_bits) : Z := if bexponent b =? 0 then significand b else 2 ^ t_sig_bits t + significand b.
Definition scale (t : traits) (b : float_bits) : Z := (if bexponent b =? 0 then t_exp_origin t + 1 else bexponent b + t_exp_origin t) - t_sig_bits t.

Theorem to_fixed_accurate t f b : known t f -> 0 <= significand b < 2 ^ t_sig_bits t -> 0 <= bexponent b < t_special t -> 0 < mantissa t b ->
  exists d e, to_fixed t b = Ok (mksigned d e (bsign b)) /\ cap <= d < 2 ^ 64 - 5 /\ -600 <= e <= 600 /\
  precise (binary (mantissa t b) (scale t b)) d e.
Proof.
  intros KN SB EB MP. destruct one_ok as (one & EO & O23 & O52).
  assert (T : t_sig_bits t <= 52 /\ elements_ok (t_sig_bits t) (t_sig_elems t) /\ element_of one (2 ^ t_sig_bits t) (p2 (- t_sig_bits t)) /\ 0 <= t_sig_bits t).
  { destruct KN as [(-> & _)|(-> & _)]; cbn [t_sig_bits t_sig_elems float_traits double_traits]; (split; [lia|]; split; [auto using float_elements_ok, double_elements_ok|split; [auto|lia]]). }
  destruct T as (T1 & T2 & T3 & T4). unfold to_fixed. change (make_fixed 0 0) with (Ok (mkfixed 0 (- 2 ^ 31))). cbn [bind].
  destruct (sum_loop_spec (t_sig_bits t) (t_sig_elems t) (significand b) T1 T2 (Z.to_nat (t_sig_bits t)) 0 (mkfixed 0 (- 2 ^ 31))) as (f1 & E1 & A1).
  { lia. }
  { left. change (Z.of_nat 0) with 0. split; [apply Z.mod_1_r|split; reflexivity]. }
  rewrite E1. cbn [bind]. rewrite Z.mod_small in A1 by lia. rewrite EO. cbn [bind].
  assert (N : exists f2, (if negb (bexponent b =? 0) then fixed_add f1 one else Ok f1) = Ok f2 /\ accurate f2 (mantissa t b) (p2 (- t_sig_bits t))).
  { unfold mantissa. destruct (bexponent b =? 0); cbn [negb]; [exists f1; auto|]. destruct (add_step f1 one (significand b) (2 ^ t_sig_bits t) (p2 (- t_sig_bits t)) (p2_pos _)) as (f2 & E2 & A2); auto.
    - apply Z.pow_le_mono_r; lia.
    - exists f2. rewrite Z.add_comm. auto. }
  destruct N as (f2 & E2 & A2). rewrite E2. cbn [bind]. set (x := if bexponent b =? 0 then t_exp_origin t + 1 else bexponent b + t_exp_origin t) in *.
  assert (SC : scale t b = x - t_sig_bits t) by reflexivity. rewrite SC.
  assert (G : exists g, (if 0 <? x then apply_binary_exponent t f2 0 x else if x <? 0 then apply_binary_exponent t f2 1 (- x) else Ok f2) = Ok g /\ usable g /\ -600 <= exponent g <= 600 /\
    precise (binary (mantissa t b) (x - t_sig_bits t)) (digits g) (exponent g)).
  { assert (PW : exists n, powers_check t 0 n = true /\ powers_check t 1 n = true /\ - Z.of_nat n < x < Z.of_nat n).
    { unfold x. destruct KN as [(-> & _)|(-> & _)]; cbn [t_exp_origin t_special float_traits double_traits] in *.
      - exists 128%nat. split; [apply float_powers_up|]. split; [apply float_powers_down|]. destruct (bexponent b =? 0); lia.
      - exists 1024%nat. split; [apply double_powers_up|]. split; [apply double_powers_down|]. destruct (bexponent b =? 0); lia. }
    destruct PW as (n & P0 & P1 & XN). destruct (Z.ltb_spec 0 x) as [L|L]; [|destruct (Z.ltb_spec x 0) as [L'|L']].
    - apply (apply_accurate t f2 0 n x (mantissa t b) (t_sig_bits t)); auto. lia.
    - destruct (apply_accurate t f2 1 n (- x) (mantissa t b) (t_sig_bits t)) as (g & G); auto; [lia|]. exists g. rewrite Z.opp_involutive in G. exact G.
    - exists f2. split; auto. assert (x = 0) as -> by lia. destruct A2 as [(Z & _)|(_ & UF & EF & V)]; [lia|]. split; auto. split; [lia|]. intros u HU.
      assert (XV : (binary (mantissa t b) (0 - t_sig_bits t) == inject_Z (mantissa t b) * p2 (- t_sig_bits t))%Q) by reflexivity. unfold within. rewrite XV in *. clear XV.
      unfold within, eps in V. set (v := decimal (digits f2) (exponent f2)) in *. rewrite p10_16 in HU.
      set (s := (inject_Z (mantissa t b) * p2 (- t_sig_bits t))%Q) in *. set (U := p10 u) in *. assert (0 < U)%Q by apply p10_pos. clearbody s v U. clear - V HU H. destruct HU; lra. }
  destruct G as (g & EG & UG & XG & VG). rewrite EG. cbn [bind]. exists (digits g), (exponent g). split; auto.
Qed.
