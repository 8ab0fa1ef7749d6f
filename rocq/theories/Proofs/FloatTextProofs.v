(** The text of floating-point numbers. *)
From Coq Require Import ZArith NArith QArith Qpower Lqa Lia List ZifyBool ZifyNat ZifyN.
From Verif.Model Require Import Base Vector StringUtil Integer Fixed FloatText.
From Verif.Spec Require Import TextSpec NumberSpec FloatSpec.
From Verif.Proofs Require Import Lists VectorProofs AppendProofs IntegerProofs FixedProofs FloatProofs.
Import ListNotations.
Local Open Scope Z_scope.
Ltac Zify.zify_post_hook ::= Z.div_mod_to_equations.

(** ** Fields *)
Lemma to_bits_fields t f bits : known t f -> pattern f bits ->
  to_bits t bits = mkbits (fraction_of f bits) (exponent_of f bits) (negative f bits).
Proof.
  intros K P. unfold to_bits, fraction_of, exponent_of, negative. f_equal.
  - replace (sig_mask t) with (Z.ones (fraction_bits f)) by (destruct K as [(-> & ->)|(-> & ->)]; reflexivity). apply Z.land_ones. destruct K as [(_ & ->)|(_ & ->)]; cbn; lia.
  - rewrite Z.shiftr_land. replace (Z.shiftr (exp_mask t) (t_sig_bits t)) with (Z.ones (exponent_bits f)) by (destruct K as [(-> & ->)|(-> & ->)]; reflexivity).
    rewrite Z.land_ones by (destruct K as [(_ & ->)|(_ & ->)]; cbn; lia). f_equal. replace (t_sig_bits t) with (fraction_bits f) by (destruct K as [(-> & ->)|(-> & ->)]; reflexivity).
    apply Z.shiftr_div_pow2. destruct K as [(_ & ->)|(_ & ->)]; cbn; lia.
  - replace (sign_mask t) with (Z.shiftl 1 (fraction_bits f + exponent_bits f)) by (destruct K as [(-> & ->)|(-> & ->)]; reflexivity).
    assert (0 <= fraction_bits f + exponent_bits f) by (destruct K as [(_ & ->)|(_ & ->)]; cbn; lia). rewrite bit_test by auto. rewrite negb_involutive, Z.testbit_odd. f_equal. now apply Z.shiftr_div_pow2.
Qed.

(** ** Rounding *)
Lemma digits_count d : 0 < d < 2 ^ 64 -> exists n, num_digits_u int_fuel 10 (Z.to_N d) = Ok n /\ 10 ^ (Z.of_nat n - 1) <= d < 10 ^ Z.of_nat n /\ (1 <= n)%nat.
Proof.
  intros D. destruct (num_digits_u_total 10 ltac:(lia) ltac:(lia) int_fuel (Z.to_N d)) as (n & E); [change (N.of_nat int_fuel) with 64%N; lia|discriminate|].
  exists n. split; auto. pose proof (num_digits_u_pos 10 ltac:(lia) ltac:(lia) _ _ _ E) as N1. pose proof (num_digits_u_pow 10 ltac:(lia) ltac:(lia) _ _ _ E ltac:(lia)) as L.
  pose proof (read_digs 10 ltac:(lia) ltac:(lia) _ _ _ E) as R. apply read_lt in R; [|lia]. rewrite digs_length in R. split; [|auto]. split.
  - assert (H : Z.of_N (10 ^ N.of_nat (n - 1)) <= Z.of_N (Z.to_N d)) by lia. rewrite N2Z.inj_pow in H. rewrite nat_N_Z in H. replace (Z.of_nat (n - 1)) with (Z.of_nat n - 1) in H by lia. lia.
  - assert (H : Z.of_N (Z.to_N d) < Z.of_N ((0 + 1) * 10 ^ N.of_nat n)) by lia. rewrite N2Z.inj_mul, N2Z.inj_pow, nat_N_Z in H. lia.
Qed.
Lemma digits_count_unique d n : num_digits_u int_fuel 10 (Z.to_N d) = Ok n -> forall m, 1 <= m -> 10 ^ (m - 1) <= d < 10 ^ m -> 0 < d < 2 ^ 64 -> Z.of_nat n = m.
Proof.
  intros E m M D B. destruct (digits_count d B) as (n' & E' & D' & N'). rewrite E in E'. injection E' as <-.
  destruct (Z.lt_trichotomy (Z.of_nat n) m) as [L|[L|L]]; auto; exfalso.
  - assert (10 ^ Z.of_nat n <= 10 ^ (m - 1)) by (apply Z.pow_le_mono_r; lia). lia.
  - assert (10 ^ m <= 10 ^ (Z.of_nat n - 1)) by (apply Z.pow_le_mono_r; lia). lia.
Qed.

Lemma round_spec i j r : 0 <= i < 2 ^ 64 - 5 -> 0 <= j -> 0 <= r < 10 ^ j ->
  exists R, round_half_to_even i (r =? 0) = Ok R /\ nearest_even (i * 10 ^ j + r) (j + 1) R /\ (R = i / 10 \/ R = i / 10 + 1).
Proof.
  intros I J RB. unfold round_half_to_even, nearest_even. rewrite u64_ok by lia. cbn [bind]. rewrite (pow10_step (j + 1)) by lia. replace (j + 1 - 1) with j by lia.
  assert (T : 0 < 10 ^ j) by lia. set (t := 10 ^ j) in *. clearbody t. clear J.
  pose proof (Z.div_mod i 10 ltac:(lia)) as E. pose proof (Z.mod_pos_bound i 10 ltac:(lia)) as B. assert (E5 : (i + 5) / 10 = i / 10 + (if 5 <=? i mod 10 then 1 else 0)) by (destruct (Z.leb_spec 5 (i mod 10)); lia).
  rewrite E5. assert (A0 : 0 <= i / 10 < 2 ^ 61) by lia. set (a := i / 10) in *. set (c := i mod 10) in *. clearbody a c. clear E5. subst i.
  assert (EV : Z.even a = (a mod 2 =? 0)) by (rewrite Zmod_even; destruct (Z.even a); reflexivity).
  assert (EV1 : Z.even (a + 1) = negb (a mod 2 =? 0)) by (rewrite Z.even_add, EV; destruct (a mod 2 =? 0); reflexivity).
  replace ((10 * a + c) * t) with (10 * (a * t) + c * t) by ring. set (A := a * t) in *.
  assert (F : forall x, (a + x) * (10 * t) = 10 * A + 10 * (x * t)) by (intros; unfold A; ring).
  assert (C : c = 0 \/ c = 1 \/ c = 2 \/ c = 3 \/ c = 4 \/ c = 5 \/ c = 6 \/ c = 7 \/ c = 8 \/ c = 9) by lia.
  pose proof (F 0) as F0. pose proof (F 1) as F1. rewrite Z.add_0_r in F0. clearbody A. clear F B I.
  destruct C as [->|[->|[->|[->|[->|[->|[->|[->|[->| ->]]]]]]]]]; cbn [Z.leb Z.compare Pos.compare Pos.compare_cont Z.eqb Pos.eqb andb]; rewrite ?Z.add_0_r, ?andb_false_r;
    try (eexists; split; [reflexivity|]; rewrite ?F0, ?F1; split; [split; lia|]; auto; fail).
  destruct (Z.eqb_spec r 0) as [R0|R0]; cbn [andb].
  - rewrite u64_ok by lia. destruct (Z.eqb_spec (a mod 2) 0) as [M|M]; cbn [negb] in EV1.
    + exists a. split; [f_equal; lia|]. rewrite F0. split; [split; [lia|auto]|auto].
    + exists (a + 1). split; [f_equal; lia|]. rewrite F1. split; [split; [lia|auto]|auto].
  - eexists. split; [reflexivity|]. rewrite F1. split; [split; lia|auto].
Qed.

Lemma precision_loop_spec p : (1 <= p)%nat -> forall fuel n d e j r, (p < n)%nat -> (n + 1 <= fuel + p)%nat -> (n <= 20)%nat -> 10 ^ (Z.of_nat n - 1) <= d < 10 ^ Z.of_nat n -> 0 < d < 2 ^ 64 - 5 ->
  0 <= j -> 0 <= r < 10 ^ j -> - 2 ^ 30 <= e -> e + Z.of_nat n <= 2 ^ 30 + 30 ->
  exists R D E, precision_loop fuel p n (r =? 0) d e = Ok (D, E) /\ nearest_even (d * 10 ^ j + r) (j + Z.of_nat n - Z.of_nat p) R /\ 10 ^ (Z.of_nat p - 1) <= D < 10 ^ Z.of_nat p /\
    (D = R /\ E = e + (Z.of_nat n - Z.of_nat p) \/ R = 10 ^ Z.of_nat p /\ D = 10 ^ (Z.of_nat p - 1) /\ E = e + (Z.of_nat n - Z.of_nat p) + 1).
Proof.
  intros P1. induction fuel as [|fuel IH]; intros n d e j r PN F N20 DN DB J RB EB EB2; [lia|]. cbn [precision_loop]. rewrite (proj2 (Nat.ltb_lt p n)) by lia.
  assert (TP : 0 < 10 ^ j) by (apply Z.pow_pos_nonneg; lia).
  destruct (Nat.ltb_spec (p + 1) n) as [L|L].
  - rewrite i32_ok by lia. cbn [bind]. pose proof (Z.div_mod d 10 ltac:(lia)) as ED. pose proof (Z.mod_pos_bound d 10 ltac:(lia)) as BD.
    assert (SJ : 10 ^ (j + 1) = 10 * 10 ^ j) by (rewrite (pow10_step (j + 1)) by lia; replace (j + 1 - 1) with j by lia; reflexivity).
    assert (OZ : (if 0 <? d mod 10 then false else r =? 0) = (d mod 10 * 10 ^ j + r =? 0)).
    { destruct (Z.ltb_spec 0 (d mod 10)) as [X|X]; [symmetry; apply Z.eqb_neq; nia|]. assert (d mod 10 = 0) as -> by lia. reflexivity. }
    rewrite OZ. destruct (IH (n - 1)%nat (d / 10) (e + 1) (j + 1) (d mod 10 * 10 ^ j + r)) as (R & D & E & EQ & NE & DD & C); try lia.
    + replace (Z.of_nat (n - 1) - 1) with (Z.of_nat n - 1 - 1) by lia. replace (Z.of_nat (n - 1)) with (Z.of_nat n - 1) by lia. rewrite (pow10_step (Z.of_nat n - 1)) in DN by lia. rewrite (pow10_step (Z.of_nat n)) in DN by lia.
      rewrite (pow10_step (Z.of_nat n - 1)) in DN by lia. rewrite (pow10_step (Z.of_nat n - 1)) by lia. lia.
    + assert (10 ^ 1 <= 10 ^ (Z.of_nat n - 1)) by (apply Z.pow_le_mono_r; lia). lia.
    + rewrite SJ. nia.
    + exists R, D, E. split; [exact EQ|]. split.
      * replace (d * 10 ^ j + r) with (d / 10 * 10 ^ (j + 1) + (d mod 10 * 10 ^ j + r)) by (rewrite SJ; nia). replace (j + Z.of_nat n - Z.of_nat p) with (j + 1 + Z.of_nat (n - 1) - Z.of_nat p) by lia. exact NE.
      * split; auto. destruct C as [(-> & ->)|(-> & -> & ->)]; [left|right]; repeat split; lia.
  - assert (n = p + 1)%nat as -> by lia. destruct (round_spec d j r) as (R & EQ & NE & C); auto; [lia|]. rewrite EQ. cbn [bind].
    assert (PP : 10 ^ Z.of_nat (p + 1) = 10 * 10 ^ Z.of_nat p /\ 10 ^ Z.of_nat p = 10 * 10 ^ (Z.of_nat p - 1) /\ 0 < 10 ^ (Z.of_nat p - 1)).
    { split; [|split; [|apply Z.pow_pos_nonneg; lia]]. - rewrite (pow10_step (Z.of_nat (p + 1))) by lia. do 2 f_equal. lia. - apply pow10_step. lia. }
    destruct PP as (PP1 & PP2 & PP3). replace (Z.of_nat (p + 1) - 1) with (Z.of_nat p) in DN by lia. rewrite PP1 in DN.
    assert (RB2 : 10 ^ (Z.of_nat p - 1) <= R <= 10 ^ Z.of_nat p) by lia. assert (R64 : 0 < R < 2 ^ 64 - 5) by lia.
    destruct (digits_count R ltac:(lia)) as (n' & EN & DN' & N1). rewrite EN. cbn [bind]. rewrite i32_ok by lia. cbn [bind].
    replace (j + Z.of_nat (p + 1) - Z.of_nat p) with (j + 1) by lia. replace (Z.of_nat (p + 1) - Z.of_nat p) with 1 by lia.
    destruct (Z.eq_dec R (10 ^ Z.of_nat p)) as [RP|RP].
    + assert (Z.of_nat n' = Z.of_nat p + 1) as N2. { apply (digits_count_unique R); auto; try lia. replace (Z.of_nat p + 1 - 1) with (Z.of_nat p) by lia. rewrite (pow10_step (Z.of_nat p + 1)) by lia. replace (Z.of_nat p + 1 - 1) with (Z.of_nat p) by lia. lia. }
      assert (n' = p + 1)%nat as -> by lia. destruct fuel as [|fuel]; [lia|]. cbn [precision_loop]. rewrite (proj2 (Nat.ltb_lt p (p + 1))) by lia. rewrite (proj2 (Nat.ltb_ge (p + 1) (p + 1))) by lia.
      destruct (round_spec R 0 0) as (R2 & EQ2 & NE2 & C2); try lia. 
      assert (EQ3 : round_half_to_even R (r =? 0) = Ok (10 ^ (Z.of_nat p - 1))).
      { unfold round_half_to_even. rewrite u64_ok by lia. cbn [bind]. replace (R mod 10 =? 5) with false by (symmetry; apply Z.eqb_neq; lia). rewrite andb_false_r. f_equal. lia. }
      rewrite EQ3. cbn [bind]. destruct (digits_count (10 ^ (Z.of_nat p - 1)) ltac:(lia)) as (n3 & EN3 & DN3 & N3). rewrite EN3. cbn [bind]. rewrite i32_ok by lia. cbn [bind].
      assert (Z.of_nat n3 = Z.of_nat p) by (apply (digits_count_unique (10 ^ (Z.of_nat p - 1))); auto; lia). assert (n3 = p) as -> by lia.
      exists R, (10 ^ (Z.of_nat p - 1)), (e + 1 + 1). split; [destruct fuel; cbn [precision_loop]; rewrite Nat.ltb_irrefl; reflexivity|]. split; [auto|]. split; [lia|]. right. split; [auto|split; [auto|lia]].
    + assert (Z.of_nat n' = Z.of_nat p) by (apply (digits_count_unique R); auto; lia). assert (n' = p) as -> by lia.
      exists R, R, (e + 1). split; [destruct fuel; cbn [precision_loop]; rewrite Nat.ltb_irrefl; reflexivity|]. split; [auto|]. split; [lia|]. left. split; [auto|lia].
Qed.

Lemma precision_loop_done fuel p oz d e : precision_loop fuel p p oz d e = Ok (d, e).
Proof. destruct fuel; cbn [precision_loop]; rewrite Nat.ltb_irrefl; reflexivity. Qed.
Lemma set_precision_spec d e s p n : (1 <= p)%nat -> 0 < d < 2 ^ 64 - 5 -> - 2 ^ 30 <= e <= 2 ^ 30 -> 10 ^ (n - 1) <= d < 10 ^ n -> Z.of_nat p <= n -> 1 <= n ->
  exists R D E, set_precision (mksigned d e s) p = Ok (mksigned D E s) /\ nearest_even d (n - Z.of_nat p) R /\ 10 ^ (Z.of_nat p - 1) <= D < 10 ^ Z.of_nat p /\
    (D = R /\ E = e + (n - Z.of_nat p) \/ R = 10 ^ Z.of_nat p /\ D = 10 ^ (Z.of_nat p - 1) /\ E = e + (n - Z.of_nat p) + 1).
Proof.
  intros P D E DN PN N1. unfold set_precision. cbn [s_digits s_exponent s_sign]. destruct (digits_count d ltac:(lia)) as (m & EM & DM & M1). rewrite EM. cbn [bind].
  assert (MN : Z.of_nat m = n) by (apply (digits_count_unique d); auto; lia). subst n.
  assert (M20 : (m <= 20)%nat) by (apply (num_digits_u_le20 10 ltac:(lia) ltac:(lia) (Z.to_N d)); auto; lia).
  destruct (Nat.eq_dec m p) as [->|NE].
  - exists d, d, e. rewrite precision_loop_done. cbn [bind]. split; auto. split; [|split; [lia|left; split; lia]]. rewrite Z.sub_diag. unfold nearest_even. change (10 ^ 0) with 1. lia.
  - destruct (precision_loop_spec p P fixed_fuel m d e 0 0) as (R & D' & E' & EQ & NEV & DD & C); try lia; auto; [unfold fixed_fuel; lia|]. change (0 =? 0) with true in EQ. rewrite EQ. cbn [bind].
    exists R, D', E'. split; auto. change (10 ^ 0) with 1 in NEV. rewrite Z.mul_1_r, Z.add_0_r, Z.add_0_l in NEV. auto.
Qed.

(** ** Writing from the end *)
Lemma set_back (tmp : sstr) (G R : str) c x k : wf tmp -> vcontent tmp = G ++ c :: R -> k = S (length R) ->
  csub (vsize tmp) k = Ok (length G) /\ exists tmp', vset tmp (length G) x = Ok tmp' /\ wf tmp' /\ vcap tmp' = vcap tmp /\ vcontent tmp' = G ++ x :: R.
Proof.
  intros W C ->. pose proof (vcontent_length tmp W) as L. rewrite C, app_length in L. cbn [length] in L. split; [unfold csub; replace (S (length R) <=? vsize tmp)%nat with true by (symmetry; apply Nat.leb_le; lia); f_equal; lia|].
  destruct (vset_spec tmp (length G) x W) as [(I & t & E & W' & C' & S' & K)|[I _]]; [|lia]. exists t. repeat split; auto. rewrite K, C. f_equal.
  - rewrite firstn_app, Nat.sub_diag, firstn_all. cbn [firstn]. apply app_nil_r.
  - f_equal. rewrite skipn_app. rewrite skipn_all2 by lia. replace (S (length G) - length G)%nat with 1%nat by lia. reflexivity.
Qed.
Lemma snoc_cases {A} (G : list A) n : length G = S n -> exists G0 c, G = G0 ++ [c] /\ length G0 = n.
Proof.
  intros L. destruct (exists_last (l := G)) as (G0 & c & ->); [destruct G; discriminate|]. exists G0, c. split; auto. rewrite app_length in L. cbn in L. lia.
Qed.

Definition with_dot (s : str) : str := match s with c :: r => c :: "."%char :: r | [] => [] end.
Lemma with_dot_snoc s d : s <> [] -> with_dot (s ++ [d]) = with_dot s ++ [d].
Proof. destruct s; [contradiction|reflexivity]. Qed.

Lemma to_N_div j : 0 <= j -> (Z.to_N j / 10)%N = Z.to_N (j / 10).
Proof. intros. lia. Qed.
Lemma to_N_mod j : 0 <= j -> (Z.to_N j mod 10)%N = Z.to_N (j mod 10).
Proof. intros. lia. Qed.

Lemma pow10_div m j : (1 <= m)%nat -> 10 ^ (Z.of_nat (S m) - 1) <= j < 10 ^ Z.of_nat (S m) -> 10 ^ (Z.of_nat m - 1) <= j / 10 < 10 ^ Z.of_nat m.
Proof.
  intros M J. replace (Z.of_nat (S m) - 1) with (Z.of_nat m) in J by lia. replace (Z.of_nat (S m)) with (Z.of_nat m + 1) in J by lia. rewrite Z.pow_add_r in J by lia.
  replace (Z.of_nat m) with (Z.of_nat m - 1 + 1) in J at 1 by lia. rewrite Z.pow_add_r in J by lia. change (10 ^ 1) with 10 in J.
  generalize dependent (10 ^ (Z.of_nat m - 1)). generalize (10 ^ Z.of_nat m). intros. lia.
Qed.
Lemma mantissa_loop_spec : forall m fuel (tmp : sstr) j k (G R : str) g, wf tmp -> vcontent tmp = G ++ R -> k = S (length R) -> (1 <= m <= fuel)%nat -> 10 ^ (Z.of_nat m - 1) <= j < 10 ^ Z.of_nat m ->
  length G = (m + 1 + g)%nat ->
  exists tmp', mantissa_loop fuel tmp j k = Ok tmp' /\ wf tmp' /\ vcap tmp' = vcap tmp /\ vcontent tmp' = firstn g G ++ with_dot (digs 10 m (Z.to_N j)) ++ R.
Proof.
  induction m as [|m IH]; intros fuel tmp j k G R g W C K F J L; [lia|]. destruct fuel as [|fuel]; [lia|]. cbn [mantissa_loop].
  assert (J1 : 0 < j) by (assert (0 < 10 ^ (Z.of_nat (S m) - 1)) by (apply Z.pow_pos_nonneg; lia); lia). rewrite (proj2 (Z.eqb_neq j 0)) by lia.
  assert (DG : digit (Z.to_N (j mod 10)) = Ok (dig (Z.to_N (j mod 10)))) by (apply digit_dig; lia).
  destruct (snoc_cases G (m + 1 + g)) as (G0 & c & -> & L0); [lia|]. rewrite <- app_assoc in C. cbn [app] in C.
  destruct (Z.ltb_spec j 10) as [L10|L10].
  - assert (m = O) as ->.
    { destruct m; auto. exfalso. assert (10 ^ 1 <= 10 ^ (Z.of_nat (S (S m)) - 1)) by (apply Z.pow_le_mono_r; lia). lia. }
    destruct (set_back tmp G0 R c "."%char k W C K) as (-> & t1 & X1 & W1 & C1 & E1). cbn [bind]. rewrite X1. cbn [bind].
    destruct (snoc_cases G0 g) as (G1 & c1 & -> & L1); [lia|]. rewrite <- app_assoc in E1. cbn [app] in E1.
    destruct (set_back t1 G1 ("."%char :: R) c1 (dig (Z.to_N (j mod 10))) (S k) W1 E1) as (-> & t2 & E2 & W2 & C2 & K2); [cbn [length]; lia|]. cbn [bind]. rewrite DG. cbn [bind]. rewrite E2. cbn [bind].
    assert (J0 : j / 10 = 0) by lia. rewrite J0. exists t2. split; [destruct fuel; reflexivity|]. split; auto. split; [congruence|]. rewrite <- app_assoc. rewrite firstn_app_le, firstn_all2 by lia. rewrite K2. cbn [digs app with_dot]. rewrite to_N_mod by lia. reflexivity.
  - cbn [bind]. destruct (set_back tmp G0 R c (dig (Z.to_N (j mod 10))) k W C K) as (-> & t1 & E1 & W1 & C1 & K1). cbn [bind]. rewrite DG. cbn [bind]. rewrite E1. cbn [bind].
    assert (M1 : (1 <= m)%nat) by (destruct m; [change (10 ^ Z.of_nat 1) with 10 in J; lia|lia]).
    destruct (IH fuel t1 (j / 10) (S k) G0 (dig (Z.to_N (j mod 10)) :: R) g) as (t2 & E2 & W2 & C2 & K2); auto; try (cbn [length]; lia).
    + now apply pow10_div.
    + exists t2. split; auto. split; auto. split; [congruence|]. rewrite firstn_app_le by lia. rewrite K2. cbn [digs]. rewrite with_dot_snoc by (intros X; apply (f_equal (@length _)) in X; rewrite digs_length in X; cbn in X; lia).
      rewrite to_N_div, to_N_mod by lia. rewrite <- app_assoc. reflexivity.
Qed.

Lemma exponent_loop_spec : forall m fuel (tmp : sstr) j k (G R : str) g, wf tmp -> vcontent tmp = G ++ R -> k = S (length R) -> (m <= fuel)%nat -> (j = 0 /\ m = O \/ (1 <= m)%nat /\ 10 ^ (Z.of_nat m - 1) <= j < 10 ^ Z.of_nat m) ->
  length G = (m + g)%nat ->
  exists tmp', exponent_loop fuel tmp j k = Ok (tmp', k + m)%nat /\ wf tmp' /\ vcap tmp' = vcap tmp /\ vcontent tmp' = firstn g G ++ digs 10 m (Z.to_N j) ++ R.
Proof.
  induction m as [|m IH]; intros fuel tmp j k G R g W C K F J L.
  - destruct J as [(-> & _)|(X & _)]; [|lia]. exists tmp. split; [destruct fuel; cbn; do 2 f_equal; lia|]. rewrite firstn_all2 by lia. repeat split; auto.
  - destruct J as [(_ & X)|(_ & J)]; [discriminate|]. destruct fuel as [|fuel]; [lia|]. cbn [exponent_loop].
    assert (J1 : 0 < j) by (assert (0 < 10 ^ (Z.of_nat (S m) - 1)) by (apply Z.pow_pos_nonneg; lia); lia). rewrite (proj2 (Z.eqb_neq j 0)) by lia.
    assert (DG : digit (Z.to_N (j mod 10)) = Ok (dig (Z.to_N (j mod 10)))) by (apply digit_dig; lia).
    destruct (snoc_cases G (m + g)) as (G0 & c & -> & L0); [lia|]. rewrite <- app_assoc in C. cbn [app] in C.
    destruct (set_back tmp G0 R c (dig (Z.to_N (j mod 10))) k W C K) as (-> & t1 & E1 & W1 & C1 & K1). cbn [bind]. rewrite DG. cbn [bind]. rewrite E1. cbn [bind].
    destruct (IH fuel t1 (j / 10) (S k) G0 (dig (Z.to_N (j mod 10)) :: R) g) as (t2 & E2 & W2 & C2 & K2); auto; try (cbn [length]; lia).
    + destruct m as [|m]; [left; split; [change (10 ^ Z.of_nat 1) with 10 in J; lia|auto]|right]. split; [lia|].
      apply pow10_div; auto; lia.
    + exists t2. split; [rewrite E2; do 2 f_equal; lia|]. split; auto. split; [congruence|]. rewrite firstn_app_le by lia. rewrite K2. cbn [digs]. rewrite to_N_div, to_N_mod by lia. rewrite <- app_assoc. reflexivity.
Qed.

Lemma padding_loop_spec : forall n (tmp : sstr) k (G R : str) g, wf tmp -> vcontent tmp = G ++ R -> k = S (length R) -> (3 <= n + k)%nat -> length G = (3 - k + g)%nat ->
  exists tmp', padding_loop n tmp k = Ok (tmp', (k + (3 - k)))%nat /\ wf tmp' /\ vcap tmp' = vcap tmp /\ vcontent tmp' = firstn g G ++ repeat "0"%char (3 - k) ++ R.
Proof.
  induction n as [|n IH]; intros tmp k G R g W C K N L; cbn [padding_loop].
  - exists tmp. replace (3 - k)%nat with O in * by lia. split; [do 2 f_equal; lia|]. rewrite firstn_all2 by lia. repeat split; auto.
  - unfold min_exp_digits. destruct (Nat.leb_spec k 2) as [L2|L2].
    + destruct (snoc_cases G (2 - k + g)) as (G0 & c & -> & L0); [lia|]. rewrite <- app_assoc in C. cbn [app] in C.
      destruct (set_back tmp G0 R c "0"%char k W C K) as (-> & t1 & E1 & W1 & C1 & K1). cbn [bind]. rewrite E1. cbn [bind].
      destruct (IH t1 (S k) G0 ("0"%char :: R) g) as (t2 & E2 & W2 & C2 & K2); auto; try (cbn [length]; lia).
      exists t2. split; [rewrite E2; do 2 f_equal; lia|]. split; auto. split; [congruence|]. rewrite firstn_app_le by lia. rewrite K2. f_equal. replace (3 - k)%nat with (S (3 - S k)) by lia. cbn [repeat]. rewrite repeat_cons, <- app_assoc. reflexivity.
    + exists tmp. replace (3 - k)%nat with O in * by lia. split; [do 2 f_equal; lia|]. rewrite firstn_all2 by lia. repeat split; auto.
Qed.

Lemma read_zeros n s : read 10 0 (repeat "0"%char n ++ s) = read 10 0 s.
Proof. induction n; auto. Qed.
Lemma cast32_id z : - 2 ^ 31 <= z < 2 ^ 31 -> cast32 z = z.
Proof. intros H. unfold cast32. rewrite Z.mod_small by lia. lia. Qed.

Lemma firstn_plus {A} n m (l : list A) : firstn (n + m) l = firstn n l ++ firstn m (skipn n l).
Proof. revert l; induction n; intros [|x l]; cbn; try rewrite IHn; auto. now rewrite firstn_nil. Qed.
Lemma vgrow_more {A} (v : vec A) n : wf v -> (vsize v + n <= vcap v)%nat -> exists v' junk, vgrow v n = Ok v' /\ wf v' /\ vcap v' = vcap v /\ vcontent v' = vcontent v ++ junk /\ length junk = n.
Proof.
  intros W H. unfold vgrow. destruct (Nat.ltb_spec (vcap v) (vsize v + n)); [lia|]. eexists. exists (firstn n (skipn (vsize v) (vbuf v))). split; [reflexivity|]. unfold wf, vcap, vcontent in *. cbn [vbuf vsize].
  split; [lia|]. split; auto. split; [apply firstn_plus|]. rewrite firstn_length, skipn_length. lia.
Qed.

Theorem append_fixed_spec ss d e s p : wf ss -> 0 < d < 2 ^ 64 -> -5000 <= e <= 5000 -> (1 <= p <= 20)%nat -> 10 ^ (Z.of_nat p - 1) <= d < 10 ^ Z.of_nat p ->
  exists T, append_fixed ss (mksigned d e s) = append_constexpr ss T /\ scientific p s (Z.to_N d) (e + Z.of_nat p - 1) T.
Proof.
  intros W D E P DP. unfold append_fixed. cbn [s_digits s_exponent s_sign]. destruct (digits_count d ltac:(lia)) as (n & EN & DN & N1).
  assert (Z.of_nat n = Z.of_nat p) by (apply (digits_count_unique d); auto; lia). assert (n = p) as -> by lia. rewrite EN. cbn [bind].
  unfold vresize. rewrite vcap_new. unfold max_float_length. destruct (Nat.ltb_spec 28 (p + 1 + (if s then 1 else 0))) as [X|_]; [destruct s; lia|]. cbn [bind].
  set (t0 := mkvec (vbuf (new_string 28)) (p + 1 + (if s then 1 else 0))). assert (W0 : wf t0) by (unfold wf, vcap; cbn; destruct s; lia). assert (C0 : vcap t0 = 28%nat) by reflexivity.
  destruct (mantissa_loop_spec p int_fuel t0 d 1 (vcontent t0) [] (if s then 1 else 0)%nat) as (t1 & -> & W1 & C1 & K1); auto; try lia.
  { now rewrite app_nil_r. } { unfold int_fuel; lia. } { rewrite vcontent_length by auto. reflexivity. }
  cbn [bind]. rewrite app_nil_r in K1. set (M := with_dot (digs 10 p (Z.to_N d))) in *.
  assert (ML : length M = (p + 1)%nat). { unfold M. pose proof (digs_length 10 p (Z.to_N d)). destruct (digs 10 p (Z.to_N d)); cbn in *; lia. }
  assert (FN : exists c, firstn 1 (vcontent t0) = [c]).
  { pose proof (vcontent_length t0 W0) as V. destruct (vcontent t0) as [|c r]; [cbn in V; lia|exists c; reflexivity]. }
  destruct FN as (c0 & FN).
  assert (T2 : exists t2, (if s then vset t1 0 "-"%char else Ok t1) = Ok t2 /\ wf t2 /\ vcap t2 = 28%nat /\ vcontent t2 = (if s then ["-"%char] else []) ++ M).
  { destruct s.
    - destruct (vset_spec t1 0 "-"%char W1) as [(I & t & E1 & W' & C' & S' & K)|[I _]].
      + exists t. split; auto. split; auto. split; [congruence|]. rewrite K, K1. rewrite FN. reflexivity.
      + exfalso. apply (f_equal (@length _)) in K1. rewrite vcontent_length, app_length in K1 by auto. lia.
    - exists t1. split; [reflexivity|]. split; [auto|]. split; [congruence|exact K1]. }
  destruct T2 as (t2 & -> & W2 & C2 & K2). cbn [bind]. set (x := e + Z.of_nat p - 1). rewrite cast32_id by (unfold x; lia).
  (* exponent *)
  assert (XB : -6000 <= x <= 6000) by (unfold x; lia). set (a := Z.abs x).
  assert (EA : (if 0 <? x then Ok x else i32 (- x)) = Ok a). { unfold a. destruct (Z.ltb_spec 0 x); [f_equal; lia|]. rewrite i32_ok by lia. f_equal. lia. }
  assert (MX : exists m, (a = 0 /\ m = O \/ (1 <= m <= 4)%nat /\ 10 ^ (Z.of_nat m - 1) <= a < 10 ^ Z.of_nat m) /\ num_exp_digits x = Ok (Nat.max 2 m) /\ (m = O \/ read 10 0 (digs 10 m (Z.to_N a)) = Some (Z.to_N a) /\ exists c r, digs 10 m (Z.to_N a) = c :: r /\ c <> "0"%char)).
  { unfold num_exp_digits. rewrite EA. cbn [bind]. destruct (Z.eq_dec a 0) as [A0|A0].
    - exists O. rewrite A0. split; [auto|]. split; [reflexivity|auto].
    - destruct (digits_count a) as (m & EM & DM & M1); [unfold a; lia|]. rewrite EM. cbn [bind]. exists m. assert (m <= 4)%nat.
      { destruct (le_lt_dec m 4); auto. exfalso. assert (10 ^ 4 <= 10 ^ (Z.of_nat m - 1)) by (apply Z.pow_le_mono_r; lia). change (10 ^ 4) with 10000 in *. unfold a in *. lia. }
      split; [right; lia|]. split; [unfold min_exp_digits; f_equal; destruct (Nat.ltb_spec m 2); lia|]. right. split; [eapply read_digs; eauto; lia|]. eapply digs_head; eauto; try lia. }
  destruct MX as (m & MC & -> & MR). cbn [bind]. pose proof (vcontent_length t2 W2) as S2. rewrite K2, app_length, ML in S2.
  destruct (vgrow_more t2 (Nat.max 2 m + 2) W2) as (t3 & junk & -> & W3 & C3 & K3 & J3); [rewrite C2; destruct s; cbn [length] in S2; lia|]. cbn [bind]. rewrite EA. cbn [bind].
  destruct (exponent_loop_spec m int_fuel t3 a 1 (vcontent t3) [] (length (vcontent t2) + (Nat.max 2 m - m) + 2)%nat) as (t4 & -> & W4 & C4 & K4); auto.
  { now rewrite app_nil_r. } { unfold int_fuel; lia. } { destruct MC as [MC|MC]; [auto|right; lia]. } { rewrite K3, app_length, J3. lia. }
  cbn [bind]. rewrite app_nil_r in K4.

  replace (firstn (length (vcontent t2) + (Nat.max 2 m - m) + 2) (vcontent t3)) with (vcontent t2 ++ firstn (Nat.max 2 m - m + 2) junk) in K4
    by (rewrite K3, firstn_app, (firstn_all2 (vcontent t2)) by lia; do 2 f_equal; lia).
  set (j4 := firstn (Nat.max 2 m - m + 2) junk) in *. assert (J4 : length j4 = (Nat.max 2 m - m + 2)%nat) by (unfold j4; rewrite firstn_length; lia).
  pose proof (digs_length 10 m (Z.to_N a)) as DL.
  destruct (padding_loop_spec (S min_exp_digits) t4 (1 + m) (vcontent t2 ++ j4) (digs 10 m (Z.to_N a)) (length (vcontent t2) + 2)%nat) as (t5 & -> & W5 & C5 & K5); auto; try lia.
  { unfold min_exp_digits; lia. } { rewrite app_length, J4. lia. }
  cbn [bind]. rewrite firstn_app, (firstn_all2 (vcontent t2)) in K5 by lia. replace (length (vcontent t2) + 2 - length (vcontent t2))%nat with 2%nat in K5 by lia.
  destruct j4 as [|x1 [|x2 j4]]; try (cbn [length] in J4; lia). cbn [firstn] in K5. set (ex := repeat "0"%char (3 - (1 + m)) ++ digs 10 m (Z.to_N a)) in *.
  assert (EL : length ex = ((3 - (1 + m)) + m)%nat) by (unfold ex; rewrite app_length, repeat_length, DL; reflexivity).
  destruct (set_back t5 (vcontent t2 ++ [x1]) ex x2 (if 0 <=? x then "+"%char else "-"%char) (1 + m + (3 - (1 + m)))%nat W5) as (P6 & t6 & E6 & W6 & C6 & K6); [rewrite K5, <- !app_assoc; reflexivity|lia|].
  rewrite P6. cbn [bind]. rewrite E6. cbn [bind]. rewrite <- app_assoc in K6. cbn [app] in K6.
  destruct (set_back t6 (vcontent t2) ((if 0 <=? x then "+"%char else "-"%char) :: ex) x1 "e"%char (S (1 + m + (3 - (1 + m))))%nat W6 K6) as (P7 & t7 & E7 & W7 & C7 & K7); [cbn [length]; lia|].
  rewrite P7. cbn [bind]. rewrite E7. cbn [bind]. rewrite K7. eexists. split; [reflexivity|]. rewrite K2. unfold M.
  pose proof (digs_length 10 p (Z.to_N d)) as PL. pose proof (read_digs 10 ltac:(lia) ltac:(lia) _ _ _ EN) as PR. destruct (digs 10 p (Z.to_N d)) as [|first rest]; [cbn in PL; lia|]. cbn [with_dot].
  exists first, rest, ex. split.
  { rewrite <- !app_assoc. cbn [app]. destruct (Z.ltb_spec x 0), (Z.leb_spec 0 x); try lia; reflexivity. }
  split; [auto|]. split; [auto|]. split.
  { unfold ex. rewrite read_zeros. replace (Z.abs_N x) with (Z.to_N a) by (unfold a; lia). destruct MC as [(A0 & ->)|(M1 & _)]; [rewrite A0; reflexivity|]. destruct MR as [->|(MR & _)]; [lia|exact MR]. }
  split; [lia|]. intros c ex' EX LX. destruct MR as [->|(_ & c1 & r & MR & NZ)]; [exfalso; change (length ex = 2%nat) in EL; change (2 < length ex)%nat in LX; lia|]. unfold ex in EX. replace (3 - (1 + m))%nat with O in EX by lia. rewrite MR in EX. injection EX as <- _. exact NZ.
Qed.

(** ** Accuracy *)
Lemma decimal_sub a b e : (decimal a e - decimal b e == decimal (a - b) e)%Q.
Proof. unfold decimal. unfold Z.sub. rewrite inject_Z_plus, inject_Z_opp. ring. Qed.
Lemma nearest_even_value d e k R : 0 <= k -> nearest_even d k R -> within ((1 # 2) * p10 (e + k)) (decimal d e) (decimal R (e + k)).
Proof.
  intros K (N & _). assert (A : (- inject_Z (10 ^ k) <= 2 * (inject_Z R * inject_Z (10 ^ k) - inject_Z d) <= inject_Z (10 ^ k))%Q).
  { rewrite <- inject_Z_mult. unfold Qminus. rewrite <- !inject_Z_opp, <- inject_Z_plus. change 2%Q with (inject_Z 2). rewrite <- inject_Z_mult. split; apply Zle_Q; lia. }
  unfold within, decimal. fold (p10 e) (p10 (e + k)). rewrite (p10_shift e k K). pose proof (p10_pos e) as X. set (x := p10 e) in *. clearbody x. set (t := inject_Z (10 ^ k)) in *. clearbody t.
  set (r := inject_Z R) in *. set (y := inject_Z d) in *. clearbody r y. clear N. nra.
Qed.

Lemma printed_value (v : Q) d e n p R : precise v d e -> (1 <= p)%nat -> 10 ^ (n - 1) <= d < 10 ^ n -> Z.of_nat p <= n -> nearest_even d (n - Z.of_nat p) R ->
  within ((1 # 2) * p10 (e + (n - Z.of_nat p)) + (48 # 100) * p10 (e + n - 16)) v (decimal R (e + (n - Z.of_nat p))).
Proof.
  intros PR P DN PN NE. pose proof (nearest_even_value d e (n - Z.of_nat p) R ltac:(lia) NE) as N.
  assert (W : within ((48 # 100) * p10 (e + n - 16)) v (decimal d e)).
  { apply PR. right. replace (e + n - 16 + 16) with (e + n) by lia. rewrite p10_shift by lia. unfold decimal. fold (p10 e). pose proof (p10_pos e). assert (inject_Z d <= inject_Z (10 ^ n))%Q by (apply Zle_Q; lia). nra. }
  unfold within in *. lra.
Qed.

Lemma exact_value (v : Q) d e n p R d' x' : precise v d e -> (1 <= p <= 16)%nat -> 10 ^ (n - 1) <= d < 10 ^ n -> Z.of_nat p <= n -> nearest_even d (n - Z.of_nat p) R ->
  (v == decimal d' x')%Q -> 0 <= d' < 10 ^ Z.of_nat p -> (decimal R (e + (n - Z.of_nat p)) == v)%Q.
Proof.
  intros PR P DN PN NE V D'. set (c := e + (n - Z.of_nat p)). destruct (Z_le_gt_dec c x') as [L|L].
  - pose proof (printed_value v d e n p R PR ltac:(lia) DN PN NE) as W. fold c in W.
    assert (E : (decimal d' x' == decimal (d' * 10 ^ (x' - c)) c)%Q) by (replace c with (x' - (x' - c)) at 2 by lia; rewrite decimal_shift by lia; reflexivity).
    rewrite V, E. rewrite E in V. unfold within in W. rewrite V in W. replace (e + n - 16) with (c + (Z.of_nat p - 16)) in W by (unfold c; lia). assert (p10 (c + (Z.of_nat p - 16)) <= p10 c)%Q by (apply p10_le; lia).
    set (a := d' * 10 ^ (x' - c)) in *. pose proof (p10_pos c). assert (R = a) as ->; [|reflexivity].
    assert (- 1 < R - a < 1); [|lia]. unfold decimal in W. fold (p10 c) in W. rewrite 2!Zlt_Qlt. unfold Z.sub. rewrite !inject_Z_plus, !inject_Z_opp. change (inject_Z 1) with 1%Q. change (inject_Z (-1)) with (- (1))%Q.
    set (y := p10 c) in *. set (r := inject_Z R) in *. set (b := inject_Z a) in *. set (z := p10 (c + (Z.of_nat p - 16))) in *. clearbody y r b z. clear - W H H0.
    split; [destruct (Qlt_le_dec (- (1)) (r + - b)) as [|X]; auto; exfalso; assert ((r - b + 1) * y <= 0)%Q by nra; lra|destruct (Qlt_le_dec (r + - b) 1) as [|X]; auto; exfalso; assert (0 <= (r - b - 1) * y)%Q by nra; lra].
  - exfalso. assert (W : within ((48 # 100) * p10 (x' + Z.of_nat p - 16)) v (decimal d e)).
    { apply PR. left. replace (x' + Z.of_nat p - 16 + 16) with (x' + Z.of_nat p) by lia. rewrite V, p10_shift by lia. unfold decimal. fold (p10 x'). pose proof (p10_pos x'). assert (inject_Z d' <= inject_Z (10 ^ Z.of_nat p))%Q by (apply Zle_Q; lia). nra. }
    assert (U : (p10 (x' + Z.of_nat p - 16) <= p10 x')%Q) by (apply p10_le; lia).
    assert (A : (decimal (10 ^ Z.of_nat p) x' <= decimal d e)%Q).
    { apply Qle_trans with (decimal (10 ^ (n - 1)) e); [|apply decimal_le; lia]. unfold decimal. fold (p10 x') (p10 e). rewrite <- !p10_nonneg by lia. rewrite <- !p10_plus. apply p10_le. unfold c in L. lia. }
    assert (B : (decimal d' x' <= decimal (10 ^ Z.of_nat p - 1) x')%Q) by (apply decimal_le; lia). pose proof (decimal_sub (10 ^ Z.of_nat p) (10 ^ Z.of_nat p - 1) x') as C. replace (10 ^ Z.of_nat p - (10 ^ Z.of_nat p - 1)) with 1 in C by lia.
    assert (Dx : (decimal 1 x' == p10 x')%Q) by (unfold decimal; fold (p10 x'); change (inject_Z 1) with 1%Q; ring). pose proof (p10_pos x'). unfold within in W. rewrite V in W. lra.
Qed.

(** ** Appending *)
Definition appended (ss : sstr) (s : str) (r : res (sstr * bool)) : Prop :=
  exists ss' b, r = Ok (ss', b) /\ wf ss' /\ vcap ss' = vcap ss /\ vcontent ss' = firstn (vcap ss) (vcontent ss ++ s) /\ b = (length (vcontent ss ++ s) <=? vcap ss)%nat.
Lemma appended_constexpr ss s : wf ss -> appended ss s (append_constexpr ss s).
Proof.
  intros W. rewrite append_constexpr_eq by auto. destruct (append_fast_spec ss s W) as (ss' & E & W' & C & K & Sz & B). exists ss'. eexists. split; [exact E|]. split; auto. split; auto. pose proof (vcontent_length ss W) as L. unfold wf in W. split.
  - rewrite K, firstn_app. rewrite (firstn_all2 (vcontent ss)) by (rewrite L; exact W). now rewrite L.
  - rewrite app_length, L. destruct (Nat.leb_spec (length s) (vcap ss - vsize ss)), (Nat.leb_spec (vsize ss + length s) (vcap ss)); auto; lia.
Qed.
Lemma appended_seq ss s1 s2 r (k : sstr -> res (sstr * bool)) : appended ss s1 r -> (forall ss1, wf ss1 -> appended ss1 s2 (k ss1)) ->
  appended ss (s1 ++ s2) (do (ss1, ok1) <- r ;; if negb ok1 then Ok (ss1, false) else k ss1).
Proof.
  intros (ss1 & b & -> & W & C & K & B) H. cbn [bind]. unfold appended. rewrite app_assoc. destruct (Nat.leb_spec (length (vcontent ss ++ s1)) (vcap ss)) as [L|L]; subst b; cbn [negb].
  - destruct (H ss1 W) as (ss2 & b2 & -> & W2 & C2 & K2 & B2). rewrite (firstn_all2 (vcontent ss ++ s1)) in K by lia. rewrite K in *. rewrite C in *. exists ss2, b2. split; auto.
  - exists ss1, false. split; [reflexivity|]. split; auto. split; auto. split.
    + rewrite K. rewrite (firstn_app_le _ (vcontent ss ++ s1) s2) by lia. reflexivity.
    + symmetry. apply Nat.leb_gt. rewrite app_length. lia.
Qed.

Lemma same_value t f bits : known t f -> pattern f bits -> exponent_of f bits <> t_special t ->
  number_of f bits = Finite (negative f bits) (mantissa t (to_bits t bits)) (scale t (to_bits t bits)).
Proof.
  intros K P N. rewrite (to_bits_fields t f bits K P). unfold number_of, mantissa, scale. cbn [significand bexponent].
  destruct K as [(-> & ->)|(-> & ->)]; cbn [t_special t_sig_bits t_exp_origin float_traits double_traits] in *.
  - change (2 ^ exponent_bits binary32 - 1) with 255. rewrite (proj2 (Z.eqb_neq _ _) N). change (bias binary32) with 127. cbn [fraction_bits binary32]. destruct (exponent_of binary32 bits =? 0); f_equal; lia.
  - change (2 ^ exponent_bits binary64 - 1) with 2047. rewrite (proj2 (Z.eqb_neq _ _) N). change (bias binary64) with 1023. cbn [fraction_bits binary64]. destruct (exponent_of binary64 bits =? 0); f_equal; lia.
Qed.

Lemma append_finite t f bits ss p : known t f -> pattern f bits -> exponent_of f bits <> t_special t -> mantissa t (to_bits t bits) <> 0 -> wf ss -> (1 <= p <= 19)%nat ->
  exists T, prints p (number_of f bits) T /\ appended ss T (do fd <- to_fixed t (to_bits t bits) ;; do fd1 <- set_precision fd p ;; append_fixed ss fd1).
Proof.
  intros K P SP NZ W PP. rewrite (same_value t f bits K P SP).
  assert (FB : 0 <= significand (to_bits t bits) < 2 ^ t_sig_bits t /\ 0 <= bexponent (to_bits t bits) < t_special t /\ bsign (to_bits t bits) = negative f bits).
  { rewrite (to_bits_fields t f bits K P). cbn [significand bexponent bsign]. unfold fraction_of in *. unfold exponent_of in *. destruct K as [(-> & ->)|(-> & ->)]; cbn [t_special t_sig_bits float_traits double_traits fraction_bits exponent_bits binary32 binary64] in *; (split; [apply Z.mod_pos_bound; lia|]); (split; [|reflexivity]).
    - assert (0 <= bits / 2 ^ 23 mod 2 ^ 8 < 2 ^ 8) by (apply Z.mod_pos_bound; lia). change (2 ^ 8) with 256 in *. lia.
    - assert (0 <= bits / 2 ^ 52 mod 2 ^ 11 < 2 ^ 11) by (apply Z.mod_pos_bound; lia). change (2 ^ 11) with 2048 in *. lia. }
  destruct FB as (FB & EB & SB). set (b := to_bits t bits) in *. clearbody b.
  assert (MP : 0 < mantissa t b). { unfold mantissa in *. destruct (bexponent b =? 0); [lia|]. assert (0 < 2 ^ t_sig_bits t) by lia. lia. }
  destruct (to_fixed_accurate t f b K FB EB MP) as (d & e & -> & DB & E6 & PR). cbn [bind]. rewrite cap_value in DB.
  destruct (digits_count d ltac:(lia)) as (n & EN & DN & N1).
  assert (N19 : 19 <= Z.of_nat n). { destruct (Z_le_gt_dec 19 (Z.of_nat n)); auto. exfalso. assert (10 ^ Z.of_nat n <= 10 ^ 18) by (apply Z.pow_le_mono_r; lia). change (10 ^ 18) with 1000000000000000000 in *. lia. }
  assert (N20 : (n <= 20)%nat) by (apply (num_digits_u_le20 10 ltac:(lia) ltac:(lia) (Z.to_N d)); auto; lia).
  destruct (set_precision_spec d e (bsign b) p (Z.of_nat n)) as (R & D & E & -> & NE & DP & RD); try lia. cbn [bind].
  assert (D64 : 0 < D < 2 ^ 64). { assert (0 < 10 ^ (Z.of_nat p - 1)) by (apply Z.pow_pos_nonneg; lia). assert (10 ^ Z.of_nat p <= 10 ^ 19) by (apply Z.pow_le_mono_r; lia). change (10 ^ 19) with 10000000000000000000 in *. lia. }
  destruct (append_fixed_spec ss D E (bsign b) p) as (T & -> & SC); auto; try lia. exists T. split; [|now apply appended_constexpr]. rewrite <- SB.
  exists (Z.to_N D), (E + Z.of_nat p - 1). split; auto. split; [lia|]. split; [lia|].
  unfold scientific_value. rewrite Z2N.id by lia. replace (E + Z.of_nat p - 1 - (Z.of_nat p - 1)) with E by lia.
  assert (RV : (decimal D E == decimal R (e + (Z.of_nat n - Z.of_nat p)))%Q /\ e + (Z.of_nat n - Z.of_nat p) <= E).
  { destruct RD as [(-> & ->)|(-> & -> & ->)]; [split; [reflexivity|lia]|]. split; [|lia]. set (c := e + (Z.of_nat n - Z.of_nat p)).
    rewrite <- (decimal_shift (10 ^ (Z.of_nat p - 1)) (c + 1) 1) by lia. replace (c + 1 - 1) with c by lia. rewrite <- Z.pow_add_r by lia. replace (Z.of_nat p - 1 + 1) with (Z.of_nat p) by lia. reflexivity. }
  destruct RV as (RV & RE). split.
  - pose proof (printed_value _ d e (Z.of_nat n) p R PR ltac:(lia) DN ltac:(lia) NE) as PV. unfold within in *. rewrite RV. unfold error_bound. replace (E + Z.of_nat p - 1 - (Z.of_nat p - 1)) with E by lia. fold (p10 E) (p10 (E + Z.of_nat p - 1 - 15)).
    assert (p10 (e + (Z.of_nat n - Z.of_nat p)) <= p10 E)%Q by (apply p10_le; lia). assert (p10 (e + Z.of_nat n - 16) <= p10 (E + Z.of_nat p - 1 - 15))%Q by (apply p10_le; lia). lra.
  - intros P16 (d' & x' & V & D'). rewrite RV. eapply exact_value; eauto; lia.
Qed.

Lemma read_all_zeros n : read 10 0 (repeat "0"%char n) = Some 0%N.
Proof. induction n; auto. Qed.
Lemma zero_text s p q : (1 <= p <= 19)%nat ->
  prints p (Finite s 0 q) ((if s then lit "-0." else lit "0.") ++ (match p with O => repeat "0"%char 18 | S n => firstn n (repeat "0"%char 18) end) ++ lit "e+00").
Proof.
  intros P. destruct p as [|p]; [lia|]. assert (F : firstn p (repeat "0"%char 18) = repeat "0"%char p). { replace 18%nat with (p + (18 - p))%nat by lia. rewrite repeat_app, firstn_app_le, firstn_all2 by (rewrite repeat_length; lia). reflexivity. }
  rewrite F. assert (V : (scientific_value (S p) 0 0 == 0)%Q) by (unfold scientific_value, decimal; change (inject_Z (Z.of_N 0)) with 0%Q; ring).
  assert (B : (binary 0 q == 0)%Q) by (unfold binary; change (inject_Z 0) with 0%Q; ring).
  exists 0%N, 0. split.
  - exists "0"%char, (repeat "0"%char p), ["0"; "0"]%char. split; [destruct s; cbn [app lit]; reflexivity|]. split; [cbn [length]; now rewrite repeat_length|]. split; [apply (read_all_zeros (S p))|]. split; [reflexivity|]. split; [cbn; lia|]. cbn [length]. lia.
  - split; [auto|]. split; [lia|]. split; [|intros; now rewrite V, B]. unfold within. rewrite V, B. unfold error_bound. pose proof (p10_pos (0 - (Z.of_nat (S p) - 1))). pose proof (p10_pos (0 - 15)). unfold p10 in *. lra.
Qed.

Theorem append_float_spec t f bits ss precision : known t f -> pattern f bits -> wf ss -> (1 <= precision)%nat ->
  exists T, prints (Nat.min precision 19) (number_of f bits) T /\ appended ss T (append_float t ss bits precision).
Proof.
  intros K P W PP. unfold append_float, append_float_bits.
  replace (if (precision <=? 19)%nat then precision else 19%nat) with (Nat.min precision 19) by (destruct (Nat.leb_spec precision 19); lia).
  set (p := Nat.min precision 19). assert (PB : (1 <= p <= 19)%nat) by (unfold p; lia). clearbody p.
  pose proof (append_finite t f bits ss p K P) as FIN. pose proof (same_value t f bits K P) as SV. rewrite (to_bits_fields t f bits K P) in *. cbn [significand bexponent bsign] in *. set (b := mkbits _ _ _) in *.
  assert (SP : 0 < t_special t /\ t_special t = 2 ^ exponent_bits f - 1 /\ 0 < 2 ^ t_sig_bits t) by (destruct K as [(-> & ->)|(-> & ->)]; cbn; lia). destruct SP as (SP & SE & SG).
  assert (FP : 0 <= fraction_of f bits) by (unfold fraction_of; destruct K as [(_ & ->)|(_ & ->)]; apply Z.mod_pos_bound; cbn [fraction_bits binary32 binary64]; lia).
  destruct (Z.eqb_spec (exponent_of f bits) 0) as [E0|E0].
  - specialize (FIN ltac:(lia)). specialize (SV ltac:(lia)).
    assert (MB : mantissa t b = fraction_of f bits) by (unfold mantissa, b; cbn [significand bexponent]; rewrite E0; reflexivity). rewrite MB in FIN, SV.
    destruct (Z.eqb_spec (fraction_of f bits) 0) as [F0|F0].
    + rewrite F0 in SV. rewrite SV. eexists. split; [apply zero_text; auto|]. apply appended_seq; [now apply appended_constexpr|]. intros ss1 W1. apply appended_seq; [now apply appended_constexpr|]. intros ss2 W2. now apply appended_constexpr.
    + apply FIN; auto.
  - destruct (Z.eqb_spec (exponent_of f bits) (t_special t)) as [ES|ES].
    + unfold number_of. rewrite <- SE, ES, Z.eqb_refl. destruct (fraction_of f bits =? 0).
      * eexists. split; [|now apply appended_constexpr]. destruct (negative f bits); reflexivity.
      * eexists. split; [|now apply appended_constexpr]. reflexivity.
    + apply FIN; auto. unfold mantissa, b. cbn [significand bexponent]. rewrite (proj2 (Z.eqb_neq _ _) E0). lia.
Qed.
