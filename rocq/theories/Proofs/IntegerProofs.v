From Verif.Model Require Import Base Vector StringUtil Integer.
From Verif.Spec Require Import TextSpec NumberSpec.
From Verif.Proofs Require Import Lists VectorProofs AppendProofs ReplaceProofs.
From Coq Require Import ZifyBool ZifyNat ZifyN.
Ltac Zify.zify_post_hook ::= Z.div_mod_to_equations.
Local Open Scope N_scope.

(** ** Digits *)

Definition dig (k : N) : ascii := match nth_error digit_table (N.to_nat k) with Some c => c | None => zero end.

Lemma below16 (P : N -> Prop) : P 0 -> P 1 -> P 2 -> P 3 -> P 4 -> P 5 -> P 6 -> P 7 -> P 8 -> P 9 -> P 10 ->
  P 11 -> P 12 -> P 13 -> P 14 -> P 15 -> forall k, k < 16 -> P k.
Proof.
  intros. assert (D : k = 0 \/ k = 1 \/ k = 2 \/ k = 3 \/ k = 4 \/ k = 5 \/ k = 6 \/ k = 7 \/ k = 8 \/ k = 9 \/ k = 10
    \/ k = 11 \/ k = 12 \/ k = 13 \/ k = 14 \/ k = 15) by lia.
  repeat (destruct D as [->|D]; [assumption|]). subst; assumption.
Qed.

Lemma digit_ok k : k < 16 -> digit k = Ok (dig k) /\ digit_value (dig k) = Some k /\ (k <> 0 -> dig k <> "0"%char).
Proof. revert k; apply below16; repeat split; try reflexivity; try (intros _; discriminate); congruence. Qed.

Lemma digit_dig k : k < 16 -> digit k = Ok (dig k).
Proof. apply digit_ok. Qed.

Lemma nth_dig k : k < 16 -> nth_error digit_table (N.to_nat k) = Some (dig k).
Proof. intros H. apply digit_dig in H. unfold digit in H. destruct (nth_error digit_table (N.to_nat k)); congruence. Qed.

(** [m] digits, most significant first. *)
Fixpoint digs (base : N) (m : nat) (x : N) : str :=
  match m with O => [] | S m' => digs base m' (x / base) ++ [dig (x mod base)] end.

Lemma digs_length base m x : length (digs base m x) = m.
Proof. revert x; induction m; simpl; auto. intros. rewrite app_length, IHm. simpl. lia. Qed.

Lemma read_app base s1 s2 acc : read base acc (s1 ++ s2) = match read base acc s1 with Some a => read base a s2 | None => None end.
Proof. revert acc; induction s1; simpl; intros; auto. destruct (digit_value a); auto. destruct (n <? base); auto. Qed.

Section Base.
Variable base : N.
Hypothesis B2 : 2 <= base.
Hypothesis B16 : base <= 16.

Lemma read_digs fuel x m : num_digits_u fuel base x = Ok m -> read base 0 (digs base m x) = Some x.
Proof using B2 B16.
  revert x m; induction fuel; intros x m; cbn [num_digits_u]; [discriminate|].
  destruct (N.leb_spec base x).
  - destruct (num_digits_u fuel base (x / base)) eqn:E; [|discriminate]. cbn [bind]. intros H1; injection H1 as <-.
    cbn [Nat.add digs]. rewrite read_app, (IHfuel _ _ E). cbn [read].
    assert (x mod base < base) by (apply N.mod_lt; lia).
    destruct (digit_ok (x mod base)) as (_ & -> & _); [lia|].
    destruct (N.ltb_spec (x mod base) base); [|lia]. f_equal.
    rewrite N.mul_comm. symmetry. apply N.div_mod. lia.
  - intros H1; injection H1 as <-. cbn [digs app read].
    rewrite N.mod_small by lia. destruct (digit_ok x) as (_ & -> & _); [lia|].
    destruct (N.ltb_spec x base); [|lia]. f_equal; lia.
Qed.

Lemma digs_head fuel x m : x <> 0 -> num_digits_u fuel base x = Ok m ->
  exists c s, digs base m x = c :: s /\ c <> "0"%char.
Proof using B2 B16.
  revert x m; induction fuel; intros x m X; cbn [num_digits_u]; [discriminate|].
  destruct (N.leb_spec base x).
  - destruct (num_digits_u fuel base (x / base)) eqn:E; [|discriminate]. cbn [bind]. intros H1; injection H1 as <-.
    cbn [Nat.add digs]. assert (x / base <> 0). { assert (x / base >= 1); [|lia]. apply N.le_ge, N.div_le_lower_bound; lia. }
    destruct (IHfuel _ _ H0 E) as (c & s & -> & C). exists c, (s ++ [dig (x mod base)]). auto.
  - intros H1; injection H1 as <-. cbn [digs app]. rewrite N.mod_small by lia.
    exists (dig x), []. split; auto. apply (digit_ok x); [lia|auto].
Qed.

Lemma writes_digs fuel x m : num_digits_u fuel base x = Ok m -> writes base (digs base m x) x.
Proof using B2 B16.
  intros H. split; [eapply read_digs; eauto|].
  destruct (N.eq_dec x 0) as [->|X].
  - destruct fuel; cbn [num_digits_u] in H; [discriminate|]. destruct (N.leb_spec base 0); [lia|]. injection H as <-.
    cbn [digs app]. split; [discriminate|]. intros s' E. injection E; intros; auto.
  - destruct (digs_head _ _ _ X H) as (c & s & E & C). rewrite E. split; [discriminate|].
    intros s' E2. injection E2 as -> _. congruence.
Qed.

(** Number of digits of bounded values. *)
Lemma num_digits_u_total fuel x : x < 2 ^ N.of_nat fuel -> fuel <> O -> exists m, num_digits_u fuel base x = Ok m.
Proof using B2 B16.
  revert x; induction fuel; intros x H F; [congruence|]. cbn [num_digits_u].
  destruct (N.leb_spec base x); [|eauto].
  assert (D : x / base < 2 ^ N.of_nat fuel).
  { apply N.div_lt_upper_bound; [lia|].
    rewrite Nnat.Nat2N.inj_succ, N.pow_succ_r' in H.
    apply N.lt_le_trans with (1 := H). apply N.mul_le_mono_r; lia. }
  destruct fuel.
  - simpl in H. lia.
  - destruct (IHfuel _ D) as [m ->]; [congruence|]. cbn [bind]. eauto.
Qed.

Lemma num_digits_u_pow fuel x m : num_digits_u fuel base x = Ok m -> x <> 0 -> base ^ N.of_nat (m - 1) <= x.
Proof using B2 B16.
  revert x m; induction fuel; intros x m; cbn [num_digits_u]; [discriminate|].
  destruct (N.leb_spec base x).
  - destruct (num_digits_u fuel base (x / base)) as [m1|] eqn:E; [|discriminate]. cbn [bind]. intros H1 X; injection H1 as <-.
    assert (x / base <> 0). { assert (x / base >= 1); [|lia]. apply N.le_ge, N.div_le_lower_bound; lia. }
    specialize (IHfuel _ _ E H0).
    assert (M1 : (1 <= m1)%nat). { destruct fuel; cbn [num_digits_u] in E; [discriminate|].
      destruct (base <=? x / base); [destruct (num_digits_u fuel base (x / base / base)); cbn [bind] in E|]; try discriminate; injection E as <-; lia. }
    match goal with |- base ^ N.of_nat ?e <= _ => replace e with (S (m1 - 1)) by lia end.
    rewrite Nnat.Nat2N.inj_succ, N.pow_succ_r'.
    apply N.le_trans with (base * (x / base)). apply N.mul_le_mono_l; auto. apply N.mul_div_le; lia.
  - intros H1 X; injection H1 as <-. simpl. lia.
Qed.

Lemma num_digits_u_pos fuel x m : num_digits_u fuel base x = Ok m -> (1 <= m)%nat.
Proof using B2 B16.
  destruct fuel; cbn [num_digits_u]; [discriminate|].
  destruct (base <=? x); [destruct (num_digits_u fuel base (x / base)); cbn [bind]|]; try discriminate;
  intros E; injection E as <-; lia.
Qed.

(** The loop writes the digits, from the last position to the first. *)
Lemma digits_loop_u_spec : forall fuel tmp j k m, wf tmp -> (1 <= k)%nat ->
  (j = 0 -> m = O) -> (j <> 0 -> num_digits_u fuel base j = Ok m) -> (m + (k - 1) <= vsize tmp)%nat ->
  exists tmp', digits_loop_u fuel base tmp j k = Ok tmp' /\ wf tmp' /\ vcap tmp' = vcap tmp /\ vsize tmp' = vsize tmp /\
   vcontent tmp' = firstn (vsize tmp - (k - 1) - m) (vcontent tmp) ++ digs base m j ++ skipn (vsize tmp - (k - 1)) (vcontent tmp).
Proof using B2 B16.
  assert (Z0 : forall tmp j k m, wf tmp -> (1 <= k)%nat ->
    (j = 0 -> m = O) -> j = 0 -> (m + (k - 1) <= vsize tmp)%nat ->
    vcontent tmp = firstn (vsize tmp - (k - 1) - m) (vcontent tmp) ++ digs base m j ++ skipn (vsize tmp - (k - 1)) (vcontent tmp)).
  { intros. rewrite (H1 H2) in *. cbn [digs app]. rewrite Nat.sub_0_r. now rewrite firstn_skipn. }
  induction fuel; intros tmp j k m W K M0 M1 Sz; cbn [digits_loop_u]; destruct (N.eqb_spec j 0) as [J|J].
  - exists tmp. repeat split; auto.
  - specialize (M1 J). discriminate.
  - exists tmp. repeat split; auto.
  - specialize (M1 J). pose proof (num_digits_u_pos _ _ _ M1) as Mp. cbn [num_digits_u] in M1.
    rewrite csub_ok by lia. cbn [bind].
    assert (Jb : j mod base < base) by (apply N.mod_lt; lia).
    rewrite digit_dig by lia. cbn [bind].
    destruct (vset_spec tmp (vsize tmp - k) (dig (j mod base)) W) as [(H & t1 & E & W1 & C1 & S1 & K1)|[H _]]; [|lia].
    rewrite E. cbn [bind].
    pose proof (vcontent_length tmp W) as L.
    replace (S (vsize tmp - k)) with (vsize tmp - (k - 1))%nat in K1 by lia.
    destruct (N.leb_spec base j) as [Hb|Hb].
    + destruct (num_digits_u fuel base (j / base)) as [m1|] eqn:Em; [|discriminate]. cbn [bind] in M1. injection M1 as <-.
      assert (Jd : j / base <> 0). { assert (j / base >= 1); [|lia]. apply N.le_ge, N.div_le_lower_bound; lia. }
      destruct (IHfuel t1 (j / base) (S k) m1) as (t2 & E2 & W2 & C2 & S2 & K2); auto; try lia.
      exists t2. repeat split; auto; try congruence. rewrite K2, K1, S1.
      replace (vsize tmp - (S k - 1) - m1)%nat with (vsize tmp - (k - 1) - (1 + m1))%nat by lia.
      replace (vsize tmp - (S k - 1))%nat with (vsize tmp - k)%nat by lia.
      rewrite firstn_app_le by (rewrite firstn_length; lia). rewrite firstn_firstn, Nat.min_l by lia.
      rewrite skipn_app_ge by (rewrite firstn_length; lia). rewrite firstn_length.
      replace (vsize tmp - k - Nat.min (vsize tmp - k) (length (vcontent tmp)))%nat with O by lia.
      cbn [skipn Nat.add digs]. rewrite <- !app_assoc. cbn [app]. auto.
    + injection M1 as <-.
      assert (Jd : j / base = 0) by (apply N.div_small; lia).
      destruct (IHfuel t1 (j / base) (S k) O) as (t2 & E2 & W2 & C2 & S2 & K2); auto; try lia.
      exists t2. repeat split; auto; try congruence. rewrite K2, K1, S1. cbn [digs app].
      replace (vsize tmp - (S k - 1) - 0)%nat with (vsize tmp - k)%nat by lia.
      replace (vsize tmp - (S k - 1))%nat with (vsize tmp - k)%nat by lia.
      rewrite firstn_skipn. replace (vsize tmp - (k - 1) - 1)%nat with (vsize tmp - k)%nat by lia. auto.
Qed.

Lemma num_digits_u_le20 x m : 10 <= base -> x < 2 ^ 64 -> num_digits_u int_fuel base x = Ok m -> (m <= 20)%nat.
Proof using B2 B16.
  intros B10 X H. destruct (N.eq_dec x 0) as [->|X0].
  - cbn in H. destruct base; [lia|]. cbn in H. injection H as <-. lia.
  - pose proof (num_digits_u_pow _ _ _ H X0) as P. destruct (le_lt_dec m 20); auto. exfalso.
    assert (10 ^ 20 <= base ^ N.of_nat (m - 1)).
    { apply N.le_trans with (base ^ 20). apply N.pow_le_mono_l; lia. apply N.pow_le_mono_r; lia. }
    assert (2 ^ 64 < 10 ^ 20) by reflexivity. lia.
Qed.

Lemma num_digits_u_hex x m : base = 16 -> x < 2 ^ 64 -> num_digits_u int_fuel base x = Ok m -> (m <= 16)%nat.
Proof using B2 B16.
  intros B10 X H. destruct (N.eq_dec x 0) as [->|X0].
  - cbn in H. destruct base; [lia|]. cbn in H. injection H as <-. lia.
  - pose proof (num_digits_u_pow _ _ _ H X0) as P. destruct (le_lt_dec m 16); auto. exfalso.
    rewrite B10 in P.
    assert (16 ^ 16 <= 16 ^ N.of_nat (m - 1)) by (apply N.pow_le_mono_r; lia).
    assert (2 ^ 64 = 16 ^ 16) by reflexivity. lia.
Qed.

Lemma to_chars_digits_eq fuel x m : num_digits_u fuel base x = Ok m -> to_chars_digits fuel base x = digs base m x.
Proof using B2 B16.
  revert x m; induction fuel; intros x m; cbn [num_digits_u to_chars_digits]; [discriminate|].
  assert (x mod base < base) by (apply N.mod_lt; lia).
  rewrite nth_dig by lia. destruct (base <=? x).
  - destruct (num_digits_u fuel base (x / base)) eqn:E; [|discriminate]. cbn [bind]. intros H1; injection H1 as <-.
    cbn [Nat.add digs]. now rewrite (IHfuel _ _ E).
  - intros H1; injection H1 as <-. reflexivity.
Qed.

Lemma append_uint_constexpr_spec ss i : 10 <= base -> wf ss -> i < 2 ^ 64 ->
  append_uint_constexpr base ss i = append ss (to_chars_uint base i).
Proof using B2 B16.
  intros B10 W I. unfold append_uint_constexpr.
  destruct (num_digits_u_total int_fuel i) as [m Em]; auto. discriminate.
  unfold to_chars_uint. rewrite (to_chars_digits_eq _ _ _ Em).
  destruct (N.eqb_spec i 0) as [->|I0].
  - cbn in Em. destruct base; [lia|]. cbn in Em. injection Em as <-.
    rewrite append_constexpr_eq by auto. reflexivity.
  - rewrite Em. cbn [bind]. pose proof (num_digits_u_le20 _ _ B10 I Em).
    unfold vresize. rewrite vcap_new. unfold max_uint_length. destruct (Nat.ltb_spec 20 m); [lia|]. cbn [bind].
    destruct (digits_loop_u_spec int_fuel (mkvec (vbuf (new_string 20)) m) i 1 m) as (t & E & Wt & Ct & St & Kt); auto; try lia.
    { unfold wf, vcap; simpl. lia. }
    rewrite E. cbn [bind]. rewrite append_constexpr_eq by auto. unfold append. f_equal. rewrite Kt. cbn [vsize].
    rewrite Nat.sub_diag, Nat.sub_0_r. rewrite Nat.sub_diag. cbn [firstn app].
    rewrite skipn_all2, app_nil_r; auto.
    unfold vcontent. cbn [vbuf vsize]. rewrite firstn_length. lia.
Qed.
End Base.

(** ** Signed integers *)

Lemma num_digits_s_spec fuel z : (0 <> z)%Z ->
  num_digits_s fuel 10 z = do m <- num_digits_u fuel 10 (Z.abs_N z) ;; Ok (if (z <? 0)%Z then S m else m).
Proof.
  revert z; induction fuel; intros z Z0; cbn [num_digits_s num_digits_u]; auto.
  destruct ((10 <=? z)%Z || (z <=? - (10))%Z) eqn:C.
  - destruct (N.leb_spec 10 (Z.abs_N z)); [|lia].
    rewrite IHfuel by lia.
    replace (Z.abs_N (Z.quot z 10)) with (Z.abs_N z / 10).
    2:{ apply N2Z.inj. rewrite N2Z.inj_div, !N2Z.inj_abs_N.
        destruct z; simpl Z.abs; auto; lia. }
    destruct (num_digits_u fuel 10 (Z.abs_N z / 10)); cbn [bind]; auto.
    destruct (Z.ltb_spec (Z.quot z 10) 0), (Z.ltb_spec z 0); auto; lia.
  - destruct (N.leb_spec 10 (Z.abs_N z)); [lia|]. cbn [bind].
    destruct (Z.ltb_spec 0 z), (Z.ltb_spec z 0); auto; lia.
Qed.

Lemma digits_loop_s_spec neg fuel tmp j k : digits_loop_s neg fuel 10 tmp (if neg then - Z.of_N j else Z.of_N j) k
  = digits_loop_u fuel 10 tmp j k.
Proof.
  revert tmp j k; induction fuel; intros; cbn [digits_loop_s digits_loop_u].
  - destruct (N.eqb_spec j 0), (Z.eqb_spec (if neg then - Z.of_N j else Z.of_N j) 0); auto; destruct neg; lia.
  - destruct (N.eqb_spec j 0), (Z.eqb_spec (if neg then - Z.of_N j else Z.of_N j) 0); auto; try (destruct neg; lia).
    destruct (csub (vsize tmp) k); cbn [bind]; auto.
    assert (R : (if neg then - Z.rem (if neg then - Z.of_N j else Z.of_N j) 10 else Z.rem (if neg then - Z.of_N j else Z.of_N j) 10)%Z
      = Z.of_N (j mod 10)). { destruct neg; lia. }
    rewrite R. unfold digit_z. destruct (Z.ltb_spec (Z.of_N (j mod 10)) 0); [lia|]. rewrite N2Z.id.
    destruct (digit (j mod 10)); cbn [bind]; auto. destruct (vset tmp a a0); cbn [bind]; auto.
    rewrite <- IHfuel. f_equal. destruct neg; lia.
Qed.

Lemma append_int_constexpr_spec ss i : wf ss -> (- 2 ^ 63 <= i < 2 ^ 63)%Z ->
  append_int_constexpr 10 ss i = append ss (to_chars_int i).
Proof.
  intros W I. unfold append_int_constexpr, to_chars_int.
  assert (Ia : Z.abs_N i < 2 ^ 64) by lia.
  destruct (num_digits_u_total 10 ltac:(lia) ltac:(lia) int_fuel (Z.abs_N i)) as [m Em]; auto. discriminate.
  unfold to_chars_uint. rewrite (to_chars_digits_eq 10 ltac:(lia) ltac:(lia) _ _ _ Em).
  pose proof (num_digits_u_le20 10 ltac:(lia) ltac:(lia) _ _ ltac:(lia) Ia Em).
  destruct (Z.ltb_spec 0 i).
  - rewrite num_digits_s_spec by lia. rewrite Em. cbn [bind].
    destruct (Z.ltb_spec i 0); [lia|].
    unfold vresize. rewrite vcap_new. unfold max_int_length. destruct (Nat.ltb_spec 21 m); [lia|]. cbn [bind].
    replace i with (if false then - Z.of_N (Z.abs_N i) else Z.of_N (Z.abs_N i))%Z at 1 by lia.
    rewrite (digits_loop_s_spec false).
    destruct (digits_loop_u_spec 10 ltac:(lia) ltac:(lia) int_fuel (mkvec (vbuf (new_string 21)) m) (Z.abs_N i) 1 m) as (t & E & Wt & Ct & St & Kt); auto; try lia.
    { unfold wf, vcap; simpl. lia. }
    rewrite E. cbn [bind]. rewrite append_constexpr_eq by auto. unfold append. f_equal. rewrite Kt. cbn [vsize].
    rewrite Nat.sub_diag, Nat.sub_0_r. rewrite Nat.sub_diag. cbn [firstn app].
    rewrite skipn_all2, app_nil_r; auto.
    unfold vcontent. cbn [vbuf vsize]. rewrite firstn_length. lia.
  - destruct (Z.ltb_spec i 0).
    + rewrite num_digits_s_spec by lia. rewrite Em. cbn [bind].
      destruct (Z.ltb_spec i 0); [|lia].
      unfold vresize. rewrite vcap_new. unfold max_int_length. destruct (Nat.ltb_spec 21 (S m)); [lia|]. cbn [bind].
      replace i with (if true then - Z.of_N (Z.abs_N i) else Z.of_N (Z.abs_N i))%Z at 1 by lia.
      rewrite (digits_loop_s_spec true).
      destruct (digits_loop_u_spec 10 ltac:(lia) ltac:(lia) int_fuel (mkvec (vbuf (new_string 21)) (S m)) (Z.abs_N i) 1 m) as (t & E & Wt & Ct & St & Kt); auto; try lia.
      { unfold wf, vcap; simpl. lia. }
      rewrite E. cbn [bind]. cbn [vsize] in *.
      destruct (vset_spec t 0 "-"%char Wt) as [(_ & t1 & E1 & W1 & C1 & S1 & K1)|[Q _]]; [|lia].
      rewrite E1. cbn [bind]. rewrite append_constexpr_eq by auto. unfold append. f_equal. rewrite K1, Kt.
      cbn [firstn app]. f_equal.
      replace (S m - (1 - 1) - m)%nat with 1%nat by lia. replace (S m - (1 - 1))%nat with (S m) by lia.
      set (c := vcontent _). assert (length c = S m).
      { subst c. unfold vcontent. cbn [vbuf vsize]. rewrite firstn_length. simpl. lia. }
      rewrite (skipn_all2 c) by lia. rewrite app_nil_r.
      rewrite skipn_app_ge by (rewrite firstn_length; lia). rewrite firstn_length.
      replace (1 - Nat.min 1 (length c))%nat with O by lia. reflexivity.
    + assert (i = 0%Z) by lia. subst. cbn in Em. injection Em as <-.
      rewrite append_constexpr_eq by auto. reflexivity.
Qed.

(** ** Run-time path *)

Lemma append_to_spec ss txt g1 g2 : wf ss -> (length txt <= 32)%nat -> (vcap ss <= length g1)%nat ->
  exists ss' b, append_to ss txt g1 g2 = Ok (ss', b) /\ wf ss' /\ vcap ss' = vcap ss /\
    vcontent ss' = firstn (vcap ss) (vcontent ss ++ txt) /\ b = (length (vcontent ss ++ txt) <=? vcap ss)%nat.
Proof.
  intros W T G. unfold append_to. pose proof W as W0. unfold wf in W0. rewrite csub_ok by auto. cbn [bind].
  pose proof (vcontent_length ss W) as L.
  destruct (content_split ss _ W eq_refl) as (tail & Eb & _ & Ec).
  unfold to_chars at 1. destruct (Nat.leb_spec (length txt) (vcap ss - vsize ss)).
  - unfold vcap in *. rewrite memwrite_total by lia. cbn [bind]. unfold vgrow, vcap. cbn [vbuf vsize].
    assert (Lb : length (firstn (vsize ss) (vbuf ss) ++ txt ++ skipn (vsize ss + length txt) (vbuf ss)) = length (vbuf ss)).
    { rewrite !app_length, firstn_length, skipn_length. lia. }
    rewrite Lb. destruct (Nat.ltb_spec (length (vbuf ss)) (vsize ss + length txt)); [lia|]. cbn [bind].
    eexists. eexists. split; [reflexivity|]. unfold wf, vcap, vcontent; cbn [vbuf vsize]. rewrite Lb.
    repeat split; try lia.
    + rewrite app_assoc. rewrite firstn_app_le by (rewrite app_length, firstn_length; lia).
      set (X := firstn (vsize ss) (vbuf ss) ++ txt).
      assert (length X = vsize ss + length txt)%nat by (unfold X; rewrite app_length, firstn_length; lia).
      clearbody X. rewrite !firstn_all2 by lia. auto.
    + symmetry. apply Nat.leb_le. rewrite app_length, firstn_length. lia.
  - unfold vcap in *. rewrite memwrite_total by (rewrite firstn_length; lia). cbn [bind].
    match goal with |- context [mkvec ?b (vsize ss)] => set (b1 := b) in * end.
    assert (Lb : length b1 = length (vbuf ss)).
    { subst b1. rewrite !app_length, skipn_length, !firstn_length. lia. }
    unfold to_chars. rewrite (proj2 (Nat.leb_le (length txt) 32) T).
    change (vbuf (new_string 32)) with (repeat zero 32).
    rewrite memwrite_total by (rewrite repeat_length; lia). cbn [bind]. unfold vgrow, vcap. cbn [vbuf vsize firstn app].
    rewrite app_length, skipn_length, repeat_length.
    destruct (Nat.ltb_spec (length txt + (32 - (0 + length txt))) (0 + length txt)); [lia|]. cbn [bind].
    unfold vcontent at 1. cbn [vbuf vsize]. rewrite firstn_app_le by lia. rewrite firstn_all2 by lia.
    destruct (append_content (mkvec b1 (vsize ss)) txt) as (ss' & E & W' & C' & K').
    { unfold wf, vcap; cbn [vbuf vsize]. lia. }
    rewrite E. exists ss'. eexists. split; [reflexivity|].
    assert (Kb : vcontent (mkvec b1 (vsize ss)) = vcontent ss).
    { unfold vcontent. cbn [vbuf vsize]. subst b1. rewrite firstn_app_le by (rewrite firstn_length; lia).
      rewrite firstn_firstn. f_equal. lia. }
    rewrite Kb in *. unfold vcap in *. cbn [vbuf] in *. rewrite Lb in *. repeat split; auto.
Qed.

Lemma to_chars_uint_writes base x : 2 <= base -> base <= 16 -> x < 2 ^ 64 -> writes base (to_chars_uint base x) x.
Proof.
  intros B2 B16 X. destruct (num_digits_u_total base B2 B16 int_fuel x) as [m Em]; auto. discriminate.
  unfold to_chars_uint. rewrite (to_chars_digits_eq base B2 B16 _ _ _ Em). eapply writes_digs; eauto.
Qed.

Lemma to_chars_int_writes x : (- 2 ^ 63 <= x < 2 ^ 63)%Z -> writes_int (to_chars_int x) x.
Proof.
  intros X. unfold to_chars_int. destruct (Z.ltb_spec x 0).
  - right. split; auto. eexists. split; [reflexivity|]. replace (Z.to_N (- x)) with (Z.abs_N x) by lia.
    apply to_chars_uint_writes; lia.
  - left. split; auto. replace (Z.to_N x) with (Z.abs_N x) by lia. apply to_chars_uint_writes; lia.
Qed.

Lemma to_chars_uint_length x : x < 2 ^ 64 -> (length (to_chars_uint 10 x) <= 20)%nat.
Proof.
  intros X. destruct (num_digits_u_total 10 ltac:(lia) ltac:(lia) int_fuel x) as [m Em]; auto. discriminate.
  unfold to_chars_uint. rewrite (to_chars_digits_eq 10 ltac:(lia) ltac:(lia) _ _ _ Em), digs_length.
  apply (num_digits_u_le20 10 ltac:(lia) ltac:(lia) x); auto; lia.
Qed.

Lemma to_chars_int_length x : (- 2 ^ 63 <= x < 2 ^ 63)%Z -> (length (to_chars_int x) <= 21)%nat.
Proof.
  intros X. unfold to_chars_int. pose proof (to_chars_uint_length (Z.abs_N x) ltac:(lia)).
  destruct (Z.ltb_spec x 0); simpl; lia.
Qed.

(** ** Uniqueness of the canonical notation *)

Lemma digit_value_inj a b d : digit_value a = Some d -> digit_value b = Some d -> a = b.
Proof.
  unfold digit_value. intros H1 H2. rewrite <- (ascii_N_embedding a), <- (ascii_N_embedding b). f_equal.
  destruct ((48 <=? N_of_ascii a) && (N_of_ascii a <=? 57)) eqn:A1;
  [|destruct ((97 <=? N_of_ascii a) && (N_of_ascii a <=? 102)) eqn:A2; [|discriminate]];
  (destruct ((48 <=? N_of_ascii b) && (N_of_ascii b <=? 57)) eqn:B1;
  [|destruct ((97 <=? N_of_ascii b) && (N_of_ascii b <=? 102)) eqn:B2; [|discriminate]]);
  injection H1 as H1; injection H2 as H2; lia.
Qed.

Lemma read_lt base s : forall acc x, 0 < base -> read base acc s = Some x ->
  acc * base ^ N.of_nat (length s) <= x < (acc + 1) * base ^ N.of_nat (length s).
Proof.
  induction s; intros acc x B H; cbn [read length] in *.
  - injection H as <-. simpl. lia.
  - destruct (digit_value a) as [d|]; [|discriminate]. destruct (N.ltb_spec d base); [|discriminate].
    apply IHs in H; auto. rewrite Nnat.Nat2N.inj_succ, N.pow_succ_r'.
    set (p := base ^ N.of_nat (length s)) in *. nia.
Qed.

Lemma read_inj base s1 : 0 < base -> forall s2 acc x, length s1 = length s2 ->
  read base acc s1 = Some x -> read base acc s2 = Some x -> s1 = s2.
Proof.
  intros B. induction s1; intros s2 acc x L H1 H2; destruct s2; try discriminate; auto.
  cbn [read length] in *. injection L as L.
  destruct (digit_value a) as [d1|] eqn:D1; [|discriminate]. destruct (N.ltb_spec d1 base); [|discriminate].
  destruct (digit_value a0) as [d2|] eqn:D2; [|discriminate]. destruct (N.ltb_spec d2 base); [|discriminate].
  pose proof (read_lt base s1 _ _ B H1) as R1. pose proof (read_lt base s2 _ _ B H2) as R2. rewrite L in R1.
  set (p := base ^ N.of_nat (length s2)) in *.
  assert (d1 = d2) by nia. subst d2. f_equal. eapply digit_value_inj; eauto.
  eapply IHs1; eauto.
Qed.

Lemma writes_unique base s1 s2 x : 2 <= base -> writes base s1 x -> writes base s2 x -> s1 = s2.
Proof.
  intros B (R1 & N1 & Z1) (R2 & N2 & Z2).
  assert (K : forall s, read base 0 s = Some x -> s <> [] -> (forall s', s = "0"%char :: s' -> s' = []) ->
    (s = ["0"%char] /\ x = 0) \/ base ^ N.of_nat (length s - 1) <= x < base ^ N.of_nat (length s)).
  { clear - B. intros s R N Z. destruct s as [|c s]; [congruence|]. cbn [read length] in *.
    destruct (digit_value c) as [d|] eqn:D; [|discriminate]. destruct (N.ltb_spec d base); [|discriminate].
    pose proof (read_lt base s _ _ ltac:(lia) R) as Q. destruct (N.eq_dec d 0) as [->|D0].
    - left. assert (c = "0"%char) by (eapply digit_value_inj; eauto; reflexivity). subst c.
      rewrite (Z s eq_refl) in *. split; auto. cbn in R. congruence.
    - right. replace (S (length s) - 1)%nat with (length s) by lia. rewrite Nnat.Nat2N.inj_succ, N.pow_succ_r'.
      set (p := base ^ N.of_nat (length s)) in *. nia. }
  destruct (K s1 R1 N1 Z1) as [(-> & ->)|K1]; destruct (K s2 R2 N2 Z2) as [(-> & X2)|K2]; auto.
  - destruct K2 as [K2 _]. assert (0 < base ^ N.of_nat (length s2 - 1)) by (apply N.neq_0_lt_0, N.pow_nonzero; lia). lia.
  - destruct K1 as [K1 _]. assert (0 < base ^ N.of_nat (length s1 - 1)) by (apply N.neq_0_lt_0, N.pow_nonzero; lia). lia.
  - apply (read_inj base s1 ltac:(lia) s2 0 x); auto.
    destruct (lt_eq_lt_dec (length s1) (length s2)) as [[Q|Q]|Q]; auto; exfalso.
    + assert (base ^ N.of_nat (length s1) <= base ^ N.of_nat (length s2 - 1)) by (apply N.pow_le_mono_r; lia). lia.
    + assert (base ^ N.of_nat (length s2) <= base ^ N.of_nat (length s1 - 1)) by (apply N.pow_le_mono_r; lia). lia.
Qed.

Lemma writes_int_unique s1 s2 z : writes_int s1 z -> writes_int s2 z -> s1 = s2.
Proof.
  intros [[H1 W1]|[H1 (t1 & -> & W1)]] [[H2 W2]|[H2 (t2 & -> & W2)]]; try lia.
  - eapply writes_unique; eauto; lia.
  - f_equal. eapply writes_unique; eauto; lia.
Qed.

(** ** Pointers *)

Lemma pad_loop_spec n ss : (n <= 16)%nat -> wf ss ->
  pad_loop 17 ss n = append ss (repeat "0"%char n).
Proof.
  intros Hn W. destruct n as [|n]; [reflexivity|]. cbn [pad_loop].
  rewrite Nat.min_r by lia.
  replace (firstn (S n) (lit "0000000000000000")) with (repeat "0"%char (S n)).
  2:{ do 16 (destruct n; [reflexivity|]). lia. }
  unfold append. destruct (append_fast ss (repeat "0"%char (S n))) as [[ss1 ok]|e]; cbn [bind]; auto.
  destruct ok; auto. rewrite csub_ok by lia. cbn [bind]. rewrite Nat.sub_diag. reflexivity.
Qed.

Lemma read_zeros n s : read 16 0 (repeat "0"%char n ++ s) = read 16 0 s.
Proof. induction n; auto. Qed.

Lemma append_ptr_spec ss addr g1 g2 : wf ss -> 0 < addr < 2 ^ 64 -> (vcap ss <= length g1)%nat ->
  exists hex, writes_fixed 16 16 hex addr /\
  exists ss' b, append_ptr ss addr g1 g2 = Ok (ss', b) /\ wf ss' /\ vcap ss' = vcap ss /\
    vcontent ss' = firstn (vcap ss) (vcontent ss ++ "0"%char :: "x"%char :: hex) /\
    b = (length (vcontent ss ++ "0"%char :: "x"%char :: hex) <=? vcap ss)%nat.
Proof.
  intros W A G. destruct (num_digits_u_total 16 ltac:(lia) ltac:(lia) int_fuel addr) as [m Em]; try apply A. discriminate.
  pose proof (num_digits_u_hex 16 ltac:(lia) ltac:(lia) addr m eq_refl (proj2 A) Em) as M16.
  pose proof (to_chars_digits_eq 16 ltac:(lia) ltac:(lia) _ _ _ Em) as Et. fold (to_chars_uint 16 addr) in Et.
  set (hex := repeat "0"%char (16 - m) ++ to_chars_uint 16 addr). exists hex. split.
  { split.
    - unfold hex. rewrite read_zeros. apply (to_chars_uint_writes 16 addr); lia.
    - unfold hex. rewrite app_length, repeat_length, Et, digs_length. lia. }
  unfold append_ptr. destruct (N.eqb_spec addr 0); [lia|].
  fold (append ss (lit "0x")).
  destruct (append_content ss (lit "0x") W) as (ss1 & E1 & W1 & C1 & K1). rewrite E1. cbn [bind].
  change ("0"%char :: "x"%char :: hex) with (lit "0x" ++ hex).
  destruct (Nat.leb_spec (length (vcontent ss ++ lit "0x")) (vcap ss)) as [L1|L1]; cbn [negb].
  2:{ exists ss1, false. repeat split; auto.
      - rewrite K1, app_assoc. rewrite (firstn_app_le _ (vcontent ss ++ lit "0x")); auto. lia.
      - symmetry. apply Nat.leb_gt. rewrite app_assoc, app_length. lia. }
  rewrite firstn_all2 in K1 by auto.
  rewrite Em. cbn [bind]. rewrite csub_ok by lia. cbn [bind]. rewrite pad_loop_spec by (auto; lia).
  destruct (append_content ss1 (repeat "0"%char (16 - m)) W1) as (ss2 & E2 & W2 & C2 & K2). rewrite E2. cbn [bind].
  rewrite C1, K1 in *.
  assert (Q : vcontent ss ++ lit "0x" ++ hex = ((vcontent ss ++ lit "0x") ++ repeat "0"%char (16 - m)) ++ to_chars_uint 16 addr).
  { unfold hex. now rewrite <- !app_assoc. }
  rewrite Q.
  destruct (Nat.leb_spec (length ((vcontent ss ++ lit "0x") ++ repeat "0"%char (16 - m))) (vcap ss)) as [L2|L2]; cbn [negb].
  2:{ exists ss2, false. repeat split; auto.
      - rewrite K2. rewrite (firstn_app_le _ ((vcontent ss ++ lit "0x") ++ repeat "0"%char (16 - m))); auto. lia.
      - symmetry. apply Nat.leb_gt. rewrite app_length. lia. }
  rewrite firstn_all2 in K2 by auto.
  destruct (append_to_spec ss2 (to_chars_uint 16 addr) g1 g2 W2) as (ss3 & b & E3 & W3 & C3 & K3 & B3).
  { rewrite Et, digs_length. lia. }
  { lia. }
  exists ss3, b. rewrite C2, K2 in *. repeat split; auto.
Qed.
