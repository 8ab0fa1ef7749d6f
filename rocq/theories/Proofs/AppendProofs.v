From Verif.Model Require Import Base Vector StringUtil.
From Verif.Spec Require Import TextSpec.
From Verif.Proofs Require Import Lists VectorProofs.

(** The result of writing at the end of the content. *)
Lemma append_fast_spec ss s : wf ss ->
  exists ss', append_fast ss s = Ok (ss', length s <=? vcap ss - vsize ss) /\ wf ss' /\ vcap ss' = vcap ss /\
    vcontent ss' = vcontent ss ++ firstn (vcap ss - vsize ss) s /\
    vsize ss' = vsize ss + Nat.min (length s) (vcap ss - vsize ss) /\
    vbuf ss' = vcontent ss' ++ skipn (vsize ss') (vbuf ss).
Proof.
  intros W. unfold append_fast, vavailable, vgrow.
  destruct s as [|c s0] eqn:Es.
  - exists ss. rewrite firstn_nil, app_nil_r. repeat split; auto.
    unfold vcontent. now rewrite firstn_skipn.
  - rewrite <- Es. clear c s0 Es. unfold wf in W. rewrite csub_ok by auto. cbn [bind].
    destruct (Nat.ltb_spec (vcap ss) (vsize ss + Nat.min (length s) (vcap ss - vsize ss))); [lia|].
    cbn [bind vbuf vsize]. unfold vcap in *.
    assert (F : length (firstn (Nat.min (length s) (length (vbuf ss) - vsize ss)) s)
                = Nat.min (length s) (length (vbuf ss) - vsize ss)) by (rewrite firstn_length; lia).
    rewrite memwrite_total by lia. cbn [bind]. rewrite F. eexists. split; [reflexivity|].
    unfold wf, vcap, vcontent. cbn [vbuf vsize].
    rewrite !app_length, firstn_length, F, skipn_length.
    assert (Q : firstn (vsize ss + Nat.min (length s) (length (vbuf ss) - vsize ss))
      (firstn (vsize ss) (vbuf ss) ++
       firstn (Nat.min (length s) (length (vbuf ss) - vsize ss)) s ++
       skipn (vsize ss + Nat.min (length s) (length (vbuf ss) - vsize ss)) (vbuf ss))
      = firstn (vsize ss) (vbuf ss) ++ firstn (length (vbuf ss) - vsize ss) s).
    { rewrite firstn_app_ge by (rewrite firstn_length; lia). f_equal.
      rewrite firstn_length. rewrite firstn_app_le by (rewrite firstn_length; lia).
      rewrite firstn_firstn.
      destruct (le_lt_dec (length s) (length (vbuf ss) - vsize ss)).
      - rewrite !firstn_all2 by lia. auto.
      - f_equal. lia. }
    rewrite Q. repeat split; try lia.
    rewrite app_assoc. f_equal. f_equal.
    destruct (le_lt_dec (length s) (length (vbuf ss) - vsize ss)).
    + rewrite !firstn_all2 by lia. auto.
    + f_equal. lia.
Qed.

Lemma copy_loop_spec s ss off : wf ss -> off + length s <= vsize ss ->
  exists ss', copy_loop ss off s = Ok ss' /\ wf ss' /\ vsize ss' = vsize ss /\
    vbuf ss' = firstn off (vbuf ss) ++ s ++ skipn (off + length s) (vbuf ss).
Proof.
  revert ss off; induction s; intros ss off W H; simpl in *.
  - exists ss. repeat split; auto. rewrite Nat.add_0_r. now rewrite firstn_skipn.
  - unfold vset. destruct (Nat.leb_spec (vsize ss) off); [lia|].
    unfold wf, vcap in W. rewrite memwrite_total by (simpl; lia). cbn [bind length].
    match goal with |- context [copy_loop ?x _ _] => destruct (IHs x (S off)) as (ss' & E & W' & Sz & B) end.
    + unfold wf, vcap; simpl. rewrite app_length; simpl. rewrite firstn_length, skipn_length. lia.
    + simpl. lia.
    + exists ss'. cbn [vbuf vsize] in *. repeat split; auto. rewrite B.
      rewrite firstn_app_ge by (rewrite firstn_length; lia). rewrite firstn_length.
      replace (S off - Nat.min off (length (vbuf ss))) with 1 by lia. cbn [app firstn].
      rewrite <- app_assoc. f_equal. cbn [app]. f_equal. f_equal.
      rewrite skipn_app_ge by (rewrite firstn_length; lia). rewrite firstn_length.
      replace (S off + length s - Nat.min off (length (vbuf ss))) with (S (length s)) by lia.
      cbn [skipn]. rewrite skipn_skipn'. f_equal. lia.
Qed.

(** The constexpr implementation has exactly the same effect. *)
Lemma append_constexpr_eq ss s : wf ss -> append_constexpr ss s = append_fast ss s.
Proof.
  intros W. destruct (append_fast_spec ss s W) as (ss' & E & W' & C & K & Sz & B).
  rewrite E. unfold append_constexpr, vavailable. unfold wf in W. rewrite csub_ok by auto. cbn [bind].
  replace (if length s <=? vcap ss - vsize ss then length s else vcap ss - vsize ss)
    with (Nat.min (length s) (vcap ss - vsize ss)).
  2:{ destruct (Nat.leb_spec (length s) (vcap ss - vsize ss)); lia. }
  unfold vgrow. destruct (Nat.ltb_spec (vcap ss) (vsize ss + Nat.min (length s) (vcap ss - vsize ss))); [lia|].
  cbn [bind].
  set (m := Nat.min (length s) (vcap ss - vsize ss)) in *.
  assert (F : length (firstn m s) = m) by (rewrite firstn_length; lia).
  match goal with |- context [copy_loop ?x _ _] =>
    destruct (copy_loop_spec (firstn m s) x (vsize ss)) as (ss2 & E2 & W2 & S2 & B2) end.
  - unfold wf, vcap in *; simpl. lia.
  - simpl. lia.
  - rewrite E2. cbn [bind]. f_equal. f_equal. cbn [vbuf vsize] in *.
    destruct ss' as [b1 n1], ss2 as [b2 n2]. cbn [vbuf vsize vcap] in *. subst n2. rewrite <- Sz. f_equal.
    rewrite B, B2. rewrite K, F. rewrite Sz. unfold vcontent, vcap in *. rewrite <- app_assoc.
    f_equal. f_equal.
    destruct (le_lt_dec (length s) (length (vbuf ss) - vsize ss)).
    + subst m. rewrite !firstn_all2 by lia. auto.
    + f_equal. subst m. lia.
Qed.

Lemma append_spec ss s : wf ss ->
  exists ss', append ss s = Ok (ss', length s <=? vcap ss - vsize ss) /\ wf ss' /\ vcap ss' = vcap ss /\
    vcontent ss' = vcontent ss ++ firstn (vcap ss - vsize ss) s /\
    vsize ss' = vsize ss + Nat.min (length s) (vcap ss - vsize ss) /\
    vbuf ss' = vcontent ss' ++ skipn (vsize ss') (vbuf ss).
Proof. apply append_fast_spec. Qed.

(** Same, in the form "longest prefix of the whole text that fits". *)
Lemma append_content ss s : wf ss ->
  exists ss', append ss s = Ok (ss', length (vcontent ss ++ s) <=? vcap ss) /\ wf ss' /\ vcap ss' = vcap ss /\
    vcontent ss' = firstn (vcap ss) (vcontent ss ++ s).
Proof.
  intros W. destruct (append_spec ss s W) as (ss' & E & W' & C & K & _).
  exists ss'. pose proof (vcontent_length ss W). unfold wf in W. repeat split; auto.
  - rewrite E. f_equal. f_equal. rewrite app_length.
    destruct (Nat.leb_spec (length s) (vcap ss - vsize ss)), (Nat.leb_spec (length (vcontent ss) + length s) (vcap ss)); auto; lia.
  - rewrite K. rewrite firstn_app_ge by lia. now rewrite H.
Qed.

Lemma append_all_content l ss : wf ss ->
  exists ss', append_all ss l = Ok (ss', length (vcontent ss ++ List.concat l) <=? vcap ss) /\ wf ss' /\
    vcap ss' = vcap ss /\ vcontent ss' = firstn (vcap ss) (vcontent ss ++ List.concat l).
Proof.
  revert ss; induction l; intros ss W; simpl.
  - pose proof (vcontent_length ss W). unfold wf in *. exists ss. rewrite app_nil_r.
    destruct (Nat.leb_spec (length (vcontent ss)) (vcap ss)); [|lia].
    repeat split; auto. rewrite firstn_all2; auto.
  - destruct (append_content ss a W) as (ss1 & E & W1 & C1 & K1). rewrite E. cbn [bind].
    destruct (Nat.leb_spec (length (vcontent ss ++ a)) (vcap ss)).
    + destruct (IHl ss1 W1) as (ss2 & E2 & W2 & C2 & K2). exists ss2.
      rewrite E2, K2, C1, K1. rewrite firstn_all2 by auto. rewrite <- app_assoc. repeat split; auto. congruence.
    + exists ss1. repeat split; auto.
      * rewrite app_assoc, app_length.
        destruct (Nat.leb_spec (length (vcontent ss ++ a) + length (List.concat l)) (vcap ss)); auto. lia.
      * rewrite K1, app_assoc. rewrite (firstn_app_le _ (vcontent ss ++ a)); auto. lia.
Qed.

Lemma put_dots_spec n ss off : wf ss -> off + n <= vsize ss ->
  exists ss', put_dots ss off n = Ok ss' /\ wf ss' /\ vsize ss' = vsize ss /\
    vbuf ss' = firstn off (vbuf ss) ++ dots n ++ skipn (off + n) (vbuf ss).
Proof.
  intros W H. assert (E : put_dots ss off n = copy_loop ss off (dots n)).
  { clear. revert ss off; induction n; intros; simpl; auto.
    destruct (vset ss off dot) eqn:E; unfold dot in E; rewrite E; simpl; auto. }
  assert (L : length (dots n) = n) by apply repeat_length.
  destruct (copy_loop_spec (dots n) ss off) as (ss' & E2 & R); auto. lia.
  exists ss'. rewrite E, E2. rewrite L in R. auto.
Qed.

(** [truncate_end] always ends with dots within the capacity. *)
Lemma truncate_end_spec ss : wf ss ->
  exists ss', truncate_end ss = Ok ss' /\ wf ss' /\ vcap ss' = vcap ss /\
    vsize ss' = Nat.min (vsize ss + 3) (vcap ss) /\
    vcontent ss' = firstn (Nat.min (vsize ss) (vcap ss - 3)) (vcontent ss) ++ dots (Nat.min 3 (vcap ss)).
Proof.
  intros W. unfold truncate_end. unfold wf in W.
  set (final := if vcap ss <? vsize ss + 3 then vcap ss else vsize ss + 3).
  assert (Hf : final = Nat.min (vsize ss + 3) (vcap ss)).
  { subst final. destruct (Nat.ltb_spec (vcap ss) (vsize ss + 3)); lia. }
  set (off := if 3 <=? final then final - 3 else 0).
  assert (Ho : off = Nat.min (vsize ss) (vcap ss - 3)).
  { subst off. destruct (Nat.leb_spec 3 final); lia. }
  assert (Hd : final - off = Nat.min 3 (vcap ss)) by lia.
  clearbody final off. rewrite csub_ok by lia. cbn [bind]. unfold vresize.
  destruct (Nat.ltb_spec (vcap ss) final); [lia|]. cbn [bind].
  destruct (put_dots_spec (final - off) (mkvec (vbuf ss) final) off) as (ss' & E & W' & Sz & B).
  { unfold wf, vcap in *; simpl; lia. } { simpl; lia. }
  rewrite E. exists ss'. cbn [vbuf vsize] in *.
  assert (L : length (dots (final - off)) = final - off) by apply repeat_length.
  unfold vcap in *.
  assert (C : length (vbuf ss') = length (vbuf ss)).
  { rewrite B. rewrite !app_length, firstn_length, skipn_length, L. lia. }
  repeat split; auto; try lia.
  unfold vcontent. rewrite B, Sz.
  rewrite firstn_app_ge by (rewrite firstn_length; lia). rewrite firstn_length.
  rewrite (firstn_firstn (vbuf ss)), (Nat.min_l (Nat.min (vsize ss) _)) by lia. rewrite <- Ho. f_equal.
  rewrite firstn_app_ge by lia. replace (final - _ - _) with 0 by lia. rewrite firstn_O, app_nil_r. congruence.
Qed.

Lemma append_or_truncate_spec ss l : wf ss ->
  exists ss', append_or_truncate ss l = Ok (ss', length (vcontent ss ++ List.concat l) <=? vcap ss) /\ wf ss' /\
    vcap ss' = vcap ss /\
    vcontent ss' = (if length (vcontent ss ++ List.concat l) <=? vcap ss then vcontent ss ++ List.concat l
                    else truncated (vcap ss) (vcontent ss ++ List.concat l)).
Proof.
  intros W. unfold append_or_truncate. destruct (append_all_content l ss W) as (ss1 & E & W1 & C1 & K1).
  rewrite E. cbn [bind]. destruct (Nat.leb_spec (length (vcontent ss ++ List.concat l)) (vcap ss)).
  - exists ss1. repeat split; auto. rewrite K1. apply firstn_all2; auto.
  - destruct (truncate_end_spec ss1 W1) as (ss2 & E2 & W2 & C2 & S2 & K2). rewrite E2. cbn [bind].
    exists ss2. repeat split; auto. congruence.
    rewrite K2, C1, K1. unfold truncated. f_equal.
    assert (vsize ss1 = vcap ss).
    { rewrite <- vcontent_length, K1, firstn_length by auto. lia. }
    rewrite H0. rewrite Nat.min_r by lia. rewrite firstn_firstn. now rewrite Nat.min_l by lia.
Qed.

Lemma wf_new n : wf (new_string n).
Proof. apply wf_vempty. Qed.
Lemma vcontent_new n : vcontent (new_string n) = [].
Proof. reflexivity. Qed.
Lemma vcap_new n : vcap (new_string n) = n.
Proof. apply vcap_vempty. Qed.

Lemma resize_or_truncate_spec n s : wf s ->
  exists s', resize_or_truncate n s = Ok s' /\ wf s' /\ vcap s' = n /\
    vcontent s' = (if length (vcontent s) <=? n then vcontent s else truncated n (vcontent s)).
Proof.
  intros W. unfold resize_or_truncate. pose proof (vcontent_length s W) as L. unfold wf in W.
  destruct (Nat.eqb_spec n (vcap s)).
  - exists s. subst n. repeat split; auto. destruct (Nat.leb_spec (length (vcontent s)) (vcap s)); auto. lia.
  - destruct (Nat.ltb_spec (vcap s) n).
    + destruct (append_content (new_string n) (vcontent s) (wf_new n)) as (s' & E & W' & C & K).
      rewrite E. rewrite vcap_new, vcontent_new in *. cbn [bind app] in *. exists s'. repeat split; auto.
      rewrite K. destruct (Nat.leb_spec (length (vcontent s)) n); try lia. apply firstn_all2; lia.
    + destruct (append_or_truncate_spec (new_string n) [vcontent s] (wf_new n)) as (s' & E & W' & C & K).
      rewrite E. rewrite vcap_new, vcontent_new in *. cbn [bind app List.concat] in *.
      rewrite app_nil_r in *. exists s'. repeat split; auto.
Qed.

Lemma text_in_spec n s : length s <= n ->
  wf (text_in n s) /\ vcontent (text_in n s) = s /\ vcap (text_in n s) = n.
Proof.
  intros. unfold wf, vcap, vcontent, text_in; cbn [vbuf vsize]. rewrite app_length, repeat_length.
  repeat split; try lia. rewrite firstn_app_le, firstn_all by lia. auto.
Qed.

Lemma string_from_spec n s :
  string_from n s = if length s <=? n then Ok (text_in n s) else Err Assert.
Proof.
  unfold string_from, vresize. rewrite vcap_new.
  destruct (Nat.ltb_spec n (length s)), (Nat.leb_spec (length s) n); try lia; auto.
  cbn [bind new_string vempty vbuf vsize]. rewrite memwrite_total by (rewrite repeat_length; lia). cbn [bind].
  unfold text_in. do 2 f_equal. cbn [firstn app Nat.add]. f_equal.
  replace n with (length s + (n - length s)) at 1 by lia. rewrite repeat_app.
  rewrite skipn_app_ge by (rewrite repeat_length; lia). rewrite repeat_length, Nat.sub_diag. auto.
Qed.
