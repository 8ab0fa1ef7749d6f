From Verif.Model Require Import Base Vector.
From Verif.Spec Require Import VectorSpec.
From Verif.Proofs Require Import Lists.

Lemma wf_vempty {A} (z : A) n : wf (vempty z n).
Proof. unfold wf; simpl; lia. Qed.

Lemma vcontent_length {A} (v : vec A) : wf v -> length (vcontent v) = vsize v.
Proof. unfold wf, vcap, vcontent. intros. rewrite firstn_length. lia. Qed.

Lemma vcontent_vempty {A} (z : A) n : vcontent (vempty z n) = [].
Proof. reflexivity. Qed.

Lemma vcap_vempty {A} (z : A) n : vcap (vempty z n) = n.
Proof. unfold vcap, vempty; simpl. now rewrite repeat_length. Qed.

Lemma vpush_spec {A} (v : vec A) x : wf v ->
  (vsize v < vcap v /\ exists v', vpush v x = Ok v' /\ wf v' /\ vcap v' = vcap v /\
      vsize v' = S (vsize v) /\ vcontent v' = vcontent v ++ [x]) \/
  (vsize v = vcap v /\ vpush v x = Err Assert).
Proof.
  intros W. unfold vpush. destruct (Nat.eqb_spec (vsize v) (vcap v)).
  - right. auto.
  - left. unfold wf, vcap in *. split; [lia|].
    rewrite memwrite_total by (simpl; lia). cbn [bind length app]. eexists. split; [reflexivity|].
    unfold vcontent; cbn [vbuf vsize].
    assert (L : length (firstn (vsize v) (vbuf v) ++ x :: skipn (vsize v + 1) (vbuf v)) = length (vbuf v)).
    { rewrite app_length; simpl. rewrite firstn_length, skipn_length. lia. }
    rewrite L. repeat split; try lia.
    rewrite firstn_app_ge by (rewrite firstn_length; lia). rewrite firstn_length.
    replace (S (vsize v) - _) with 1 by lia. simpl. reflexivity.
Qed.

Lemma vset_spec {A} (v : vec A) i x : wf v ->
  (i < vsize v /\ exists v', vset v i x = Ok v' /\ wf v' /\ vcap v' = vcap v /\ vsize v' = vsize v /\
      vcontent v' = firstn i (vcontent v) ++ x :: skipn (S i) (vcontent v)) \/
  (vsize v <= i /\ vset v i x = Err Assert).
Proof.
  intros W. unfold vset. destruct (Nat.leb_spec (vsize v) i).
  - right. auto.
  - left. unfold wf, vcap in *. split; [lia|].
    rewrite memwrite_total by (simpl; lia). cbn [bind length app]. eexists. split; [reflexivity|].
    unfold vcontent; cbn [vbuf vsize].
    assert (L : length (firstn i (vbuf v) ++ x :: skipn (i + 1) (vbuf v)) = length (vbuf v)).
    { rewrite app_length; simpl. rewrite firstn_length, skipn_length. lia. }
    rewrite L. repeat split; try lia.
    rewrite firstn_app_ge by (rewrite firstn_length; lia). rewrite firstn_length.
    replace (vsize v - _) with (S (vsize v - S i)) by lia. rewrite firstn_cons, firstn_firstn.
    rewrite Nat.min_l by lia. f_equal. f_equal.
    rewrite firstn_skipn_comm'. now rewrite Nat.add_1_r.
Qed.

Lemma nth_error_put {A} (l : list A) i x j : i < length l ->
  nth_error (firstn i l ++ x :: skipn (S i) l) j = if j =? i then Some x else nth_error l j.
Proof.
  intros. destruct (Nat.eqb_spec j i).
  - subst. rewrite nth_error_app2; rewrite firstn_length. replace (i - Nat.min i (length l)) with 0 by lia.
    auto. lia.
  - destruct (le_lt_dec i j).
    + rewrite nth_error_app2 by (rewrite firstn_length; lia). rewrite firstn_length.
      replace (j - _) with (S (j - S i)) by lia. 
      change (nth_error (skipn (S i) l) (j - S i) = nth_error l j).
      rewrite nth_error_skipn. f_equal; lia.
    + rewrite nth_error_app1 by (rewrite firstn_length; lia). now apply nth_error_firstn.
Qed.

Lemma nth_error_content {A} (v : vec A) i : i < vsize v -> nth_error (vcontent v) i = nth_error (vbuf v) i.
Proof. apply nth_error_firstn. Qed.

(** One operation against the specification. *)
Lemma vexec_spec {A} (v : vec A) o : wf v ->
  (requires (vcap v) (vcontent v) o /\ exists v' out, vexec v o = Ok (v', out) /\ wf v' /\ vcap v' = vcap v /\
      effect (vcontent v) o out (vcontent v') /\ length (vcontent v') <= vcap v) \/
  (~ requires (vcap v) (vcontent v) o /\ vexec v o = Err Assert).
Proof.
  intros W. pose proof (vcontent_length v W) as L.
  assert (B : forall v' : vec A, wf v' -> vcap v' = vcap v -> length (vcontent v') <= vcap v).
  { intros v' W' C. rewrite vcontent_length by auto. unfold wf in W'. lia. }
  destruct o; simpl; rewrite ?L.
  - destruct (vpush_spec v x W) as [(H & v' & E & W' & C & S & K)|[H E]]; rewrite E; simpl.
    + left. split; auto. exists v', Done. repeat split; auto.
    + right. split; auto. lia.
  - unfold vpop. destruct (Nat.eqb_spec (vsize v) 0).
    + right. split; auto. intros H. apply H. destruct (vcontent v); auto. simpl in L. lia.
    + left. split. intros H. rewrite H in L. simpl in L. lia.
      unfold wf, vcap in *. eexists. exists Done. split; [reflexivity|]. simpl.
      repeat split; auto; try lia.
      * destruct (nth_error (vbuf v) (vsize v - 1)) eqn:N.
        2:{ apply nth_error_None in N. lia. }
        exists a. unfold vcontent; simpl.
        apply nth_error_split in N as (l1 & l2 & N & Q). rewrite N, <- Q.
        rewrite (firstn_app_le (length l1)), firstn_all by lia.
        rewrite firstn_app_ge by lia. replace (vsize v - length l1) with 1 by lia. reflexivity.
      * apply B; auto. unfold wf, vcap; simpl; lia.
  - unfold vback. destruct (Nat.eqb_spec (vsize v) 0).
    + right. split; auto. intros H. apply H. destruct (vcontent v); auto. simpl in L. lia.
    + left. split. intros H. rewrite H in L. simpl in L. lia.
      destruct (nth_error (vbuf v) (vsize v - 1)) eqn:N.
      2:{ apply nth_error_None in N. unfold wf, vcap in W. lia. }
      exists v, (Value a). simpl. repeat split; auto.
      apply nth_error_split in N as (l1 & l2 & N & Q).
      exists l1, a. split; auto. unfold vcontent. rewrite N.
      rewrite firstn_app_ge by lia. replace (vsize v - length l1) with 1 by lia. reflexivity.
  - unfold vget. destruct (Nat.leb_spec (vsize v) i).
    + right. split; auto. lia.
    + left. split; auto. destruct (nth_error (vbuf v) i) eqn:N.
      2:{ apply nth_error_None in N. unfold wf, vcap in W. lia. }
      exists v, (Value a). simpl. repeat split; auto.
      exists a. rewrite nth_error_content; auto.
  - destruct (vset_spec v i x W) as [(H & v' & E & W' & C & S & K)|[H E]]; rewrite E; simpl.
    + left. split; auto. exists v', Done. rewrite K. repeat split; auto.
      * rewrite app_length; cbn [length]. rewrite firstn_length, skipn_length. lia.
      * rewrite nth_error_put by lia. now rewrite Nat.eqb_refl.
      * intros. rewrite nth_error_put by lia. destruct (Nat.eqb_spec j i); congruence.
      * rewrite <- K. apply B; auto.
    + right. split; auto. lia.
  - left. split; auto. exists (vclear v), Done. unfold vclear, wf, vcap in *; simpl. repeat split; auto; lia.
  - unfold vresize. destruct (Nat.ltb_spec (vcap v) n).
    + right. split; auto. lia.
    + left. split; auto. unfold wf, vcap in *. eexists. exists Done. split; [reflexivity|]. simpl.
      repeat split; auto.
      * rewrite vcontent_length; auto.
      * intros. unfold vcontent; simpl. rewrite !nth_error_firstn; auto.
  - unfold vgrow. destruct (Nat.ltb_spec (vcap v) (vsize v + n)).
    + right. split; auto. lia.
    + left. split; auto. unfold wf, vcap in *. eexists. exists Done. split; [reflexivity|]. simpl.
      repeat split; auto.
      * rewrite vcontent_length; auto.
      * intros. unfold vcontent; simpl. rewrite !nth_error_firstn; auto. lia.
Qed.

Lemma vrun_spec {A} (ops : list (vop A)) v : wf v ->
  exists v' outs, vrun v ops = Ok (v', outs) /\ wf v' /\ vcap v' = vcap v /\
    conforms (vcap v) (vcontent v) ops outs (vcontent v').
Proof.
  revert v; induction ops; intros v W; simpl.
  - exists v, []. repeat split; auto. constructor.
  - destruct (vexec_spec v a W) as [(R & v1 & out & E & W1 & C1 & F & B)|[R E]]; rewrite E.
    + destruct (IHops v1 W1) as (v2 & outs & E2 & W2 & C2 & F2). rewrite E2. simpl.
      exists v2, (out :: outs). repeat split; auto. congruence.
      econstructor; eauto. now rewrite <- C1.
    + exists v, [Failed]. repeat split; auto. now constructor.
Qed.

Theorem vector_refines_list {A} (zero : A) cap ops :
  exists v outs, vrun (vempty zero cap) ops = Ok (v, outs) /\ wf v /\ vcap v = cap /\
    conforms cap [] ops outs (vcontent v).
Proof.
  destruct (vrun_spec ops (vempty zero cap) (wf_vempty zero cap)) as (v & outs & E & W & C & F).
  rewrite vcap_vempty, vcontent_vempty in *. eauto 10.
Qed.

(** Without growing operations the outcome is fully determined by the list specification. *)
Lemma effect_deterministic {A} (l : list A) o out1 out2 l1 l2 :
  (forall n, o <> Grow n) -> (forall n, o = Resize n -> n <= length l) ->
  effect l o out1 l1 -> effect l o out2 l2 -> out1 = out2 /\ l1 = l2.
Proof.
  intros NG NR. destruct o; simpl.
  - intros [-> ->] [-> ->]; auto.
  - intros [-> [x ->]] [-> [y H]]. apply app_inj_tail in H as [-> ->]. auto.
  - intros [-> (l0 & x & -> & ->)] [-> (l3 & y & H & ->)]. apply app_inj_tail in H as [-> ->]. auto.
  - intros [-> (x & H & ->)] [-> (y & H2 & ->)]. split; congruence.
  - intros (-> & L1 & N1 & M1) (-> & L2 & N2 & M2). split; auto. apply nth_error_ext. intros j.
    destruct (Nat.eq_dec j i); [congruence|]. rewrite M1, M2; auto.
  - intros [-> ->] [-> ->]; auto.
  - intros (-> & L1 & M1) (-> & L2 & M2). split; auto. apply nth_error_ext. intros j.
    specialize (NR _ eq_refl). destruct (le_lt_dec n j).
    + transitivity (@None A); [|symmetry]; apply nth_error_None; lia.
    + rewrite M1, M2; auto; lia.
  - exfalso. eapply NG; eauto.
Qed.

Lemma vpush_all_spec {A} (l : list A) : forall v, wf v ->
  (vsize v + length l <= vcap v -> exists v', vpush_all v l = Ok v' /\ wf v' /\ vcap v' = vcap v /\
      vcontent v' = vcontent v ++ l) /\
  (vcap v < vsize v + length l -> vpush_all v l = Err Assert).
Proof.
  induction l as [|x l IH]; intros v W; simpl.
  - split; [|unfold wf in W; lia]. intros _. exists v. rewrite app_nil_r. auto.
  - destruct (vpush_spec v x W) as [(L & v1 & E & W1 & C1 & S1 & K1)|[L E]]; rewrite E; simpl.
    + destruct (IH v1 W1) as [F G]. rewrite C1, S1 in *. split; intros H.
      * destruct F as (v' & E' & W' & C' & K'); [lia|]. exists v'. rewrite K', K1, <- app_assoc. auto.
      * apply G; lia.
    + split; [lia|auto].
Qed.

Lemma from_list {A} (zero : A) cap (l : list A) :
  (length l <= cap -> exists v, vpush_all (vempty zero cap) l = Ok v /\ wf v /\ vcap v = cap /\ vcontent v = l) /\
  (cap < length l -> vpush_all (vempty zero cap) l = Err Assert).
Proof.
  destruct (vpush_all_spec l _ (wf_vempty zero cap)) as [F G]. rewrite vcap_vempty in *. simpl in *. auto.
Qed.
