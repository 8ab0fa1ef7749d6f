From Verif.Model Require Import Base Vector StringUtil.
From Verif.Spec Require Import TextSpec.
From Verif.Proofs Require Import Lists VectorProofs AppendProofs.

(** ** The specification relation *)

Lemma find_first s p n : find s p = Some n ->
  exists a b, s = a ++ p ++ b /\ length a = n /\ first_at p a.
Proof.
  intros H. destruct (find_some _ _ _ H) as (a & b & E & L & M). exists a, b. repeat split; auto.
  intros a' b' Q. assert (n <= length a').
  { apply (M a' (b' ++ b)). rewrite E, app_assoc, Q. now rewrite <- !app_assoc. }
  apply (f_equal (@length _)) in Q. rewrite !app_length in Q. destruct b'; auto. simpl in Q. lia.
Qed.

Lemma find_none_occurs s p : find s p = None -> ~ occurs p s.
Proof. intros H (a & b & E). eapply find_none; eauto. Qed.

Lemma first_at_unique p a a' s s' : first_at p a -> first_at p a' -> a ++ p ++ s = a' ++ p ++ s' -> a = a' /\ s = s'.
Proof.
  intros H H' E.
  assert (K : forall a a' s s', first_at p a' -> a ++ p ++ s = a' ++ p ++ s' -> length a < length a' -> False).
  { clear. intros a a' s s' F E L. rewrite !app_assoc in E.
    destruct (app_prefix_le (a ++ p) s (a' ++ p) s' E) as (m & Q & _). rewrite !app_length; lia.
    rewrite <- app_assoc in Q. apply F in Q as Q2. subst. rewrite app_nil_r in Q.
    apply (f_equal (@length _)) in Q. rewrite !app_length in Q. lia. }
  destruct (lt_eq_lt_dec (length a) (length a')) as [[L|L]|L].
  - exfalso; eauto.
  - apply app_inv_len in E as [-> E]; auto. apply app_inv_head in E. auto.
  - exfalso. eapply (K a' a s' s); eauto.
Qed.

Lemma replaced_deterministic p r s t t' : replaced p r s t -> replaced p r s t' -> t = t'.
Proof.
  intros H; revert t'; induction H; intros t' H'.
  - inversion H'; subst; auto. exfalso. apply H. now exists a, s0.
  - inversion H'; subst.
    + exfalso. apply H1. now exists a, s.
    + destruct (first_at_unique p a0 a s0 s) as [-> ->]; auto. now rewrite (IHreplaced _ H3).
Qed.

Lemma replaced_total p r s : p <> [] -> exists t, replaced p r s t.
Proof.
  intros P. remember (length s) as n. revert s Heqn. induction n as [n IH] using lt_wf_ind. intros s ->.
  destruct (find s p) eqn:F.
  - destruct (find_first _ _ _ F) as (a & b & -> & _ & A).
    destruct (IH (length b)) with (s := b) as [t T]; auto.
    + rewrite !app_length. destruct p; [congruence|]. simpl; lia.
    + exists (a ++ r ++ t). now constructor.
  - exists s. constructor. now apply find_none_occurs.
Qed.

(** The part of the text already processed. *)
Inductive chain (p r : text) : text -> text -> Prop :=
| chain_nil : chain p r [] []
| chain_snoc s t a : chain p r s t -> first_at p a -> chain p r (s ++ a ++ p) (t ++ a ++ r).

Lemma chain_replaced p r s t rest t' : chain p r s t -> replaced p r rest t' -> replaced p r (s ++ rest) (t ++ t').
Proof.
  intros H. revert rest t'. induction H; intros; auto.
  rewrite <- !app_assoc. apply IHchain. now constructor.
Qed.

(** ** One replacement step *)

Definition is_content (ss : sstr) (s : str) := wf ss /\ vcontent ss = s.

Lemma content_split ss (s : str) : wf ss -> vcontent ss = s ->
  exists tail : str, vbuf ss = s ++ tail /\ vsize ss = length s /\ vcap ss = length s + length tail.
Proof.
  intros W <-. exists (skipn (vsize ss) (vbuf ss)). pose proof (vcontent_length ss W).
  unfold vcontent in *. rewrite firstn_skipn. repeat split; auto.
  unfold vcap. rewrite skipn_length. unfold wf, vcap in W. lia.
Qed.

Lemma content_make b n (s tail : str) : b = s ++ tail -> n = length s ->
  wf (mkvec b n) /\ vcontent (mkvec b n) = s /\ vcap (mkvec b n) = length s + length tail.
Proof.
  intros -> ->. unfold wf, vcap, vcontent; simpl. rewrite app_length. repeat split; try lia.
  rewrite firstn_app_le, firstn_all by lia. auto.
Qed.

Lemma replace_same_spec ss p r A B : wf ss -> vcontent ss = A ++ p ++ B -> length r = length p ->
  exists ss', replace_same_size ss (length A) r = Ok (ss', length A + length r) /\ wf ss' /\
    vcap ss' = vcap ss /\ vcontent ss' = A ++ r ++ B.
Proof.
  intros W E L. destruct (content_split _ _ W E) as (tail & Eb & Es & Ec).
  unfold replace_same_size. rewrite Eb, Es.
  rewrite memwrite_total by (rewrite !app_length; lia). cbn [bind].
  eexists. split; [reflexivity|].
  match goal with |- wf (mkvec ?b ?n) /\ _ => destruct (content_make b n (A ++ r ++ B) tail) as (W' & K & C) end.
  - rewrite <- !app_assoc. rewrite firstn_app_le, firstn_all by lia. f_equal. f_equal.
    rewrite L. rewrite app_assoc, skipn_app_ge by (rewrite app_length; lia).
    rewrite app_length, Nat.sub_diag. auto.
  - rewrite !app_length; lia.
  - repeat split; auto. rewrite C, Ec, !app_length. lia.
Qed.

Lemma rotate_ok {A} (a x y z : list A) i m e :
  i = length a -> m = i + length x -> e = m + length y ->
  rotate (a ++ x ++ y ++ z) i m e = Ok (a ++ y ++ x ++ z).
Proof.
  intros -> -> ->. unfold rotate. rewrite !app_length.
  destruct (Nat.leb_spec (length a) (length a + length x)); [|lia].
  destruct (Nat.leb_spec (length a + length x) (length a + length x + length y)); [|lia].
  destruct (Nat.leb_spec (length a + length x + length y) (length a + (length x + (length y + length z)))); [|lia].
  cbn [andb]. f_equal. rewrite firstn_app_le, firstn_all by lia. f_equal.
  rewrite (app_assoc a x), skipn_app_ge by (rewrite app_length; lia). rewrite app_length, Nat.sub_diag. cbn [skipn].
  replace (length a + length x + length y - (length a + length x)) with (length y) by lia.
  rewrite firstn_app_le, firstn_all by lia. f_equal.
  rewrite <- app_assoc, skipn_app_ge by lia. rewrite Nat.sub_diag. cbn [skipn].
  replace (length a + length x - length a) with (length x) by lia.
  rewrite firstn_app_le, firstn_all by lia. f_equal.
  rewrite !app_assoc. rewrite skipn_app_ge by (rewrite !app_length; lia).
  rewrite !app_length. replace (_ - _) with 0 by lia. auto.
Qed.

Lemma replace_smaller_spec ss p r A B : wf ss -> vcontent ss = A ++ p ++ B -> length r < length p ->
  exists ss', replace_smaller ss (length p - length r) (length A) r = Ok (ss', length A + length r) /\ wf ss' /\
    vcap ss' = vcap ss /\ vcontent ss' = A ++ r ++ B.
Proof.
  intros W E L. destruct (content_split _ _ W E) as (tail & Eb & Es & Ec).
  unfold replace_smaller. set (d := length p - length r).
  rewrite <- (firstn_skipn d p) in Eb. set (p1 := firstn d p) in *. set (p2 := skipn d p) in *.
  assert (L1 : length p1 = d) by (unfold p1; rewrite firstn_length; lia).
  assert (L2 : length p2 = length r) by (unfold p2; rewrite skipn_length; lia).
  rewrite !app_length in Es.
  replace (vbuf ss) with (A ++ p1 ++ (p2 ++ B) ++ tail) by (rewrite Eb, <- !app_assoc; auto).
  rewrite rotate_ok; auto; try (rewrite ?app_length; lia). cbn [bind].
  rewrite csub_ok by lia. cbn [bind]. unfold vresize. unfold vcap at 1. cbn [vbuf].
  rewrite !app_length in *.
  match goal with |- context [if ?a <? ?b then _ else _] => destruct (Nat.ltb_spec a b); [lia|] end.
  cbn [bind vbuf vsize].
  rewrite memwrite_total by (rewrite !app_length; lia). cbn [bind].
  eexists. split; [reflexivity|].
  match goal with |- wf (mkvec ?b ?n) /\ _ => destruct (content_make b n (A ++ r ++ B) (p1 ++ tail)) as (W' & K & C) end.
  - rewrite <- !app_assoc. rewrite firstn_app_le, firstn_all by lia. f_equal. f_equal.
    rewrite (app_assoc A p2). rewrite skipn_app_ge by (rewrite app_length; lia). rewrite app_length.
    replace (_ - _) with 0 by lia. auto.
  - rewrite !app_length. lia.
  - repeat split; auto. rewrite C, Ec, !app_length. lia.
Qed.

Lemma replace_larger_spec ss p r A B : wf ss -> vcontent ss = A ++ p ++ B -> length p < length r ->
  exists ss', replace_larger ss (length r - length p) (length A) r
                = Ok (ss', Nat.min (length A + length r) (vcap ss)) /\ wf ss' /\
    vcap ss' = vcap ss /\ vcontent ss' = firstn (vcap ss) (A ++ r ++ B).
Proof.
  intros W E L. destruct (content_split _ _ W E) as (tail & Eb & Es & Ec).
  unfold replace_larger, vavailable. set (d := length r - length p).
  rewrite !app_length in *.
  rewrite csub_ok by lia. cbn [bind]. unfold vgrow.
  set (g := Nat.min d (vcap ss - vsize ss)).
  destruct (Nat.ltb_spec (vcap ss) (vsize ss + g)); [lia|]. cbn [bind vbuf vsize].
  set (n1 := vsize ss + g) in *.
  assert (Hn : n1 = Nat.min (vcap ss) (length A + length r + length B)) by lia.
  (* after the optional rotation, the block is A ++ X ++ (B truncated) ++ rest, with |X| = min |r| (n1-|A|) *)
  assert (R : exists X T, length X = Nat.min (length r) (n1 - length A) /\
    (if (d <=? n1) && (length A <? n1 - d)
     then do b <- rotate (vbuf ss) (length A) (n1 - d) n1 ;; Ok (mkvec b n1)
     else Ok (mkvec (vbuf ss) n1))
    = Ok (mkvec (A ++ X ++ firstn (n1 - (length A + length r)) B ++ T) n1) /\
    length (A ++ X ++ firstn (n1 - (length A + length r)) B ++ T) = vcap ss).
  { destruct (Nat.leb_spec d n1); [destruct (Nat.ltb_spec (length A) (n1 - d))|]; cbn [andb].
    - (* rotation: block = A ++ U ++ V ++ Z, |A|+|U| = n1-d, |V| = d *)
      set (rest := (p ++ B) ++ tail).
      assert (Lr : length rest = length p + length B + length tail) by (unfold rest; rewrite !app_length; lia).
      set (U := firstn (n1 - d - length A) rest).
      set (V := firstn d (skipn (n1 - d - length A) rest)).
      set (Z := skipn d (skipn (n1 - d - length A) rest)).
      assert (Eb2 : vbuf ss = A ++ U ++ V ++ Z).
      { rewrite Eb. unfold U, V, Z. rewrite !firstn_skipn. unfold rest. now rewrite <- !app_assoc. }
      assert (LU : length U = n1 - d - length A) by (unfold U; rewrite firstn_length; lia).
      assert (LV : length V = d) by (unfold V; rewrite firstn_length, skipn_length; lia).
      rewrite Eb2, rotate_ok by lia. cbn [bind].
      destruct (le_lt_dec (length p) (n1 - d - length A)) as [Hp|Hp].
      + assert (EU : U = p ++ firstn (n1 - (length A + length r)) B).
        { unfold U, rest. rewrite firstn_app_le by (rewrite app_length; lia).
          rewrite firstn_app_ge by lia. f_equal. f_equal. lia. }
        exists (V ++ p), Z. rewrite EU. rewrite <- !app_assoc. repeat split; auto.
        * rewrite app_length; lia.
        * apply (f_equal (@length _)) in Eb2. unfold vcap. rewrite Eb2, EU, !app_length. lia.
      + exists (V ++ U), Z. replace (n1 - (length A + length r)) with 0 by lia. rewrite firstn_O.
        cbn [app]. rewrite <- !app_assoc. repeat split; auto.
        * rewrite app_length; lia.
        * apply (f_equal (@length _)) in Eb2. unfold vcap. rewrite Eb2, !app_length. lia.
    - exists (firstn (n1 - length A) ((p ++ B) ++ tail)), (skipn (n1 - length A) ((p ++ B) ++ tail)).
      replace (n1 - (length A + length r)) with 0 by lia. rewrite firstn_O. cbn [app].
      rewrite firstn_skipn. repeat split.
      + rewrite firstn_length, !app_length. lia.
      + rewrite Eb. now rewrite <- !app_assoc.
      + rewrite !app_length. lia.
    - exists (firstn (n1 - length A) ((p ++ B) ++ tail)), (skipn (n1 - length A) ((p ++ B) ++ tail)).
      replace (n1 - (length A + length r)) with 0 by lia. rewrite firstn_O. cbn [app].
      rewrite firstn_skipn. repeat split.
      + rewrite firstn_length, !app_length. lia.
      + rewrite Eb. now rewrite <- !app_assoc.
      + rewrite !app_length. lia. }
  destruct R as (X & T & LX & R & LT). rewrite R. cbn [bind vbuf vsize].
  rewrite csub_ok by lia. cbn [bind].
  assert (LF : length (firstn (Nat.min (length r) (n1 - length A)) r) = length X) by (rewrite firstn_length; lia).
  rewrite !app_length in LT.
  rewrite memwrite_total by (rewrite LF, !app_length; lia). cbn [bind]. rewrite LF.
  replace (length A + Nat.min (length r) (n1 - length A)) with (Nat.min (length A + length r) (vcap ss)) by lia.
  eexists. split; [reflexivity|].
  match goal with |- wf (mkvec ?b ?n) /\ _ =>
    destruct (content_make b n (firstn (vcap ss) (A ++ r ++ B)) T) as (W' & K & C) end.
  - rewrite firstn_app_le, firstn_all by lia.
    rewrite (app_assoc A X). rewrite skipn_app_ge by (rewrite app_length; lia). rewrite app_length, Nat.sub_diag. cbn [skipn].
    rewrite firstn_app_ge by lia. rewrite <- app_assoc. f_equal.
    rewrite app_assoc. f_equal.
    destruct (le_lt_dec (length r) (n1 - length A)).
    + rewrite (firstn_all2 r) by lia. rewrite firstn_app_ge by lia. f_equal.
      destruct (le_lt_dec (length B) (vcap ss - length A - length r)).
      * rewrite !firstn_all2 by lia. auto.
      * f_equal. lia.
    + replace (n1 - (length A + length r)) with 0 by lia. rewrite firstn_O, app_nil_r.
      rewrite firstn_app_le by lia. f_equal. lia.
  - rewrite firstn_length, !app_length. lia.
  - repeat split; auto. rewrite C. rewrite firstn_length, !app_length. rewrite firstn_length in LT. lia.
Qed.

(** ** The loops *)

Section Loops.
Variables (p r : str).
Hypothesis P : p <> [].

Lemma len_p : 0 < length p.
Proof. destruct p; [congruence|simpl; lia]. Qed.

(** Searching from the end of the processed part. *)
Lemma sfind_after ss T rest : vcontent ss = T ++ rest ->
  match sfind ss p (length T) with
  | None => ~ occurs p rest
  | Some n => exists a b, rest = a ++ p ++ b /\ n = length T + length a /\ first_at p a
  end.
Proof.
  intros E. unfold sfind, find_from. rewrite E, app_length.
  destruct (Nat.leb_spec (length T) (length T + length rest)); [|lia].
  rewrite skipn_app_ge, Nat.sub_diag by lia. cbn [skipn].
  destruct (find rest p) eqn:F.
  - destruct (find_first _ _ _ F) as (a & b & -> & <- & A). eauto 10.
  - now apply find_none_occurs.
Qed.

Lemma loop_same_spec : length r = length p ->
  forall fuel ss sdone T rest s t, s = sdone ++ rest -> wf ss -> vcontent ss = T ++ rest -> chain p r sdone T ->
  replaced p r s t -> length rest <= fuel ->
  exists ss', loop_same fuel ss p r (sfind ss p (length T)) = Ok ss' /\ wf ss' /\ vcap ss' = vcap ss /\ vcontent ss' = t.
Proof.
  intros L. induction fuel; intros ss sdone T rest s t -> W E C Rt Fu; pose proof (sfind_after ss T rest E) as F.
  - destruct (sfind ss p (length T)) as [n|]; simpl.
    + destruct F as (a & b & -> & _). rewrite !app_length in Fu. pose proof len_p. lia.
    + exists ss. repeat split; auto. rewrite E. eapply replaced_deterministic; eauto.
      apply chain_replaced; auto. now constructor.
  - destruct (sfind ss p (length T)) as [n|]; cbn [loop_same].
    + destruct F as (a & b & -> & -> & A).
      destruct (replace_same_spec ss p r (T ++ a) b) as (ss1 & E1 & W1 & C1 & K1); auto.
      { now rewrite E, <- app_assoc. }
      rewrite app_length in E1. rewrite E1. cbn [bind].
      replace (length T + length a + length r) with (length (T ++ a ++ r)) by (rewrite !app_length; lia).
      edestruct (IHfuel ss1 (sdone ++ a ++ p) (T ++ a ++ r) b) as (ss2 & E2 & W2 & C2 & K2).
      * reflexivity.
      * auto.
      * rewrite K1. now rewrite <- !app_assoc.
      * now constructor.
      * rewrite <- !app_assoc. eassumption.
      * rewrite !app_length in Fu. pose proof len_p. lia.
      * exists ss2. repeat split; auto. congruence.
    + exists ss. repeat split; auto. rewrite E. eapply replaced_deterministic; eauto.
      apply chain_replaced; auto. now constructor.
Qed.

Lemma loop_smaller_spec : length r < length p ->
  forall fuel ss sdone T rest s t, s = sdone ++ rest -> wf ss -> vcontent ss = T ++ rest -> chain p r sdone T ->
  replaced p r s t -> length rest <= fuel ->
  exists ss', loop_smaller fuel ss p r (length p - length r) (sfind ss p (length T)) = Ok ss' /\ wf ss' /\
    vcap ss' = vcap ss /\ vcontent ss' = t.
Proof.
  intros L. induction fuel; intros ss sdone T rest s t -> W E C Rt Fu; pose proof (sfind_after ss T rest E) as F.
  - destruct (sfind ss p (length T)) as [n|]; simpl.
    + destruct F as (a & b & -> & _). rewrite !app_length in Fu. pose proof len_p. lia.
    + exists ss. repeat split; auto. rewrite E. eapply replaced_deterministic; eauto.
      apply chain_replaced; auto. now constructor.
  - destruct (sfind ss p (length T)) as [n|]; cbn [loop_smaller].
    + destruct F as (a & b & -> & -> & A).
      destruct (replace_smaller_spec ss p r (T ++ a) b) as (ss1 & E1 & W1 & C1 & K1); auto.
      { now rewrite E, <- app_assoc. }
      rewrite app_length in E1. rewrite E1. cbn [bind].
      replace (length T + length a + length r) with (length (T ++ a ++ r)) by (rewrite !app_length; lia).
      edestruct (IHfuel ss1 (sdone ++ a ++ p) (T ++ a ++ r) b) as (ss2 & E2 & W2 & C2 & K2).
      * reflexivity.
      * auto.
      * rewrite K1. now rewrite <- !app_assoc.
      * now constructor.
      * rewrite <- !app_assoc. eassumption.
      * rewrite !app_length in Fu. pose proof len_p. lia.
      * exists ss2. repeat split; auto. congruence.
    + exists ss. repeat split; auto. rewrite E. eapply replaced_deterministic; eauto.
      apply chain_replaced; auto. now constructor.
Qed.

(** For replacements longer than the pattern, the buffer always holds the part of [T ++ rest] that fits. *)
Lemma sfind_trunc ss T rest : wf ss -> vcontent ss = firstn (vcap ss) (T ++ rest) ->
  match sfind ss p (Nat.min (length T) (vcap ss)) with
  | None => ~ occurs p (firstn (vcap ss - length T) rest)
  | Some n => exists a b, rest = a ++ p ++ b /\ n = length T + length a /\ first_at p a /\
                length T + length a + length p <= vcap ss
  end.
Proof.
  intros W E. destruct (le_lt_dec (length T) (vcap ss)).
  - rewrite Nat.min_l by lia. rewrite firstn_app_ge in E by lia.
    pose proof (sfind_after ss T _ E) as F. destruct (sfind ss p (length T)); auto.
    destruct F as (a & b & Q & -> & A). apply (f_equal (fun x => x ++ skipn (vcap ss - length T) rest)) in Q as Q2.
    rewrite firstn_skipn in Q2. rewrite <- !app_assoc in Q2. exists a, (b ++ skipn (vcap ss - length T) rest).
    repeat split; auto. apply (f_equal (@length _)) in Q. rewrite firstn_length, !app_length in Q. lia.
  - rewrite Nat.min_r by lia. replace (vcap ss - length T) with 0 by lia. rewrite firstn_O.
    assert (length (vcontent ss) = vcap ss) by (rewrite E, firstn_length, app_length; lia).
    unfold sfind, find_from. rewrite H, Nat.leb_refl. rewrite skipn_all2 by lia.
    destruct (find [] p) eqn:F.
    + exfalso. destruct (find_some _ _ _ F) as (a & b & Q & _). apply (f_equal (@length _)) in Q.
      rewrite !app_length in Q. pose proof len_p. simpl in Q. lia.
    + now apply find_none_occurs.
Qed.

Lemma step_content ss T a b : length p < length r -> wf ss ->
  vcontent ss = firstn (vcap ss) (T ++ a ++ p ++ b) -> length T + length a + length p <= vcap ss ->
  exists B, vcontent ss = (T ++ a) ++ p ++ B /\
    firstn (vcap ss) ((T ++ a) ++ r ++ B) = firstn (vcap ss) (T ++ a ++ r ++ b) /\
    (length (T ++ a ++ p ++ b) <= vcap ss -> B = b).
Proof.
  intros L W E H. exists (firstn (vcap ss - length (T ++ a ++ p)) b). repeat split.
  - rewrite E. replace (T ++ a ++ p ++ b) with ((T ++ a ++ p) ++ b) by now rewrite <- !app_assoc.
    rewrite firstn_app_ge by (rewrite !app_length; lia). now rewrite <- !app_assoc.
  - replace ((T ++ a) ++ r ++ firstn (vcap ss - length (T ++ a ++ p)) b)
      with ((T ++ a ++ r) ++ firstn (vcap ss - length (T ++ a ++ p)) b) by now rewrite <- !app_assoc.
    replace (T ++ a ++ r ++ b) with ((T ++ a ++ r) ++ b) by now rewrite <- !app_assoc.
    destruct (le_lt_dec (length (T ++ a ++ r)) (vcap ss)).
    + rewrite !firstn_app_ge by lia. f_equal. rewrite firstn_firstn. f_equal.
      rewrite !app_length in *. lia.
    + rewrite !(firstn_app_le _ (T ++ a ++ r)) by lia. auto.
  - intros. rewrite firstn_all2; auto. rewrite !app_length in *. lia.
Qed.

(** Final state of the loop: everything processed up to [T], nothing left to find in what fits. *)
Lemma loop_larger_spec : length p < length r ->
  forall fuel ss sdone T rest ov, wf ss -> vcontent ss = firstn (vcap ss) (T ++ rest) -> chain p r sdone T ->
  ov = (vcap ss <? length (T ++ rest)) -> vcap ss - length T <= fuel ->
  exists ss' sdone' T' rest' ov', loop_larger fuel ss p r (length r - length p) (sfind ss p (Nat.min (length T) (vcap ss))) ov
      = Ok (ss', ov') /\ wf ss' /\ vcap ss' = vcap ss /\ sdone ++ rest = sdone' ++ rest' /\ chain p r sdone' T' /\
    vcontent ss' = firstn (vcap ss) (T' ++ rest') /\ ov' = (vcap ss <? length (T' ++ rest')) /\
    ~ occurs p (firstn (vcap ss - length T') rest').
Proof.
  intros L. induction fuel; intros ss sdone T rest ov W E C O Fu; pose proof (sfind_trunc ss T rest W E) as F.
  - destruct (sfind ss p (Nat.min (length T) (vcap ss))) as [n|]; simpl.
    + destruct F as (a & b & -> & _ & _ & F). pose proof len_p. lia.
    + exists ss, sdone, T, rest, ov. repeat split; auto.
  - destruct (sfind ss p (Nat.min (length T) (vcap ss))) as [n|]; cbn [loop_larger].
    + destruct F as (a & b & -> & -> & A & F).
      destruct (step_content ss T a b L W E F) as (B & E1 & E2 & E3).
      destruct (replace_larger_spec ss p r (T ++ a) B W E1 L) as (ss1 & R1 & W1 & C1 & K1).
      unfold vavailable. pose proof W as W0. unfold wf in W0. rewrite csub_ok by auto. cbn [bind].
      rewrite app_length in R1. rewrite R1. cbn [bind].
      assert (Sz : vsize ss = length (T ++ a) + length p + length B).
      { rewrite <- (vcontent_length ss W), E1, !app_length. lia. }
      replace (length T + length a + length r) with (length (T ++ a ++ r)) by (rewrite !app_length; lia).
      rewrite <- C1.
      edestruct (IHfuel ss1 (sdone ++ a ++ p) (T ++ a ++ r) b) as (ss2 & sd & T2 & rest2 & ov2 & R2 & W2 & C2 & S2 & Ch2 & K2 & O2 & N2).
      * auto.
      * rewrite K1, E2, C1. now rewrite <- !app_assoc.
      * now constructor.
      * reflexivity.
      * rewrite !app_length in *. pose proof len_p. lia.
      * assert (Q : (if vcap ss - vsize ss <? length r - length p then true else ov)
                    = (vcap ss1 <? length ((T ++ a ++ r) ++ b))).
        { rewrite O, C1. rewrite !app_length in *.
          destruct (Nat.ltb_spec (vcap ss) (length T + (length a + (length p + length b)))).
          - destruct (Nat.ltb_spec (vcap ss) (length T + (length a + length r) + length b)); [|lia].
            now destruct (Nat.ltb_spec (vcap ss - vsize ss) (length r - length p)).
          - rewrite E3 in Sz by lia.
            destruct (Nat.ltb_spec (vcap ss - vsize ss) (length r - length p)),
             (Nat.ltb_spec (vcap ss) (length T + (length a + length r) + length b)); auto; lia. }
        rewrite C1 in *. rewrite Q. exists ss2, sd, T2, rest2, ov2. repeat split; auto.
        rewrite <- S2. now rewrite <- !app_assoc.
    + exists ss, sdone, T, rest, ov. repeat split; auto.
Qed.

(** What a full replacement looks like beyond the processed part. *)
Lemma replaced_prefix k rest t : replaced p r rest t -> ~ occurs p (firstn k rest) ->
  rest = t \/ (k < length rest /\ firstn (k - (length p - 1)) rest = firstn (k - (length p - 1)) t).
Proof.
  intros R N. inversion R; subst; auto. right.
  assert (k < length a + length p).
  { destruct (le_lt_dec (length a + length p) k); auto. exfalso. apply N.
    exists a, (firstn (k - length a - length p) s). rewrite !firstn_app_ge by lia. auto. }
  split. rewrite !app_length. lia. pose proof len_p. rewrite !firstn_app_le by lia. auto.
Qed.

Lemma replaced_length : length p <= length r -> forall s t, replaced p r s t -> length s <= length t.
Proof. intros L s t H; induction H; auto. rewrite !app_length. lia. Qed.

Lemma replaced_shorter : length r <= length p -> forall s t, replaced p r s t -> length t <= length s.
Proof. intros L s t H; induction H; auto. rewrite !app_length. lia. Qed.

Theorem replace_all_spec ss t fuel : wf ss -> replaced p r (vcontent ss) t -> vcap ss <= fuel ->
  exists ss', replace_all fuel ss p r = Ok (ss', length t <=? vcap ss) /\ wf ss' /\ vcap ss' = vcap ss /\
    (length t <= vcap ss -> vcontent ss' = t) /\
    (vcap ss < length t ->
       length (vcontent ss') = vcap ss /\
       firstn (vcap ss - (length p - 1)) (vcontent ss') = firstn (vcap ss - (length p - 1)) t).
Proof.
  intros W R Fu. unfold replace_all. pose proof (vcontent_length ss W) as Lc. pose proof W as W0; unfold wf in W0.
  destruct (Nat.eqb_spec (length r) (length p)) as [L|L]; [|destruct (Nat.ltb_spec (length r) (length p)) as [L2|L2]].
  - pose proof (replaced_shorter ltac:(lia) _ _ R).
    destruct (Nat.leb_spec (length t) (vcap ss)); [|lia].
    destruct (loop_same_spec L fuel ss [] [] (vcontent ss) (vcontent ss) t) as (ss' & E & W' & C & K); auto.
    constructor. lia. cbn [length] in E. rewrite E. cbn [bind]. exists ss'. repeat split; auto; lia.
  - pose proof (replaced_shorter ltac:(lia) _ _ R).
    destruct (Nat.leb_spec (length t) (vcap ss)); [|lia]. rewrite csub_ok by lia. cbn [bind].
    destruct (loop_smaller_spec L2 fuel ss [] [] (vcontent ss) (vcontent ss) t) as (ss' & E & W' & C & K); auto.
    constructor. lia. cbn [length] in E. rewrite E. cbn [bind]. exists ss'. repeat split; auto; lia.
  - rewrite csub_ok by lia. cbn [bind].
    destruct (loop_larger_spec ltac:(lia) fuel ss [] [] (vcontent ss) false) as (ss' & sd & T & rest & ov & E & W' & C & S & Ch & K & O & N); auto.
    + cbn [app]. now rewrite firstn_all2 by lia.
    + constructor.
    + cbn [app]. destruct (Nat.ltb_spec (vcap ss) (length (vcontent ss))); auto; lia.
    + simpl; lia.
    + cbn [length Nat.min] in E. rewrite E. cbn [bind]. exists ss'.
      cbn [app] in S. destruct (replaced_total p r rest P) as [t' Rt].
      assert (t = T ++ t').
      { eapply replaced_deterministic; [eauto|]. rewrite S. now apply chain_replaced. }
      assert (Q : negb ov = (length t <=? vcap ss) /\ (length t <= vcap ss -> rest = t')).
      { rewrite O, H, !app_length. pose proof (replaced_length ltac:(lia) _ _ Rt).
        destruct (replaced_prefix _ _ _ Rt N) as [<-|[N1 N2]].
        - destruct (Nat.ltb_spec (vcap ss) (length T + length rest)), (Nat.leb_spec (length T + length rest) (vcap ss)); auto; lia.
        - destruct (Nat.ltb_spec (vcap ss) (length T + length rest)), (Nat.leb_spec (length T + length t') (vcap ss)); split; auto; lia. }
      destruct Q as [Q1 Q2]. rewrite Q1. repeat split; auto.
      * intros Hl. rewrite K, H, (Q2 Hl). rewrite firstn_all2; auto. now rewrite <- H.
      * rewrite K, firstn_length. destruct (Nat.leb_spec (length t) (vcap ss)); [lia|]. rewrite O in Q1.
        destruct (Nat.ltb_spec (vcap ss) (length (T ++ rest))); [|discriminate]. lia.
      * rewrite K, H. rewrite firstn_firstn, Nat.min_l by lia.
        destruct (replaced_prefix _ _ _ Rt N) as [<-|[N1 N2]]; auto.
        rewrite !firstn_app. f_equal.
        replace (vcap ss - (length p - 1) - length T) with (vcap ss - length T - (length p - 1)) by lia. auto.
Qed.

End Loops.

(** Whether the full result fits does not depend on anything but its length; and for replacements not longer
    than the pattern it always fits. *)
Lemma replaced_fits_shorter p r s t cap : length r <= length p -> length s <= cap -> replaced p r s t -> length t <= cap.
Proof. intros. pose proof (replaced_shorter p r H _ _ H1). lia. Qed.

(** ** The empty pattern never terminates *)

Lemma find_empty s : find s [] = Some 0.
Proof. destruct s; reflexivity. Qed.

Lemma sfind_empty ss n : n <= length (vcontent ss) -> sfind ss [] n = Some n.
Proof. intros. unfold sfind, find_from. destruct (Nat.leb_spec n (length (vcontent ss))); [|lia].
  rewrite find_empty. f_equal; lia. Qed.

Lemma loop_same_empty fuel ss n : wf ss -> n <= vsize ss -> loop_same fuel ss [] [] (Some n) = Err Fuel.
Proof.
  revert ss n; induction fuel; intros ss n W H; cbn [loop_same]; auto.
  destruct (replace_same_spec ss [] [] (firstn n (vcontent ss)) (skipn n (vcontent ss))) as (ss1 & E & W1 & C & K); auto.
  { cbn [app]. now rewrite firstn_skipn. }
  pose proof (vcontent_length ss W) as L.
  rewrite firstn_length, Nat.min_l in E by lia. rewrite E. cbn [bind length].
  cbn [app] in K. rewrite firstn_skipn in K. rewrite Nat.add_0_r.
  rewrite sfind_empty by (rewrite K; lia). apply IHfuel; auto.
  rewrite <- (vcontent_length ss1 W1), K. lia.
Qed.

Lemma loop_larger_empty fuel r ss n ov : r <> [] -> wf ss -> n <= vsize ss ->
  loop_larger fuel ss [] r (length r) (Some n) ov = Err Fuel.
Proof.
  intros R. revert ss n ov; induction fuel; intros ss n ov W H; cbn [loop_larger]; auto.
  pose proof (vcontent_length ss W) as L.
  destruct (replace_larger_spec ss [] r (firstn n (vcontent ss)) (skipn n (vcontent ss))) as (ss1 & E & W1 & C & K); auto.
  { cbn [app]. now rewrite firstn_skipn. }
  { destruct r; [congruence|simpl; lia]. }
  unfold vavailable. pose proof W as W0. unfold wf in W0. rewrite csub_ok by auto. cbn [bind].
  cbn [length] in E. rewrite Nat.sub_0_r in E.
  rewrite firstn_length, Nat.min_l in E by lia. rewrite E. cbn [bind].
  assert (Nat.min (n + length r) (vcap ss) <= length (vcontent ss1)).
  { rewrite K. rewrite firstn_length, !app_length, firstn_length. lia. }
  rewrite sfind_empty by auto. apply IHfuel; auto. rewrite <- (vcontent_length ss1 W1). auto.
Qed.

Theorem replace_all_empty_pattern fuel ss r : wf ss -> replace_all fuel ss [] r = Err Fuel.
Proof.
  intros W. unfold replace_all. rewrite sfind_empty by lia.
  destruct r.
  - cbn [length Nat.eqb]. rewrite loop_same_empty; auto; lia.
  - cbn [length Nat.eqb]. cbn. rewrite loop_larger_empty; auto; try congruence; lia.
Qed.

(** ** Escaping *)

Lemma occurs1 c s : occurs [c] s <-> In c s.
Proof.
  split; [intros (a & b & ->); rewrite !in_app_iff; cbn; tauto|]. intros I. destruct (in_split _ _ I) as (a & b & ->). now exists a, b.
Qed.
Lemma first_at1 c a : first_at [c] a <-> ~ In c a.
Proof.
  split.
  - intros F I. destruct (in_split _ _ I) as (x & y & ->). specialize (F x (y ++ [c])). rewrite <- app_assoc in F.
    specialize (F eq_refl). destruct y; discriminate.
  - intros N a' b' E. destruct b' as [|d b'] using rev_ind; auto. exfalso.
    rewrite !app_assoc in E. apply app_inj_tail in E as [-> _]. apply N. rewrite !in_app_iff. cbn. tauto.
Qed.
Lemma replaced_app1 c r s t s' t' : replaced [c] r s t -> replaced [c] r s' t' -> replaced [c] r (s ++ s') (t ++ t').
Proof.
  intros H H'. induction H as [s N|a s t F R IH].
  - inversion H' as [s0 N' E1 E2|a0 s0 t0 F R E1 E2]; subst.
    + constructor. rewrite occurs1 in *. rewrite in_app_iff. tauto.
    + rewrite !(app_assoc s). constructor; auto. rewrite first_at1, occurs1 in *. rewrite in_app_iff. tauto.
  - rewrite <- !app_assoc. now constructor.
Qed.

Section Escape.
Variables (p r : str).
Hypothesis P : p <> [].
Hypothesis L : length p < length r.

(** [lfp] is a place where the text may be cut: the text up to it is the escape of a prefix of the original. *)
Definition edge (pre q : str) : Prop := (exists x, pre = x ++ p) \/ (exists y, q = p ++ y).
Definition lfp_ok (s : str) (cap lfp : nat) (sdone T : str) : Prop :=
  (lfp + 3 <= cap /\ lfp <= length T /\ exists pre q, s = pre ++ q /\ replaced p r pre (firstn lfp T) /\ edge pre q) \/
  (lfp = length s /\ T = [] /\ sdone = []) \/
  (lfp = length s /\ exists a q T', s = a ++ q /\ ~ occurs p a /\ cap < length a + 3 /\ T = a ++ T').

(** For one-character patterns: it is the last such place at the start or end of an occurrence. *)
Definition lfp_max (cap lfp : nat) (sdone : str) : Prop :=
  length p = 1 -> forall pre q u, sdone = pre ++ q -> edge pre q -> replaced p r pre u -> length u + 3 <= cap ->
  lfp + 3 <= cap /\ length u <= lfp.

Lemma first_at_no_occurs a : first_at p a -> ~ occurs p a.
Proof.
  intros F (x & y & E). assert (a ++ p = x ++ p ++ (y ++ p)) by (rewrite E; now rewrite <- !app_assoc).
  apply F in H. apply app_eq_nil in H as [_ H]. auto.
Qed.

Lemma not_occurs_firstn a n : ~ occurs p a -> ~ occurs p (firstn n a).
Proof.
  intros N (x & y & E). apply N. exists x, (y ++ skipn n a).
  rewrite <- (firstn_skipn n a) at 1. rewrite E. now rewrite <- !app_assoc.
Qed.

Lemma loop_escape_spec s :
  forall fuel ss sdone T rest lfp ov, wf ss -> vcontent ss = firstn (vcap ss) (T ++ rest) -> chain p r sdone T ->
  s = sdone ++ rest -> ov = (vcap ss <? length (T ++ rest)) -> vcap ss - length T <= fuel ->
  lfp_ok s (vcap ss) lfp sdone T -> lfp_max (vcap ss) lfp sdone ->
  exists ss' sdone' T' rest' lfp' ov',
    loop_escape fuel ss p r (length r - length p) (sfind ss p (Nat.min (length T) (vcap ss))) lfp ov
      = Ok (ss', lfp', ov') /\ wf ss' /\ vcap ss' = vcap ss /\ s = sdone' ++ rest' /\ chain p r sdone' T' /\
    vcontent ss' = firstn (vcap ss) (T' ++ rest') /\ ov' = (vcap ss <? length (T' ++ rest')) /\
    ~ occurs p (firstn (vcap ss - length T') rest') /\ lfp_ok s (vcap ss) lfp' sdone' T' /\
    lfp_max (vcap ss) lfp' sdone'.
Proof.
  induction fuel; intros ss sdone T rest lfp ov W E C Es O Fu Lf Lm; pose proof (sfind_trunc p P ss T rest W E) as F.
  - destruct (sfind ss p (Nat.min (length T) (vcap ss))) as [n|]; simpl.
    + destruct F as (a & b & -> & _ & _ & F). pose proof (len_p p P). lia.
    + exists ss, sdone, T, rest, lfp, ov. do 9 (split; [solve [auto]|]); auto.
  - destruct (sfind ss p (Nat.min (length T) (vcap ss))) as [n|]; cbn [loop_escape].
    + destruct F as (a & b & -> & -> & A & F).
      destruct (step_content p r ss T a b L W E F) as (B & E1 & E2 & E3).
      destruct (replace_larger_spec ss p r (T ++ a) B W E1 L) as (ss1 & R1 & W1 & C1 & K1).
      unfold vavailable. pose proof W as W0. unfold wf in W0. rewrite !csub_ok by lia. cbn [bind].
      rewrite app_length in R1. rewrite R1. cbn [bind].
      assert (Sz : vsize ss = length (T ++ a) + length p + length B).
      { rewrite <- (vcontent_length ss W), E1, !app_length. lia. }
      replace (length T + length a + length r) with (length (T ++ a ++ r)) by (rewrite !app_length; lia).
      rewrite C1. rewrite csub_ok by lia. cbn [bind].
      assert (Q : (if vcap ss - vsize ss <? length r - length p then true else ov)
                    = (vcap ss <? length ((T ++ a ++ r) ++ b))).
      { rewrite O. rewrite !app_length in *.
          destruct (Nat.ltb_spec (vcap ss) (length T + (length a + (length p + length b)))).
          - destruct (Nat.ltb_spec (vcap ss) (length T + (length a + length r) + length b)); [|lia].
            now destruct (Nat.ltb_spec (vcap ss - vsize ss) (length r - length p)).
          - rewrite E3 in Sz by lia.
            destruct (Nat.ltb_spec (vcap ss - vsize ss) (length r - length p)),
             (Nat.ltb_spec (vcap ss) (length T + (length a + length r) + length b)); auto; lia. }
      rewrite Q. rewrite <- C1 in *.
      match goal with |- context [loop_escape fuel ss1 p r _ _ ?l ?o] => set (lfp2 := l); set (ov2 := o) end.
      assert (Lf2 : lfp_ok s (vcap ss1) lfp2 (sdone ++ a ++ p) (T ++ a ++ r)).
      { pose proof (first_at_no_occurs a A) as NA. unfold lfp2.
        destruct (Nat.leb_spec 3 (vcap ss1 - Nat.min (length (T ++ a ++ r)) (vcap ss1))).
        - left. rewrite Nat.min_l by lia. repeat split; try lia. exists (sdone ++ a ++ p), b.
          split. now rewrite <- !app_assoc.
          split.
          2: { left. exists (sdone ++ a). now rewrite <- app_assoc. }
          rewrite firstn_all. rewrite <- (app_nil_r (sdone ++ a ++ p)), <- (app_nil_r (T ++ a ++ r)).
          apply chain_replaced; [now constructor|]. constructor. intros (x & y & Z).
          symmetry in Z. apply app_eq_nil in Z as [_ Z]. apply app_eq_nil in Z as [Z _]. auto.
        - destruct (Nat.leb_spec 3 (vcap ss1 - (length T + length a))).
          + left. repeat split; try lia.
            exists (sdone ++ a), (p ++ b). split. now rewrite <- !app_assoc.
            split; [|right; now exists b].
            rewrite app_assoc, firstn_app_le by (rewrite app_length; lia). rewrite firstn_all2 by (rewrite app_length; lia).
            apply chain_replaced; auto. now constructor.
          + destruct Lf as [(H1 & H2 & pre & q & H3 & H4 & H4')|[(H1 & -> & ->)|(H1 & a0 & q & T' & H2 & H3 & H4 & H5)]].
            * left. repeat split; auto. rewrite app_length; lia. exists pre, q. split; auto. split; auto.
              now rewrite firstn_app_le by lia.
            * right; right. split; auto. exists a, (p ++ b), r. repeat split; auto.
              cbn [length] in *. lia.
            * right; right. split; auto. exists a0, q, (T' ++ a ++ r). repeat split; auto.
              rewrite H5. now rewrite <- app_assoc. }
      assert (Lm2 : lfp_max (vcap ss1) lfp2 (sdone ++ a ++ p)).
      { intros P1 pre q u Q1 Q2 Q3 Q4. pose proof (first_at_no_occurs a A) as NA.
        assert (HT : forall x, ~ occurs p x -> replaced p r (sdone ++ x) (T ++ x)) by (intros; apply chain_replaced; auto; now constructor).
        assert (N0 : ~ occurs p []).
        { intros (x & y & Z). symmetry in Z. apply app_eq_nil in Z as [_ Z]. apply app_eq_nil in Z as [Z _]. auto. }
        assert (HR : replaced p r (sdone ++ a ++ p) (T ++ a ++ r)).
        { rewrite <- (app_nil_r (sdone ++ a ++ p)), <- (app_nil_r (T ++ a ++ r)). apply chain_replaced; now constructor. }
        assert (Ka : pre = sdone ++ a -> lfp2 + 3 <= vcap ss1 /\ length u <= lfp2).
        { intros ->. assert (u = T ++ a) by (eapply replaced_deterministic; eauto). subst u. unfold lfp2. rewrite !app_length in *.
          destruct (Nat.leb_spec 3 (vcap ss1 - Nat.min (length T + (length a + length r)) (vcap ss1))); [lia|].
          destruct (Nat.leb_spec 3 (vcap ss1 - (length T + length a))); lia. }
        assert (Kr : pre = sdone ++ a ++ p -> lfp2 + 3 <= vcap ss1 /\ length u <= lfp2).
        { intros ->. assert (u = T ++ a ++ r) by (eapply replaced_deterministic; eauto). subst u. unfold lfp2. rewrite !app_length in *.
          destruct (Nat.leb_spec 3 (vcap ss1 - Nat.min (length T + (length a + length r)) (vcap ss1))); lia. }
        assert (Ko : forall l, sdone = pre ++ l -> edge pre l -> lfp2 + 3 <= vcap ss1 /\ length u <= lfp2).
        { intros l Q5 Q6. destruct (Lm P1 pre l u Q5 Q6 Q3 Q4) as [M1 M2]. unfold lfp2. rewrite !app_length in *.
          assert (length u <= length T).
          { destruct (replaced_total p r l P) as [v V]. specialize (HT [] N0). rewrite !app_nil_r in HT.
            assert (X : replaced p r (pre ++ l) (u ++ v)).
            { clear - P1 Q3 V. destruct p as [|c [|c' p']]; try discriminate P1. now apply replaced_app1. }
            rewrite <- Q5 in X. rewrite (replaced_deterministic _ _ _ _ _ HT X), app_length. lia. }
          destruct (Nat.leb_spec 3 (vcap ss1 - Nat.min (length T + (length a + length r)) (vcap ss1))); [lia|].
          destruct (Nat.leb_spec 3 (vcap ss1 - (length T + length a))); lia. }
        clearbody lfp2. clear - P1 Q1 Q2 NA Ka Kr Ko P. unfold edge in *.
        destruct p as [|c [|c' p']]; try discriminate P1.
        assert (NI : ~ In c a). { intros I. apply NA. destruct (in_split _ _ I) as (x & y & ->). now exists x, y. }
        destruct (app_eq_app _ _ _ _ Q1) as (l & [[E1 E2]|[E1 E2]]).
        - (* sdone = pre ++ l, q = l ++ a ++ [c] *)
          destruct l as [|d l].
          + rewrite app_nil_r in E1. cbn [app] in E2. destruct Q2 as [Q2|(y & Q2)].
            * apply (Ko []); [now rewrite app_nil_r|now left].
            * rewrite E2 in Q2. destruct a as [|d a]; [apply Ka; now rewrite app_nil_r|]. cbn in Q2. injection Q2 as -> Q2. destruct NI. now left.
          + destruct Q2 as [Q2|(y & Q2)].
            * apply (Ko (d :: l)); [exact E1|now left].
            * apply (Ko (d :: l)); [exact E1|]. right. rewrite E2 in Q2. cbn in Q2. injection Q2 as -> Q2. now exists l.
        - (* pre = sdone ++ l *)
          destruct Q2 as [(x & Q2)|(y & Q2)].
          + destruct l as [|d l] using rev_ind.
            * rewrite app_nil_r in E1. apply (Ko []); [rewrite app_nil_r; auto|left; now exists x].
            * clear IHl. rewrite E1, app_assoc in Q2. apply app_inj_tail in Q2 as [_ ->].
              apply Kr. f_equal. destruct q as [|e q] using rev_ind.
              -- rewrite app_nil_r in E2. now rewrite E2.
              -- rewrite !app_assoc in E2. apply app_inj_tail in E2 as [E2 _]. subst a.
                 destruct NI. rewrite !in_app_iff. cbn. tauto.
          + subst q. apply Ka. rewrite E1. f_equal. destruct y as [|e y] using rev_ind.
            * now apply app_inj_tail in E2 as [-> _].
            * change ([c] ++ y ++ [e]) with ((c :: y) ++ [e]) in E2. rewrite app_assoc in E2. apply app_inj_tail in E2 as [E2 _]. subst a.
              destruct NI. rewrite in_app_iff. cbn. tauto. }
      edestruct (IHfuel ss1 (sdone ++ a ++ p) (T ++ a ++ r) b lfp2 ov2) as (ss2 & sd & T2 & rest2 & lfp3 & ov3 & R2 & W2 & C2 & S2 & Ch2 & K2 & O2 & N2 & Lf3 & Lm3); auto.
      * rewrite K1, E2. now rewrite <- !app_assoc.
      * now constructor.
      * rewrite Es. now rewrite <- !app_assoc.
      * rewrite !app_length in *. pose proof (len_p p P). lia.
      * exists ss2, sd, T2, rest2, lfp3, ov3. do 9 (split; [solve [auto]|]); auto.
    + exists ss, sdone, T, rest, lfp, ov. do 9 (split; [solve [auto]|]); auto.
Qed.

Theorem escape_spec ss t fuel : wf ss -> replaced p r (vcontent ss) t -> vcap ss <= fuel ->
  exists ss', escape_all_or_truncate fuel ss p r = Ok (ss', length t <=? vcap ss) /\ wf ss' /\ vcap ss' = vcap ss /\
    (length t <= vcap ss -> vcontent ss' = t) /\
    (vcap ss < length t -> exists pre suf u, vcontent ss = pre ++ suf /\ replaced p r pre u /\
       vcontent ss' = u ++ dots (Nat.min 3 (vcap ss)) /\ (edge pre suf \/ length pre = vcap ss - 3) /\
       (length p = 1 -> forall pre' suf' u', vcontent ss = pre' ++ suf' -> edge pre' suf' -> replaced p r pre' u' ->
          length u' + 3 <= vcap ss -> length u' <= length u)).
Proof.
  intros W R Fu. unfold escape_all_or_truncate.
  destruct (Nat.leb_spec (length r) (length p)); [lia|]. rewrite csub_ok by lia. cbn [bind].
  pose proof (vcontent_length ss W) as Lc. pose proof W as W0; unfold wf in W0.
  destruct (loop_escape_spec (vcontent ss) fuel ss [] [] (vcontent ss) (length (vcontent ss)) false)
    as (ss' & sd & T & rest & lfp & ov & E & W' & C & S & Ch & K & O & N & Lf & Lm); auto.
  - cbn [app]. now rewrite firstn_all2 by lia.
  - constructor.
  - cbn [app]. destruct (Nat.ltb_spec (vcap ss) (length (vcontent ss))); auto; lia.
  - simpl; lia.
  - right; left; auto.
  - intros P1 pre q u Q1 Q2. symmetry in Q1. apply app_eq_nil in Q1 as [-> ->].
    destruct Q2 as [(x & Q2)|(x & Q2)]; apply (f_equal (@length _)) in Q2; rewrite app_length in Q2; cbn in Q2; lia.
  - cbn [length Nat.min] in E. rewrite E. cbn [bind].
    destruct (replaced_total p r rest P) as [t' Rt].
    assert (Et : t = T ++ t').
    { eapply replaced_deterministic; [eauto|]. rewrite S. now apply chain_replaced. }
    assert (Q : negb ov = (length t <=? vcap ss) /\ (length t <= vcap ss -> rest = t')).
    { rewrite O, Et, !app_length. pose proof (replaced_length p r ltac:(lia) _ _ Rt).
      destruct (replaced_prefix p r P _ _ _ Rt N) as [<-|[N1 N2]].
      - destruct (Nat.ltb_spec (vcap ss) (length T + length rest)), (Nat.leb_spec (length T + length rest) (vcap ss)); auto; lia.
      - destruct (Nat.ltb_spec (vcap ss) (length T + length rest)), (Nat.leb_spec (length T + length t') (vcap ss)); split; auto; lia. }
    destruct Q as [Q1 Q2]. destruct (Nat.leb_spec (length t) (vcap ss)) as [Ht|Ht].
    + destruct ov; [discriminate|]. exists ss'. repeat split; auto; try lia.
      intros _. rewrite K, Et, (Q2 Ht). rewrite firstn_all2; auto. now rewrite <- Et.
    + destruct ov; [|discriminate]. symmetry in O. apply Nat.ltb_lt in O.
      assert (Sz : vsize ss' = vcap ss).
      { rewrite <- (vcontent_length ss' W'), K, firstn_length. lia. }
      assert (Lb : lfp <= vcap ss).
      { destruct Lf as [(H1 & _)|[(H1 & _)|(H1 & _)]]; lia. }
      unfold vresize. rewrite C. destruct (Nat.ltb_spec (vcap ss) lfp); [lia|]. cbn [bind].
      destruct (truncate_end_spec (mkvec (vbuf ss') lfp)) as (ss2 & E2 & W2 & C2 & S2 & K2).
      { unfold wf, vcap in *; simpl; lia. }
      rewrite E2. cbn [bind]. cbn [vsize] in *.
      assert (Cc : vcap (mkvec (vbuf ss') lfp) = vcap ss) by (rewrite <- C; reflexivity).
      rewrite Cc in *.
      assert (Kc : vcontent (mkvec (vbuf ss') lfp) = firstn lfp (T ++ rest)).
      { assert (firstn lfp (vcontent ss') = firstn lfp (vbuf ss')).
        { unfold vcontent. rewrite firstn_firstn, Nat.min_l by lia. auto. }
        unfold vcontent at 1; cbn [vbuf vsize]. rewrite <- H1, K, firstn_firstn, Nat.min_l by lia. auto. }
      rewrite Kc in K2. exists ss2. repeat split; auto; try lia.
      assert (Mx : length p = 1 -> forall pre' suf' u', vcontent ss = pre' ++ suf' -> edge pre' suf' -> replaced p r pre' u' ->
                length u' + 3 <= vcap ss -> lfp + 3 <= vcap ss /\ length u' <= lfp).
      { intros P1 pre' suf' u' Q1' Q2' Q3' Q4'. rewrite S in Q1'.
        assert (HT : replaced p r sd T).
        { rewrite <- (app_nil_r sd), <- (app_nil_r T). apply chain_replaced; auto. constructor.
          intros (x & y & Z). symmetry in Z. apply app_eq_nil in Z as [_ Z]. apply app_eq_nil in Z as [Z _]. auto. }
        specialize (Lm P1).
        assert (Kl : forall l b, pre' = sd ++ l -> rest = l ++ b -> ~ occurs p (firstn (1 + length l) rest)).
        { intros l b -> Er. destruct (replaced_total p r l P) as [v V].
          assert (X : replaced p r (sd ++ l) (T ++ v)).
          { clear - P1 V HT. destruct p as [|c [|c' p']]; try discriminate P1. now apply replaced_app1. }
          rewrite (replaced_deterministic _ _ _ _ _ Q3' X), app_length in Q4'.
          pose proof (replaced_length p r ltac:(lia) _ _ V). pose proof (not_occurs_firstn _ (1 + length l) N) as N1.
          rewrite firstn_firstn, Nat.min_l in N1 by lia. exact N1. }
        assert (Ke : forall l, sd = pre' ++ l -> edge pre' l -> lfp + 3 <= vcap ss /\ length u' <= lfp) by (intros l Hl He; eapply Lm; eauto).
        clear - P1 Q1' Q2' P Kl Ke. unfold edge in *.
        destruct p as [|c [|c' p']]; try discriminate P1.
        destruct (app_eq_app _ _ _ _ Q1') as (l & [[E1 E2]|[E1 E2]]).
        - destruct Q2' as [Q2|(y & Q2)]; [apply (Ke l); auto|].
          destruct l as [|d l].
          + exfalso. rewrite app_nil_r in E1. apply (Kl [] rest); [now rewrite app_nil_r|reflexivity|].
            cbn [app] in E2. rewrite <- E2, Q2. cbn. now exists [], [].
          + apply (Ke (d :: l)); [exact E1|right]. rewrite Q2 in E2. injection E2 as -> E2. now exists l.
        - destruct Q2' as [(x & Q2)|(y & Q2)].
          + destruct l as [|d l] using rev_ind.
            * rewrite app_nil_r in E1. apply (Ke []); [now rewrite app_nil_r|]. left. now exists x.
            * clear IHl. exfalso. apply (Kl (l ++ [d]) suf'); auto. rewrite E1, app_assoc in Q2. apply app_inj_tail in Q2 as [_ ->].
              rewrite E2. exists l, (firstn 1 suf'). rewrite firstn_app_ge by lia. rewrite <- app_assoc.
              replace (1 + length (l ++ [c]) - length (l ++ [c])) with 1 by lia. reflexivity.
          + exfalso. apply (Kl l suf'); auto. rewrite E2, Q2. exists l, [].
            rewrite firstn_app_ge by lia. f_equal. replace (1 + length l - length l) with 1 by lia. reflexivity. }
      intros _. destruct Lf as [(H1 & H2 & pre & q & H3 & H4 & H4')|[(H1 & -> & ->)|(H1 & a0 & q & T' & H2 & H3 & H4 & H5)]].
      * exists pre, q, (firstn lfp T). split; auto. split; auto. split; [|split; [now left|]].
        -- rewrite K2. f_equal.
           rewrite Nat.min_l by lia. rewrite firstn_firstn, Nat.min_l by lia. now rewrite firstn_app_le by lia.
        -- intros P1 pre' suf' u' Q1' Q2' Q3' Q4'. destruct (Mx P1 pre' suf' u' Q1' Q2' Q3' Q4'). rewrite firstn_length. lia.
      * cbn [app] in *. subst rest. lia.
      * exists (firstn (vcap ss - 3) a0), (skipn (vcap ss - 3) a0 ++ q), (firstn (vcap ss - 3) a0).
        split; [|split; [|split; [|split]]].
        -- rewrite app_assoc, firstn_skipn. auto.
        -- constructor. now apply not_occurs_firstn.
        -- rewrite K2. f_equal. rewrite firstn_firstn.
           apply (f_equal (@length _)) in H2. rewrite app_length in H2.
           replace (Nat.min (Nat.min lfp (vcap ss - 3)) lfp) with (vcap ss - 3) by lia.
           rewrite H5, <- app_assoc. apply firstn_app_le. lia.
        -- right. rewrite firstn_length. lia.
        -- intros P1 pre' suf' u' Q1' Q2' Q3' Q4'. destruct (Mx P1 pre' suf' u' Q1' Q2' Q3' Q4').
           apply (f_equal (@length _)) in H2. rewrite app_length in H2. lia.
Qed.
End Escape.

(** ** Statements in the form used by the property files *)
Lemma escape_exact (p r : str) : p <> [] -> length p < length r -> forall (ss : sstr) (t : str) (fuel : nat),
  wf ss -> replaced p r (vcontent ss) t -> vcap ss <= fuel ->
  exists ss', escape_all_or_truncate fuel ss p r = Ok (ss', length t <=? vcap ss) /\ wf ss' /\ vcap ss' = vcap ss /\
    (length t <= vcap ss -> vcontent ss' = t) /\
    (vcap ss < length t -> exists pre suf u, vcontent ss = pre ++ suf /\ replaced p r pre u /\
       vcontent ss' = u ++ dots (Nat.min 3 (vcap ss))).
Proof.
  intros P L ss t fuel W R F. destruct (escape_spec p r P L ss t fuel W R F) as (ss' & E & W' & C & K1 & K2).
  exists ss'. repeat split; auto. intros H. destruct (K2 H) as (pre & suf & u & A & B & D & _). exists pre, suf, u. auto.
Qed.

Lemma escape_longest (c : ascii) (r : str) : 2 <= length r -> forall (ss : sstr) (t : str) (fuel : nat),
  wf ss -> replaced [c] r (vcontent ss) t -> vcap ss <= fuel -> vcap ss < length t ->
  exists ss' pre suf u, escape_all_or_truncate fuel ss [c] r = Ok (ss', false) /\
    vcontent ss = pre ++ suf /\ replaced [c] r pre u /\ vcontent ss' = u ++ dots (Nat.min 3 (vcap ss)) /\
    ((exists x, pre = x ++ [c]) \/ (exists y, suf = c :: y) \/ length pre = vcap ss - 3) /\
    (forall pre' suf' u', vcontent ss = pre' ++ suf' -> (exists x, pre' = x ++ [c]) \/ (exists y, suf' = c :: y) ->
       replaced [c] r pre' u' -> length u' + 3 <= vcap ss -> length u' <= length u).
Proof.
  intros L ss t fuel W R F H.
  destruct (escape_spec [c] r ltac:(discriminate) ltac:(cbn; lia) ss t fuel W R F) as (ss' & E & W' & C & K1 & K2).
  destruct (K2 H) as (pre & suf & u & A & B & D & G & M). exists ss', pre, suf, u.
  destruct (Nat.leb_spec (length t) (vcap ss)); [lia|].
  split; [exact E|]. split; [exact A|]. split; [exact B|]. split; [exact D|]. split.
  - unfold edge in G. cbn [app] in G. tauto.
  - exact (M eq_refl).
Qed.


Lemma replace_all_exact (p r : str) : p <> [] -> forall (ss : sstr) (t : str) (fuel : nat),
  wf ss -> replaced p r (vcontent ss) t -> vcap ss <= fuel ->
  exists ss', replace_all fuel ss p r = Ok (ss', length t <=? vcap ss) /\ wf ss' /\ vcap ss' = vcap ss /\
    (length t <= vcap ss -> vcontent ss' = t).
Proof. intros P ss t fuel W R F. destruct (replace_all_spec p r P ss t fuel W R F) as (ss' & ? & ? & ? & ? & _). eauto 10. Qed.

Lemma replaced_exists_unique (p r s : str) : p <> [] ->
  exists t, replaced p r s t /\ forall t', replaced p r s t' -> t' = t.
Proof. intros P. destruct (replaced_total p r s P) as [t T]. exists t. split; auto.
  intros. eapply replaced_deterministic; eauto. Qed.

Lemma replace_all_overflow (p r : str) : p <> [] -> forall (ss : sstr) (t : str) (fuel : nat),
  wf ss -> replaced p r (vcontent ss) t -> vcap ss <= fuel -> vcap ss < length t ->
  exists ss', replace_all fuel ss p r = Ok (ss', false) /\ wf ss' /\ vcap ss' = vcap ss /\
    length (vcontent ss') = vcap ss /\
    firstn (vcap ss - (length p - 1)) (vcontent ss') = firstn (vcap ss - (length p - 1)) t.
Proof.
  intros P ss t fuel W R F Hl. destruct (replace_all_spec p r P ss t fuel W R F) as (ss' & E & H1 & H2 & _ & H3).
  destruct (Nat.leb_spec (length t) (vcap ss)); [lia|]. destruct (H3 Hl). eauto 10.
Qed.

Lemma replace_all_overflow_char (c : ascii) (r : str) (ss : sstr) (t : str) (fuel : nat) :
  wf ss -> replaced [c] r (vcontent ss) t -> vcap ss <= fuel -> vcap ss < length t ->
  exists ss', replace_all fuel ss [c] r = Ok (ss', false) /\ wf ss' /\ vcap ss' = vcap ss /\
    vcontent ss' = firstn (vcap ss) t.
Proof.
  intros W R F Hl. destruct (replace_all_overflow [c] r ltac:(discriminate) ss t fuel W R F Hl)
    as (ss' & E & H1 & H2 & H3 & H4).
  exists ss'. repeat split; auto. cbn [length] in H4. rewrite Nat.sub_0_r in H4.
  rewrite <- H4. rewrite firstn_all2; auto. lia.
Qed.

Lemma replace_all_terminates (p r : str) (ss : sstr) (fuel : nat) : p <> [] -> wf ss -> vcap ss <= fuel ->
  exists ss' b, replace_all fuel ss p r = Ok (ss', b).
Proof.
  intros P W F. destruct (replaced_total p r (vcontent ss) P) as [t T].
  destruct (replace_all_spec p r P ss t fuel W T F) as (ss' & E & _). eauto.
Qed.

Lemma escape_assert (fuel : nat) (ss : sstr) (p r : str) :
  length r <= length p -> escape_all_or_truncate fuel ss p r = Err Assert.
Proof. intros. unfold escape_all_or_truncate. destruct (Nat.leb_spec (length r) (length p)); auto; lia. Qed.

(** Concrete replacements, computed by [find]. *)
Lemma replaced_step p r s n t : find s p = Some n -> replaced p r (skipn (n + length p) s) t ->
  replaced p r s (firstn n s ++ r ++ t).
Proof.
  intros F R. destruct (find_first _ _ _ F) as (a & b & -> & <- & A).
  rewrite firstn_app_le, firstn_all by lia. constructor; auto.
  rewrite app_assoc, skipn_app_ge in R by (rewrite app_length; lia).
  rewrite app_length, Nat.sub_diag in R. auto.
Qed.
Lemma replaced_stop p r s : find s p = None -> replaced p r s s.
Proof. intros. constructor. now apply find_none_occurs. Qed.

Lemma replaced_example : replaced (lit "X") (lit "yz") (lit "aXbXX") (lit "ayzbyzyz").
Proof.
  apply (replaced_step (lit "X") (lit "yz") (lit "aXbXX") 1 (lit "byzyz")); [reflexivity|].
  apply (replaced_step (lit "X") (lit "yz") (lit "bXX") 1 (lit "yz")); [reflexivity|].
  apply (replaced_step (lit "X") (lit "yz") (lit "X") 0 []); [reflexivity|].
  now apply replaced_stop.
Qed.

Lemma replace_overflow_refuted : exists (ss : sstr) (p r t : str) (ss' : sstr),
    wf ss /\ p <> [] /\ replaced p r (vcontent ss) t /\ vcap ss < length t /\
    replace_all 100 ss p r = Ok (ss', false) /\ vcontent ss' <> firstn (vcap ss) t.
Proof.
  exists (text_in 4 (lit "abab")), (lit "ab"), (lit "xyz"), (lit "xyzxyz"), (text_in 4 (lit "xyza")).
  split; [unfold wf, vcap; simpl; lia|]. split; [discriminate|]. split.
  - apply (replaced_step (lit "ab") (lit "xyz") (lit "abab") 0 (lit "xyz")); [reflexivity|].
    apply (replaced_step (lit "ab") (lit "xyz") (lit "ab") 0 []); [reflexivity|]. now apply replaced_stop.
  - split; [unfold vcap; simpl; lia|]. split; [reflexivity|]. discriminate.
Qed.
