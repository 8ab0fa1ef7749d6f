(** General lemmas on lists and on the primitives of Model/Base.v. *)
From Verif.Model Require Import Base.

Lemma firstn_app_le {A} n (a b : list A) : n <= length a -> firstn n (a ++ b) = firstn n a.
Proof. intros. rewrite firstn_app. replace (n - length a) with 0 by lia. simpl. now rewrite app_nil_r. Qed.

Lemma firstn_app_ge {A} n (a b : list A) :
  length a <= n -> firstn n (a ++ b) = a ++ firstn (n - length a) b.
Proof. intros. rewrite firstn_app, firstn_all2; auto. Qed.

Lemma skipn_app_le {A} n (a b : list A) : n <= length a -> skipn n (a ++ b) = skipn n a ++ b.
Proof. intros. rewrite skipn_app. replace (n - length a) with 0 by lia. reflexivity. Qed.

Lemma skipn_app_ge {A} n (a b : list A) :
  length a <= n -> skipn n (a ++ b) = skipn (n - length a) b.
Proof. intros. rewrite skipn_app, skipn_all2; auto. Qed.

Lemma skipn_skipn' {A} n m (l : list A) : skipn n (skipn m l) = skipn (m + n) l.
Proof. revert l; induction m; intros l; simpl; auto. destruct l; auto. now rewrite skipn_nil. Qed.

Lemma firstn_skipn_comm' {A} n m (l : list A) : skipn n (firstn m l) = firstn (m - n) (skipn n l).
Proof. revert m l; induction n; intros m l; simpl. now rewrite Nat.sub_0_r.
  destruct l; destruct m; simpl; auto. now rewrite firstn_nil. Qed.

Lemma app_inv_len {A} (a b c d : list A) : a ++ b = c ++ d -> length a = length c -> a = c /\ b = d.
Proof.
  revert c; induction a; destruct c; simpl; intros; try discriminate; auto.
  injection H as -> H. destruct (IHa _ H) as [-> ->]; auto.
Qed.

(** If [a ++ b = c ++ d] and [a] is not longer than [c], then [c] extends [a]. *)
Lemma app_prefix_le {A} (a b c d : list A) :
  a ++ b = c ++ d -> length a <= length c -> exists m, c = a ++ m /\ b = m ++ d.
Proof.
  revert c; induction a; simpl; intros.
  - exists c; auto.
  - destruct c; simpl in *; [lia|]. injection H as -> H.
    destruct (IHa _ H) as [m [-> ->]]; [lia|]. exists m; auto.
Qed.

Lemma firstn_inv {A} n (l a : list A) : firstn n l = a -> exists m, l = a ++ m /\
  (m = [] \/ length a = n).
Proof.
  intros. exists (skipn n l). split. now rewrite <- H, firstn_skipn.
  destruct (le_lt_dec (length l) n); [left; now apply skipn_all2 | right].
  subst. rewrite firstn_length. lia.
Qed.

(** Lists are equal when all elements are. *)
Lemma nth_error_ext {A} (a b : list A) : (forall i, nth_error a i = nth_error b i) -> a = b.
Proof.
  revert b; induction a; destruct b; intros; auto.
  - specialize (H 0); discriminate.
  - specialize (H 0); discriminate.
  - f_equal. specialize (H 0); simpl in H; congruence.
    apply IHa. intros i. exact (H (S i)).
Qed.

Lemma nth_error_firstn {A} n (l : list A) i : i < n -> nth_error (firstn n l) i = nth_error l i.
Proof. revert n i; induction l; intros n i H; destruct n; try lia; simpl; auto.
  destruct i; simpl; auto. apply IHl; lia. Qed.

Lemma nth_error_firstn_none {A} n (l : list A) i : n <= i -> nth_error (firstn n l) i = None.
Proof. intros. apply nth_error_None. rewrite firstn_length. lia. Qed.

Lemma nth_error_skipn {A} n (l : list A) i : nth_error (skipn n l) i = nth_error l (n + i).
Proof. revert l; induction n; intros l; simpl; auto. destruct l; auto. now destruct i. Qed.

(** ** Strings *)

Lemma aeqb_eq a b : aeqb a b = true <-> a = b.
Proof. apply Ascii.eqb_eq. Qed.
Lemma aeqb_refl a : aeqb a a = true.
Proof. apply Ascii.eqb_refl. Qed.
Lemma aeqb_neq a b : aeqb a b = false <-> a <> b.
Proof. apply Ascii.eqb_neq. Qed.

Lemma seqb_eq a b : seqb a b = true <-> a = b.
Proof.
  revert b; induction a; destruct b; simpl; split; intros; try discriminate; auto.
  - apply andb_true_iff in H as [H1 H2]. apply aeqb_eq in H1. apply IHa in H2. congruence.
  - injection H as -> ->. rewrite aeqb_refl. simpl. now apply IHa.
Qed.

Lemma seqb_neq a b : seqb a b = false <-> a <> b.
Proof. rewrite <- (seqb_eq a b). destruct (seqb a b); split; congruence. Qed.

Lemma starts_with_spec s p : starts_with s p = true <-> exists b, s = p ++ b.
Proof.
  revert s; induction p; simpl; intros.
  - split; auto. intros _. now exists s.
  - destruct s.
    + split; [discriminate | intros [b H]; discriminate].
    + rewrite andb_true_iff, aeqb_eq, IHp. split.
      * intros [-> [b ->]]. now exists b.
      * intros [b H]. injection H as -> ->. eauto.
Qed.

Lemma find_some s p n : find s p = Some n ->
  exists a b, s = a ++ p ++ b /\ length a = n /\
    forall a' b', s = a' ++ p ++ b' -> n <= length a'.
Proof.
  revert n; induction s; intros n H; simpl in H.
  - destruct (starts_with [] p) eqn:E; try discriminate. injection H as <-.
    apply starts_with_spec in E as [b E]. exists [], b. repeat split; auto. intros; lia.
  - destruct (starts_with (a :: s) p) eqn:E.
    + injection H as <-. apply starts_with_spec in E as [b E]. exists [], b. repeat split; auto. intros; lia.
    + destruct (find s p) eqn:F; try discriminate. injection H as <-.
      destruct (IHs _ eq_refl) as (a0 & b & H1 & H2 & H3). subst.
      exists (a :: a0), b. repeat split; auto.
      intros. destruct a'.
      * exfalso. simpl in H. assert (starts_with (a :: a0 ++ p ++ b) p = true) by (apply starts_with_spec; eauto).
        congruence.
      * simpl in H. injection H as -> H. apply H3 in H. simpl. lia.
Qed.

Lemma find_none s p : find s p = None -> forall a b, s <> a ++ p ++ b.
Proof.
  induction s; simpl; intros H a0 b E.
  - destruct (starts_with [] p) eqn:F; try discriminate.
    destruct a0; try discriminate. simpl in E.
    assert (starts_with [] p = true) by (apply starts_with_spec; eauto). congruence.
  - destruct (starts_with (a :: s) p) eqn:F; try discriminate.
    destruct (find s p) eqn:G; try discriminate.
    destruct a0; simpl in E.
    + assert (starts_with (a :: s) p = true) by (apply starts_with_spec; eauto). congruence.
    + injection E as -> E. eapply IHs; eauto.
Qed.

Lemma find_occurs s p a b : s = a ++ p ++ b -> exists n, find s p = Some n /\ n <= length a.
Proof.
  intros. destruct (find s p) eqn:F.
  - exists n. split; auto. destruct (find_some _ _ _ F) as (? & ? & ? & ? & H1). eauto.
  - exfalso. eapply find_none; eauto.
Qed.

(** ** Memory blocks *)

Lemma memwrite_ok {A} (b : list A) pos d b' : memwrite b pos d = Ok b' ->
  pos + length d <= length b /\ b' = firstn pos b ++ d ++ skipn (pos + length d) b.
Proof. unfold memwrite. destruct (Nat.leb_spec (pos + length d) (length b)); intros; try discriminate.
  injection H0 as <-. auto. Qed.

Lemma memwrite_length {A} (b : list A) pos d b' : memwrite b pos d = Ok b' -> length b' = length b.
Proof. intros H. apply memwrite_ok in H as [H ->]. rewrite !app_length, firstn_length, skipn_length. lia. Qed.

Lemma memwrite_total {A} (b : list A) pos d : pos + length d <= length b ->
  memwrite b pos d = Ok (firstn pos b ++ d ++ skipn (pos + length d) b).
Proof. intros. unfold memwrite. destruct (Nat.leb_spec (pos + length d) (length b)); auto; lia. Qed.

Lemma csub_ok a b : b <= a -> csub a b = Ok (a - b).
Proof. unfold csub. intros. destruct (Nat.leb_spec b a); auto; lia. Qed.
