From Verif.Model Require Import Base Vector StringUtil.
From Verif.Spec Require Import TextSpec.
From Verif.Proofs Require Import Lists.

(** ** find_first_not_escaped *)

Lemma starts_at_after_escape s i : starts_at s i -> nth_error s i = Some bslash -> ~ starts_at s (S i).
Proof.
  revert s; induction i as [i IH] using lt_wf_ind; intros s H N H'. inversion H'; subst.
  - rewrite N in H2. congruence.
  - apply (IH i0 ltac:(lia) s H1 H2). exact H.
Qed.

Lemma skipn_cons_nth {A} (s : list A) i x l : skipn i s = x :: l -> nth_error s i = Some x /\ skipn (S i) s = l.
Proof.
  intros H. split.
  - pose proof (nth_error_skipn i s 0) as E. rewrite H, Nat.add_0_r in E. now simpl in E.
  - replace (S i) with (i + 1) by lia. now rewrite <- skipn_skipn', H.
Qed.

Lemma ffne_spec s0 c : forall s i, s = skipn i s0 -> starts_at s0 i ->
  match ffne s c i with
  | Some j => unescaped_at s0 c j /\ forall k, i <= k < j -> ~ unescaped_at s0 c k
  | None => forall k, i <= k -> ~ unescaped_at s0 c k
  end.
Proof.
  intros s. remember (length s) as n. revert s Heqn.
  induction n as [n IH] using lt_wf_ind. intros s -> i E S. destruct s as [|x s1]; simpl.
  - intros k K (_ & N & _). assert (nth_error s0 k <> None) by congruence. apply nth_error_Some in H.
    assert (length (skipn i s0) = 0) by now rewrite <- E. rewrite skipn_length in H0. lia.
  - symmetry in E. destruct (skipn_cons_nth _ _ _ _ E) as [N1 E1].
    destruct (aeqb x backslash) eqn:X.
    + apply aeqb_eq in X. subst x. fold bslash in *. destruct s1 as [|y s2].
      * intros k K (Sk & N & C). assert (K2 : nth_error s0 k <> None) by congruence. apply nth_error_Some in K2.
        assert (length (skipn (Datatypes.S i) s0) = 0) by now rewrite E1. rewrite skipn_length in H.
        assert (k = i) by lia. subst. rewrite N1 in N. injection N as N. apply C. auto.
      * destruct (skipn_cons_nth _ _ _ _ E1) as [N2 E2].
        assert (B : forall k, i <= k -> k < Datatypes.S (Datatypes.S i) -> ~ unescaped_at s0 c k).
        { intros k K1 K2 (Sk & N & C). assert (k = i \/ k = Datatypes.S i) as [->| ->] by lia.
          - rewrite N1 in N. injection N as N. apply C. auto.
          - exact (starts_at_after_escape s0 i S N1 Sk). }
        specialize (IH (length s2) ltac:(simpl; lia) s2 eq_refl (Datatypes.S (Datatypes.S i)) (eq_sym E2)).
        specialize (IH ltac:(eapply sa_pair; eauto)).
        destruct (ffne s2 c (Datatypes.S (Datatypes.S i))).
        -- destruct IH as [U M]. split; auto. intros k K. destruct (le_lt_dec (Datatypes.S (Datatypes.S i)) k).
           apply M; lia. apply B; lia.
        -- intros k K. destruct (le_lt_dec (Datatypes.S (Datatypes.S i)) k). apply IH; lia. apply B; lia.
    + apply aeqb_neq in X. destruct (aeqb x c) eqn:X2.
      * apply aeqb_eq in X2. subst x. split. repeat split; auto. intros; lia.
      * apply aeqb_neq in X2.
        assert (B : ~ unescaped_at s0 c i). { intros (_ & N & _). congruence. }
        specialize (IH (length s1) ltac:(simpl; lia) s1 eq_refl (Datatypes.S i) (eq_sym E1)).
        specialize (IH ltac:(eapply sa_char; eauto)).
        destruct (ffne s1 c (Datatypes.S i)).
        -- destruct IH as [U M]. split; auto. intros k K. destruct (Nat.eq_dec k i). now subst. apply M; lia.
        -- intros k K. destruct (Nat.eq_dec k i). now subst. apply IH; lia.
Qed.

Theorem find_first_not_escaped_spec s c :
  match find_first_not_escaped s c with
  | Some j => unescaped_at s c j /\ forall k, k < j -> ~ unescaped_at s c k
  | None => forall k, ~ unescaped_at s c k
  end.
Proof.
  pose proof (ffne_spec s c s 0 eq_refl (sa_0 s)) as H. unfold find_first_not_escaped.
  destruct (ffne s c 0).
  - destruct H. split; auto. intros. apply H0. lia.
  - intros. apply H. lia.
Qed.

(** ** is_match *)

Lemma any_suffix_spec f s : any_suffix f s = true <-> exists s1 s2, s = s1 ++ s2 /\ s2 <> [] /\ f s2 = true.
Proof.
  induction s; simpl.
  - split; [discriminate|]. intros (s1 & s2 & E & N & _). symmetry in E. apply app_eq_nil in E as [_ E]. congruence.
  - destruct (f (a :: s)) eqn:F.
    + split; auto. intros _. exists [], (a :: s). repeat split; auto. discriminate.
    + rewrite IHs. split; intros (s1 & s2 & E & N & F2).
      * exists (a :: s1), s2. subst. auto.
      * destruct s1; simpl in E.
        -- subst s2. congruence.
        -- injection E as -> ->. eauto.
Qed.

Lemma glob_empty ts : glob ts [] -> forall s, ts <> [] -> glob ts s.
Proof.
  remember [] as e. induction 1; intros s' N; try discriminate; try congruence.
  apply app_eq_nil in Heqe as [-> ->]. destruct ts.
  - rewrite <- (app_nil_r s'). now constructor.
  - apply (glob_any _ [] s'). apply IHglob; auto. discriminate.
Qed.

Lemma glob_any_inv ts s : glob (Any :: ts) s -> exists s1 s2, s = s1 ++ s2 /\ glob ts s2.
Proof. intros G. inversion G; subst. eauto. Qed.

Lemma glob_any_nil ts : glob (Any :: ts) [] -> glob ts [].
Proof. intros G. apply glob_any_inv in G as (s1 & s2 & E & G). symmetry in E. apply app_eq_nil in E as [-> ->]. auto. Qed.

Lemma only_stars_spec re : re <> [] ->
  (only_stars re = true <-> exists ts, tokens re = Some ts /\ glob ts []).
Proof.
  intros _. induction re; simpl.
  - split; auto. intros _. exists []. split; auto. constructor.
  - split.
    + intros H. apply andb_true_iff in H as [H1 H2]. apply aeqb_eq in H1. subst a. cbn.
      apply IHre in H2 as (ts & -> & G). exists (Any :: ts). split; auto. apply (glob_any ts [] []). auto.
    + intros (ts & T & G). destruct (Ascii.eqb a bslash) eqn:A1.
      * destruct re; try discriminate. destruct (tokens re); try discriminate.
        injection T as <-. inversion G.
      * destruct (tokens re) eqn:T2; try discriminate. injection T as <-.
        change (aeqb a star) with (Ascii.eqb a "*"%char).
        destruct (Ascii.eqb a "*"%char).
        -- simpl. apply IHre. exists l. split; auto. now apply glob_any_nil.
        -- inversion G.
Qed.

Lemma match_loop_spec re s : match_loop re s = true <-> exists ts, tokens re = Some ts /\ glob ts s.
Proof.
  remember (length re) as n. revert re Heqn s. induction n as [n IH] using lt_wf_ind. intros re -> s.
  destruct re as [|x re1]; cbn [match_loop tokens].
  - destruct s; split; intros; auto; try discriminate.
    + exists []. split; auto. constructor.
    + destruct H as (ts & E & G). injection E as <-. inversion G.
  - change (aeqb x backslash) with (Ascii.eqb x bslash). destruct (Ascii.eqb x bslash) eqn:X.
    + destruct re1 as [|y re2].
      * split; [discriminate|]. intros (ts & E & _). discriminate.
      * destruct s as [|c s1].
        -- split; [discriminate|]. intros (ts & E & G). destruct (tokens re2); try discriminate.
           injection E as <-. inversion G.
        -- destruct (aeqb y c) eqn:Y.
           ++ apply aeqb_eq in Y. subst y. rewrite (IH (length re2)) by (simpl; auto; lia).
              split; intros (ts & E & G).
              ** exists (Lit c :: ts). rewrite E. split; auto. now constructor.
              ** destruct (tokens re2); try discriminate. injection E as <-. exists l. split; auto. now inversion G.
           ++ apply aeqb_neq in Y. split; [discriminate|]. intros (ts & E & G).
              destruct (tokens re2); try discriminate. injection E as <-. inversion G. congruence.
    + change (aeqb x star) with (Ascii.eqb x "*"%char). destruct (Ascii.eqb x "*"%char) eqn:X2.
      * destruct re1 as [|y re2].
        -- cbn. split; auto. intros _. exists [Any]. split; auto. rewrite <- (app_nil_r s).
           constructor. constructor.
        -- set (re1 := y :: re2) in *. assert (N1 : re1 <> []) by discriminate.
           destruct s as [|c s1].
           ++ rewrite (only_stars_spec re1 N1). split; intros (ts & E & G).
              ** exists (Any :: ts). rewrite E. split; auto. apply (glob_any ts [] []). auto.
              ** destruct (tokens re1); try discriminate. injection E as <-. exists l. split; auto. now apply glob_any_nil.
           ++ set (s := c :: s1) in *. rewrite any_suffix_spec. split.
              ** intros (a & b & E & N & M). apply (IH (length re1)) in M; auto.
                 destruct M as (ts & T & G). exists (Any :: ts). rewrite T, E. split; auto. now constructor.
              ** intros (ts & T & G). destruct (tokens re1) as [l|] eqn:T1; try discriminate. injection T as <-.
                 apply glob_any_inv in G as (s0 & s2 & Q & G). destruct s2 as [|d s2].
                 --- exists [], s. repeat split; auto. discriminate.
                     apply (IH (length re1)); auto. exists l. split; auto. apply glob_empty; auto.
                     intros ->. unfold re1 in T1. cbn [tokens] in T1. destruct (Ascii.eqb y bslash).
                     destruct re2; try discriminate. destruct (tokens re2); discriminate.
                     destruct (tokens re2); discriminate.
                 --- exists s0, (d :: s2). repeat split; auto. discriminate.
                     apply (IH (length re1)); auto. exists l. split; auto.
      * destruct s as [|c s1].
        -- split; [discriminate|]. intros (ts & E & G). destruct (tokens re1); try discriminate.
           injection E as <-. inversion G.
        -- destruct (aeqb x c) eqn:Y.
           ++ apply aeqb_eq in Y. subst x. rewrite (IH (length re1)) by (simpl; auto; lia).
              split; intros (ts & E & G).
              ** exists (Lit c :: ts). rewrite E. split; auto. now constructor.
              ** destruct (tokens re1); try discriminate. injection E as <-. exists l. split; auto. now inversion G.
           ++ apply aeqb_neq in Y. split; [discriminate|]. intros (ts & E & G).
              destruct (tokens re1); try discriminate. injection E as <-. inversion G. congruence.
Qed.

Theorem is_match_spec s re : is_match s re = true <-> re = [] \/ exists ts, tokens re = Some ts /\ glob ts s.
Proof.
  unfold is_match. destruct re.
  - split; auto.
  - rewrite match_loop_spec. split; auto. intros [H|H]; auto. discriminate.
Qed.
