(** Filters combined: negation, several arguments, commas (C100). *)
From Verif.Spec Require Import TextSpec FilterSpec ShardSpec.
From Verif.Model Require Import Base Vector StringUtil Print Filter Run.
From Verif.Proofs Require Import Lists FilterProofs.
From Coq Require Import Lia.
Local Open Scope list_scope.

(** ** Negation *)
Lemma starts_at_shift f i : starts_at ("~"%char :: f) (S i) <-> starts_at f i.
Proof.
  split.
  - remember (S i) as n eqn:E. intros H. revert i E. induction H as [|k c H IH N C|k c H IH N N']; intros i E; [discriminate| |].
    + injection E as ->. destruct i as [|i]; [constructor|]. econstructor; [now apply IH|exact N|exact C].
    + injection E as <-. destruct k as [|k]; [discriminate N|]. eapply sa_pair; [now apply IH|exact N|exact N'].
  - induction 1 as [|k c H IH N C|k c H IH N N'].
    + eapply sa_char; [constructor|reflexivity|discriminate].
    + eapply sa_char; [exact IH|exact N|exact C].
    + eapply sa_pair; [exact IH|exact N|exact N'].
Qed.

Lemma unescaped_shift f c i : c <> "~"%char -> unescaped_at ("~"%char :: f) c i -> exists k, i = S k /\ unescaped_at f c k.
Proof.
  intros C (S & N & B). destruct i as [|k]; [injection N as <-; contradiction|]. exists k. split; [reflexivity|].
  split; [now apply starts_at_shift|]. split; [exact N|exact B].
Qed.

Lemma single_comma f : split_commas f [f] -> forall i, ~ unescaped_at f ","%char i.
Proof.
  intros H. inversion H as [? N|? i l U M L E1 E2]; subst; [exact N|]. inversion L.
Qed.

Lemma negated_comma f : split_commas f [f] -> split_commas ("~"%char :: f) ["~"%char :: f].
Proof.
  intros H. constructor. intros i U. destruct (unescaped_shift f ","%char i ltac:(discriminate) U) as (k & _ & V). exact (single_comma f H k V).
Qed.

Lemma negated_tags f : split_tags f [f] -> split_tags ("~"%char :: f) ["~"%char :: f].
Proof.
  intros H. inversion H as [? N|? i U M L|? i l U M L T E1 E2]; subst; [| |inversion T].
  - constructor. intros i U. destruct (unescaped_shift f "]"%char i ltac:(discriminate) U) as (k & _ & V). exact (N k V).
  - apply st_end with (i := S i).
    + destruct U as (A & B & C). split; [now apply starts_at_shift|]. split; [exact B|exact C].
    + intros j J V. destruct (unescaped_shift f "]"%char j ltac:(discriminate) V) as (k & -> & W). apply (M k); [lia|exact W].
    + exact L.
Qed.

Lemma about_negated f : negated f = false -> about_tags ("~"%char :: f) = about_tags f.
Proof.
  unfold about_tags, negated. destruct f as [|c f]; [reflexivity|]. cbn. intros ->. destruct (Ascii.eqb c "["); reflexivity.
Qed.

Lemma filter_holds_single name tags f : split_commas f [f] -> (filter_holds name tags f <-> single_holds name tags f).
Proof.
  intros S. unfold filter_holds. split.
  - intros H. specialize (H _ S). inversion H as [? ? X|? ? X]; subst; [exact X|inversion X].
  - intros H l L. rewrite <- (split_commas_unique _ _ S _ L). now constructor.
Qed.
Lemma filter_positively_single name tags f : split_commas f [f] -> (filter_positively name tags f <-> single_positively name tags f).
Proof.
  intros S. unfold filter_positively. split.
  - intros H. specialize (H _ S). inversion H as [? ? X|? ? X]; subst; [exact X|inversion X].
  - intros H l L. rewrite <- (split_commas_unique _ _ S _ L). now constructor.
Qed.
Lemma tags_hold_single tags f : split_tags f [f] -> (tags_hold tags f <-> tag_holds tags f).
Proof.
  intros S. unfold tags_hold. split.
  - intros H. specialize (H _ S). now inversion H.
  - intros H l L. rewrite <- (split_tags_unique _ _ S _ L). auto.
Qed.

Lemma single_negated name tags f : negated f = false -> (about_tags f = true -> split_tags f [f]) ->
  (single_holds name tags ("~"%char :: f) <-> ~ single_holds name tags f).
Proof.
  intros N T. unfold single_holds. rewrite (about_negated f N). destruct (about_tags f).
  - specialize (T eq_refl). rewrite (tags_hold_single tags _ T), (tags_hold_single tags _ (negated_tags f T)).
    unfold tag_holds, FilterSpec.holds at 1. cbn [negated]. rewrite Ascii.eqb_refl. cbn [tl]. unfold FilterSpec.holds. now rewrite N.
  - unfold name_holds, FilterSpec.holds at 1. cbn [negated]. rewrite Ascii.eqb_refl. cbn [tl]. unfold FilterSpec.holds. now rewrite N.
Qed.

Lemma negated_not_positive name tags f : negated f = false -> (about_tags f = true -> split_tags f [f]) ->
  ~ single_positively name tags ("~"%char :: f).
Proof.
  intros N T. unfold single_positively. rewrite (about_negated f N). destruct (about_tags f).
  - intros (_ & H). specialize (H _ (negated_tags f (T eq_refl))). inversion H as [? ? X|? ? X]; subst; [discriminate X|inversion X].
  - intros (_ & H). discriminate H.
Qed.

Theorem complement mt mn f id tags :
  id_tags id = tag_string tags -> well_formed mt tags -> length (full_name_of (id_name id) (id_type id)) <= mn ->
  split_commas f [f] -> negated f = false -> (about_tags f = true -> split_tags f [f]) ->
  exists b b', cli_selects mt mn [f] id = Ok b /\ cli_selects mt mn [quote "~" ++ f] id = Ok b' /\
    (~ hidden tags -> b' = negb b) /\ (hidden tags -> b' = false).
Proof.
  intros E W L S N T.
  destruct (cli_selects_spec mt mn [f] id tags E W ltac:(discriminate) L) as (b & B & I).
  destruct (cli_selects_spec mt mn [quote "~" ++ f] id tags E W ltac:(discriminate) L) as (b' & B' & I').
  change (quote "~" ++ f) with ("~"%char :: f) in *. exists b, b'. split; [exact B|]. split; [exact B'|].
  set (name := full_name_of (id_name id) (id_type id)) in *. unfold selected in I, I'. split.
  - intros NH.
    assert (J : b = true <-> single_holds name tags f).
    { rewrite I, <- (filter_holds_single name tags f S). split; [intros (A & _); now inversion A|]. split; [auto|contradiction]. }
    assert (J' : b' = true <-> ~ single_holds name tags f).
    { rewrite I', <- (single_negated name tags f N T), <- (filter_holds_single name tags _ (negated_comma f S)).
      split; [intros (A & _); now inversion A|]. split; [auto|contradiction]. }
    destruct b, b'; cbn; try reflexivity; exfalso.
    + now apply (proj1 J' eq_refl), J.
    + assert (X : ~ single_holds name tags f) by (intros X; apply J in X; discriminate). apply J' in X. discriminate.
  - intros H. destruct b'; [|reflexivity]. exfalso. destruct (proj1 I' eq_refl) as (_ & P). specialize (P H).
    inversion P as [? ? X|? ? X]; subst; [|inversion X]. apply (filter_positively_single name tags _ (negated_comma f S)) in X.
    exact (negated_not_positive name tags f N T X).
Qed.

(** ** Several arguments *)
Theorem narrow mt mn fs gs id tags :
  id_tags id = tag_string tags -> well_formed mt tags -> length (full_name_of (id_name id) (id_type id)) <= mn ->
  fs <> [] -> gs <> [] -> ~ hidden tags ->
  exists a b, cli_selects mt mn fs id = Ok a /\ cli_selects mt mn gs id = Ok b /\ cli_selects mt mn (fs ++ gs) id = Ok (a && b).
Proof.
  intros E W L F G NH.
  destruct (cli_selects_spec mt mn fs id tags E W F L) as (a & A & I).
  destruct (cli_selects_spec mt mn gs id tags E W G L) as (b & B & J).
  destruct (cli_selects_spec mt mn (fs ++ gs) id tags E W) as (c & C & K); [destruct fs; [contradiction|discriminate]|exact L|].
  exists a, b. split; [exact A|]. split; [exact B|]. rewrite C. f_equal. apply Bool.eq_iff_eq_true. rewrite K, Bool.andb_true_iff, I, J.
  unfold selected. rewrite Forall_app. tauto.
Qed.

Theorem narrow_hidden mt mn fs gs id tags :
  id_tags id = tag_string tags -> well_formed mt tags -> length (full_name_of (id_name id) (id_type id)) <= mn ->
  fs <> [] -> gs <> [] -> hidden tags ->
  exists a b c, cli_selects mt mn fs id = Ok a /\ cli_selects mt mn gs id = Ok b /\ cli_selects mt mn (fs ++ gs) id = Ok c /\
    (a && b = true -> c = true) /\ (c = true -> a || b = true).
Proof.
  intros E W L F G H.
  destruct (cli_selects_spec mt mn fs id tags E W F L) as (a & A & I).
  destruct (cli_selects_spec mt mn gs id tags E W G L) as (b & B & J).
  destruct (cli_selects_spec mt mn (fs ++ gs) id tags E W) as (c & C & K); [destruct fs; [contradiction|discriminate]|exact L|].
  exists a, b, c. split; [exact A|]. split; [exact B|]. split; [exact C|]. rewrite K, Bool.andb_true_iff, Bool.orb_true_iff, I, J.
  unfold selected. rewrite Forall_app, Exists_app. tauto.
Qed.

(** ** Commas *)
Lemma starts_at_app f x i : starts_at f i -> starts_at (f ++ x) i.
Proof.
  induction 1 as [|k c H IH N C|k c H IH N N'].
  - constructor.
  - eapply sa_char; [exact IH| |exact C]. rewrite nth_error_app1; [exact N|]. apply nth_error_Some. congruence.
  - eapply sa_pair; [exact IH| |]; rewrite nth_error_app1; eauto; apply nth_error_Some; congruence.
Qed.
Lemma starts_at_app_inv f x i : starts_at (f ++ x) i -> i <= length f -> starts_at f i.
Proof.
  induction 1 as [|k c H IH N C|k c H IH N N']; intros L.
  - constructor.
  - rewrite nth_error_app1 in N by lia. eapply sa_char; [apply IH; lia|exact N|exact C].
  - rewrite nth_error_app1 in N, N' by lia. eapply sa_pair; [apply IH; lia|exact N|exact N'].
Qed.
Lemma unescaped_app f x c i : unescaped_at f c i -> unescaped_at (f ++ x) c i.
Proof.
  intros U. pose proof (unescaped_at_lt _ _ _ U). destruct U as (A & B & C). split; [now apply starts_at_app|].
  split; [now rewrite nth_error_app1|exact C].
Qed.
Lemma unescaped_app_inv f x c i : unescaped_at (f ++ x) c i -> i < length f -> unescaped_at f c i.
Proof.
  intros (A & B & C) L. split; [eapply starts_at_app_inv; [exact A|lia]|]. split; [now rewrite nth_error_app1 in B|exact C].
Qed.

Lemma tokens_skip f i : starts_at f i -> tokens f <> None -> tokens (skipn i f) <> None.
Proof.
  intros H T. induction H as [|k c H IH N C|k c H IH N N']; [exact T| |].
  - assert (E : skipn k f = c :: skipn (S k) f) by (clear - N; revert f N; induction k; intros [|y f] N; cbn in *; try discriminate; [congruence|auto]).
    rewrite E in IH. cbn [tokens] in IH. destruct (Ascii.eqb_spec c bslash); [contradiction|]. intros X. apply IH. now rewrite X.
  - assert (E : skipn k f = bslash :: c :: skipn (S (S k)) f).
    { clear - N N'. revert f N N'. induction k; intros [|y f] N N'; cbn in N, N'; try discriminate.
      - destruct f as [|z f]; [discriminate|]. cbn in *. congruence.
      - change (skipn k f = bslash :: c :: skipn (S (S k)) f). now apply IHk. }
    rewrite E in IH. cbn [tokens] in IH. change (Ascii.eqb bslash bslash) with true in IH. cbv iota in IH. intros X. apply IH. now rewrite X.
Qed.

Lemma starts_at_end f : tokens f <> None -> starts_at f (length f).
Proof.
  intros T. assert (G : forall n i, length f - i <= n -> i <= length f -> starts_at f i -> starts_at f (length f)).
  { induction n as [|n IH]; intros i D L H; [replace (length f) with i by lia; exact H|].
    destruct (Nat.eq_dec i (length f)) as [<-|NE]; [exact H|].
    pose proof (tokens_skip f i H T) as K. destruct (nth_error f i) as [c|] eqn:N; [|apply nth_error_None in N; lia].
    destruct (Ascii.eqb_spec c bslash) as [->|C].
    - destruct (nth_error f (S i)) as [d|] eqn:N'.
      + apply (IH (S (S i))); [lia| |eapply sa_pair; eauto]. assert (S i < length f) by (apply nth_error_Some; congruence). lia.
      + exfalso. apply K. apply nth_error_None in N'. assert (E : skipn i f = [bslash]); [|now rewrite E].
        clear - N N' NE L. revert f N N' NE L. induction i; intros [|y f] N N' NE L; cbn in *; try discriminate.
        * destruct f; [cbn in *; congruence|cbn in *; lia].
        * apply IHi; auto; lia.
    - apply (IH (S i)); [lia|lia|eapply sa_char; eauto]. }
  apply (G (length f) 0); [lia|lia|constructor].
Qed.

Lemma split_commas_app g lg : split_commas g lg -> forall f lf, split_commas f lf -> tokens f <> None ->
  split_commas (f ++ quote "," ++ g) (lf ++ lg).
Proof.
  intros G f lf F. change (quote "," ++ g) with (","%char :: g). induction F as [s N|s i l U M F IH]; intros T.
  - change ([s] ++ lg) with (s :: lg).
    replace (s :: lg) with (firstn (length s) (s ++ ","%char :: g) :: lg) by (now rewrite firstn_app, Nat.sub_diag, firstn_all, app_nil_r).
    apply sc_more.
    + split; [apply starts_at_app, starts_at_end, T|]. split; [|discriminate]. now rewrite nth_error_app2, Nat.sub_diag.
    + intros j J V. exact (N j (unescaped_app_inv _ _ _ _ V J)).
    + replace (skipn (S (length s)) (s ++ ","%char :: g)) with g; [exact G|]. rewrite skipn_app. rewrite skipn_all2 by lia.
      replace (S (length s) - length s) with 1 by lia. reflexivity.
  - pose proof (unescaped_at_lt _ _ _ U) as L. cbn [app].
    replace (firstn i s) with (firstn i (s ++ ","%char :: g)) by (rewrite firstn_app; replace (i - length s) with 0 by lia; now rewrite app_nil_r).
    apply sc_more; [now apply unescaped_app|intros j J V; apply (M j J); eapply unescaped_app_inv; [exact V|lia]|].
    rewrite skipn_app. replace (S i - length s) with 0 by lia. apply IH. apply tokens_skip; [|exact T].
    destruct U as (A & B & C). eapply sa_char; eauto.
Qed.

Theorem union mt mn f g id tags :
  id_tags id = tag_string tags -> well_formed mt tags -> length (full_name_of (id_name id) (id_type id)) <= mn ->
  tokens f <> None ->
  exists a b, cli_selects mt mn [f] id = Ok a /\ cli_selects mt mn [g] id = Ok b /\ cli_selects mt mn [f ++ quote "," ++ g] id = Ok (a || b).
Proof.
  intros E W L T.
  destruct (cli_selects_spec mt mn [f] id tags E W ltac:(discriminate) L) as (a & A & I).
  destruct (cli_selects_spec mt mn [g] id tags E W ltac:(discriminate) L) as (b & B & J).
  destruct (cli_selects_spec mt mn [f ++ quote "," ++ g] id tags E W ltac:(discriminate) L) as (c & C & K).
  exists a, b. split; [exact A|]. split; [exact B|]. rewrite C. f_equal. apply Bool.eq_iff_eq_true. rewrite K, Bool.orb_true_iff, I, J.
  set (name := full_name_of (id_name id) (id_type id)) in *.
  destruct (split_commas_exists f) as (lf & F). destruct (split_commas_exists g) as (lg & G).
  pose proof (split_commas_app g lg G f lf F T) as FG.
  assert (H1 : filter_holds name tags (f ++ quote "," ++ g) <-> filter_holds name tags f \/ filter_holds name tags g).
  { unfold filter_holds. split.
    - intros H. specialize (H _ FG). apply Exists_app in H as [H|H]; [left|right]; intros l X.
      + now rewrite <- (split_commas_unique _ _ F _ X).
      + now rewrite <- (split_commas_unique _ _ G _ X).
    - intros H l X. rewrite <- (split_commas_unique _ _ FG _ X). apply Exists_app. destruct H as [H|H]; [left|right]; now apply H. }
  assert (H2 : filter_positively name tags (f ++ quote "," ++ g) <-> filter_positively name tags f \/ filter_positively name tags g).
  { unfold filter_positively. split.
    - intros H. specialize (H _ FG). apply Exists_app in H as [H|H]; [left|right]; intros l X.
      + now rewrite <- (split_commas_unique _ _ F _ X).
      + now rewrite <- (split_commas_unique _ _ G _ X).
    - intros H l X. rewrite <- (split_commas_unique _ _ FG _ X). apply Exists_app. destruct H as [H|H]; [left|right]; now apply H. }
  assert (O : forall P : text -> Prop, forall h, Forall P [h] <-> P h) by (intros P h; split; [intros X; now inversion X|auto]).
  assert (O' : forall P : text -> Prop, forall h, Exists P [h] <-> P h).
  { intros P h. split; [intros X; inversion X as [? ? Y|? ? Y]; subst; [exact Y|inversion Y]|auto]. }
  unfold selected. rewrite !O, !O', H1, H2.
  pose proof (filter_positively_holds name tags f). pose proof (filter_positively_holds name tags g).
  pose proof (has_hidden_tag_spec mt tags W) as HH.
  assert (D : hidden tags \/ ~ hidden tags).
  { destruct (default_selects_spec mt (mkid [] (tag_string tags) [] []) tags eq_refl W) as (x & _ & X). destruct x; [right; now apply X|].
    left. destruct (In_dec (list_eq_dec ascii_dec) (quote "[.]") (tags_of tags)) as [Y|Y]; [exact Y|]. apply X in Y. discriminate. }
  tauto.
Qed.

(** ** Statements of the properties *)
Theorem negation mt mn f id tags :
  id_tags id = tag_string tags -> well_formed mt tags -> length (full_name_of (id_name id) (id_type id)) <= mn ->
  in_one_piece f ->
  exists b b', cli_selects mt mn [f] id = Ok b /\ cli_selects mt mn [quote "~" ++ f] id = Ok b' /\
    (~ hidden tags -> b' = negb b) /\ (hidden tags -> b' = false).
Proof. intros E W L (S & N & T). now apply complement. Qed.

Lemma plain_tags mt tags : forallb (fun t => negb (dotted t) && negb (existsb (fun c => Ascii.eqb c "[" || Ascii.eqb c "]") t)) tags = true ->
  well_formed mt tags.
Proof.
  intros H. apply Forall_forall. intros t I. rewrite forallb_forall in H. specialize (H t I). apply andb_prop in H as (D & B).
  apply Bool.negb_true_iff in D, B. split; [|congruence]. split; intros J.
  - rewrite <- Bool.not_true_iff_false in B. apply B. apply existsb_exists. exists "["%char. split; [exact J|reflexivity].
  - rewrite <- Bool.not_true_iff_false in B. apply B. apply existsb_exists. exists "]"%char. split; [exact J|reflexivity].
Qed.

Theorem negation_refuted : exists mt mn f g id id' tags tags',
  id_tags id = tag_string tags /\ well_formed mt tags /\ ~ hidden tags /\
  cli_selects mt mn [f] id = Ok false /\ cli_selects mt mn [quote "~" ++ f] id = Ok false /\
  id_tags id' = tag_string tags' /\ well_formed mt tags' /\ ~ hidden tags' /\
  cli_selects mt mn [g] id' = Ok true /\ cli_selects mt mn [quote "~" ++ g] id' = Ok true.
Proof.
  exists 5, 20, (quote "[a][b]"), (quote "a,b"), (mkid (quote "t") (quote "[a]") [] []), (mkid (quote "b") [] [] []), [quote "a"], [].
  split; [reflexivity|]. split; [now apply plain_tags|]. split; [intros H; vm_compute in H; intuition discriminate|].
  split; [vm_compute; reflexivity|]. split; [vm_compute; reflexivity|].
  split; [reflexivity|]. split; [constructor|]. split; [intros []|]. split; vm_compute; reflexivity.
Qed.

Theorem narrow_refuted : exists mt mn f g id tags,
  id_tags id = tag_string tags /\ well_formed mt tags /\ hidden tags /\
  cli_selects mt mn [f] id = Ok false /\ cli_selects mt mn [f; g] id = Ok true.
Proof.
  exists 5, 20, (quote "~foo"), (quote "bar*"), (mkid (quote "bar1") (quote "[.]") [] []), [quote "."].
  split; [reflexivity|]. split.
  { constructor; [|constructor]. split; [split; intros H; vm_compute in H; intuition discriminate|]. intros _ H. now contradiction H. }
  split; [now left|]. split; vm_compute; reflexivity.
Qed.

Lemma piece_example : in_one_piece (quote "[y]") /\ in_one_piece (quote "a\,*").
Proof.
  split; (split; [apply split_commas_last; vm_compute; reflexivity|]; split; [reflexivity|]).
  - intros _. eapply split_tags_end; vm_compute; reflexivity.
  - discriminate.
Qed.
