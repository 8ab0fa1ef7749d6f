(** Proofs about tag strings of any form. *)
From Verif.Model Require Import Base Vector StringUtil Filter.
From Verif.Spec Require Import TextSpec FilterSpec TagSpec.
From Verif.Proofs Require Import Lists VectorProofs AppendProofs MatchProofs ReplaceProofs FilterProofs.

(** ** Filters, for a test whose tag string is read as some tags *)

Definition reads (mt : nat) (s : str) (has : list text) : Prop :=
  exists l, for_each_tag mt s = Ok l /\ visible l = has /\ (existsb is_hidden l = true <-> In (quote "[.]") has) /\
    (existsb is_may_fail l = true <-> In (quote "[!mayfail]") has) /\
    (existsb is_should_fail l = true <-> In (quote "[!shouldfail]") has).

Lemma has_hidden_tag_any mt s has : reads mt s has ->
  exists b, has_hidden_tag mt s = Ok b /\ (b = true <-> In (quote "[.]") has).
Proof. intros (l & E & _ & H & _). unfold has_hidden_tag. rewrite E. cbn [bind]. eauto. Qed.

Theorem tag_filter_any mt s tags f : reads mt s tags ->
  exists r, is_filter_match_tags_single mt s f = Ok r /\
    ok_result r (tag_holds_in tags f) (negated f = false).
Proof.
  intros W. unfold is_filter_match_tags_single, tag_holds_in.
  pose proof (fun b => filter_actions_spec f b (fun p => Exists (matches p) tags)) as H.
  destruct (filter_actions f) as [[m n] p]. destruct W as (l & E & V & _).
  rewrite E. cbn [bind]. eexists. split; [reflexivity|]. apply H. rewrite <- V. apply visible_matches_spec.
Qed.

Lemma tags_loop_any mt s tags : reads mt s tags -> forall fuel f l result (Q0 : Prop),
  split_tags f l -> length f < fuel ->
  match result with Some r0 => included r0 = true /\ (implicit r0 = false <-> Q0) | None => ~ Q0 end ->
  exists r, tags_loop fuel mt s f result = Ok r /\
    ok_result r (Forall (tag_holds_in tags) l) (Q0 \/ Exists (fun p => negated p = false) l).
Proof.
  intros W. induction fuel as [|fuel IH]; intros f l result Q0 Sp L R; [lia|].
  cbn [tags_loop]. pose proof (find_first_not_escaped_spec f "]"%char) as F.
  change "]"%char with close_bracket in F.
  destruct (find_first_not_escaped f close_bracket) as [p|] eqn:Efind.
  - destruct F as [U M]. unfold close_bracket in U, M.
    inversion Sp; subst.
    + exfalso. eapply H; eauto.
    + assert (i = p) by (eapply first_unescaped_unique; eauto). subst i.
      assert (Ef : firstn (S p) f = f).
      { apply firstn_all2. assert (K : length (skipn (S p) f) = 0) by now rewrite H1.
        rewrite skipn_length in K. lia. }
      rewrite Ef, H1.
      destruct (tag_filter_any mt s tags f W) as (sub & Es & Os). rewrite Es. cbn [bind].
      eexists. split. { match goal with |- (if ?b then _ else _) = _ => destruct b end; reflexivity. }
      assert (O : ok_result (combine filter_result_and result sub) (True /\ tag_holds_in tags f) (Q0 \/ negated f = false)).
      { apply combine_and_spec; auto. destruct result; tauto. }
      unfold ok_result in *. rewrite Forall_cons_iff, Exists_cons.
      assert (Forall (tag_holds_in tags) [] <-> True) by (split; auto).
      assert (Exists (fun p => negated p = false) [] <-> False) by (split; [intros K; inversion K|tauto]).
      tauto.
    + assert (i = p) by (eapply first_unescaped_unique; eauto). subst i.
      destruct (tag_filter_any mt s tags (firstn (S p) f) W) as (sub & Es & Os). rewrite Es. cbn [bind].
      assert (O : ok_result (combine filter_result_and result sub) (True /\ tag_holds_in tags (firstn (S p) f))
                    (Q0 \/ negated (firstn (S p) f) = false)).
      { apply combine_and_spec; auto. destruct result; tauto. }
      set (r := combine filter_result_and result sub) in *. destruct O as [O1 O2].
      destruct (included r) eqn:Ei; cbn [negb].
      * assert (Ht : tag_holds_in tags (firstn (S p) f)) by tauto.
        destruct (skipn (S p) f) as [|c f'] eqn:Ef; [contradiction|]. rewrite <- Ef in *.
        destruct (IH (skipn (S p) f) l0 (Some r) (Q0 \/ negated (firstn (S p) f) = false)) as (r' & E' & O'); auto.
        { rewrite skipn_length. pose proof (unescaped_at_lt _ _ _ U). lia. }
        exists r'. split; auto.
        unfold ok_result in *. rewrite Forall_cons_iff, Exists_cons. tauto.
      * exists r. split; auto. unfold ok_result. rewrite Ei, Forall_cons_iff. split; [|intuition congruence].
        split; [discriminate|]. intuition congruence.
  - inversion Sp; subst; try (exfalso; eapply F; eauto; fail).
    destruct (tag_filter_any mt s tags f W) as (sub & Es & Os). rewrite Es. cbn [bind].
    eexists. split. { match goal with |- (if ?b then _ else _) = _ => destruct b end; reflexivity. }
    assert (O : ok_result (combine filter_result_and result sub) (True /\ tag_holds_in tags f) (Q0 \/ negated f = false)).
    { apply combine_and_spec; auto. destruct result; tauto. }
    unfold ok_result in *. rewrite Forall_cons_iff, Exists_cons.
    assert (Forall (tag_holds_in tags) [] <-> True) by (split; auto).
    assert (Exists (fun p => negated p = false) [] <-> False) by (split; [intros K; inversion K|tauto]).
    tauto.
Qed.

Theorem tags_filter_any mt s tags f : reads mt s tags ->
  exists r, is_filter_match_tags mt s f = Ok r /\
    (included r = true <-> tags_hold_in tags f) /\
    (included r = true /\ implicit r = false <-> tags_positively_in tags f).
Proof.
  intros W. destruct (split_tags_exists f) as [l Hl].
  destruct (tags_loop_any mt s tags W (S (length f)) f l None False Hl) as (r & E & O1 & O2); auto.
  exists r. split; auto.
  assert (H1 : tags_hold_in tags f <-> Forall (tag_holds_in tags) l).
  { unfold tags_hold_in. split; auto. intros H l' Hl'. now rewrite (split_tags_unique _ _ Hl' _ Hl). }
  unfold tags_positively_in. rewrite H1.
  assert (H2 : (forall l0, split_tags f l0 -> Exists (fun p => negated p = false) l0) <->
               Exists (fun p => negated p = false) l).
  { split; auto. intros H l' Hl'. now rewrite (split_tags_unique _ _ Hl' _ Hl). }
  rewrite H2. tauto.
Qed.

Theorem single_filter_any mt name s tags f : reads mt s tags ->
  exists r, is_filter_match_id_single mt name s f = Ok r /\
    (included r = true <-> single_holds_in name tags f) /\
    (included r = true /\ implicit r = false <-> single_positively_in name tags f).
Proof.
  intros W. unfold is_filter_match_id_single, single_holds_in, single_positively_in. rewrite about_tags_spec.
  destruct (about_tags f).
  - now apply tags_filter_any.
  - eexists. split; [reflexivity|]. destruct (name_filter_spec name f). tauto.
Qed.

Lemma id_loop_any mt name s tags : reads mt s tags -> forall fuel f l result (P0 Q0 : Prop),
  split_commas f l -> length f < fuel ->
  match result with
  | Some r0 => (included r0 = true <-> P0) /\ (included r0 = true /\ implicit r0 = false <-> Q0)
  | None => ~ P0 /\ ~ Q0
  end -> ~ Q0 ->
  exists r, id_loop fuel mt name s f result = Ok r /\
    (included r = true <-> P0 \/ Exists (single_holds_in name tags) l) /\
    (included r = true /\ implicit r = false <-> Q0 \/ Exists (single_positively_in name tags) l).
Proof.
  intros W. induction fuel as [|fuel IH]; intros f l result P0 Q0 Sp L R NQ; [lia|].
  cbn [id_loop]. pose proof (find_first_not_escaped_spec f ","%char) as F.
  change ","%char with comma in F.
  destruct (find_first_not_escaped f comma) as [p|] eqn:Efind.
  - destruct F as [U M]. unfold comma in U, M.
    inversion Sp; subst. { exfalso. eapply H; eauto. }
    assert (i = p) by (eapply first_unescaped_unique; eauto). subst i.
    destruct (single_filter_any mt name s tags (firstn p f) W) as (sub & Es & O1 & O2). rewrite Es. cbn [bind].
    pose proof (combine_or_spec P0 _ Q0 _ result sub R O1 O2) as [C1 C2].
    set (r := combine filter_result_or result sub) in *.
    destruct (included r && negb (implicit r)) eqn:Ei.
    + apply andb_true_iff in Ei as [Ei1 Ei2]. apply negb_true_iff in Ei2.
      exists r. split; auto. rewrite !Exists_cons. split.
      * split; auto. intros _. apply C1 in Ei1. tauto.
      * split; auto. intros _. destruct C2 as [C2 _]. destruct (C2 (conj Ei1 Ei2)); tauto.
    + assert (NQ' : ~ (Q0 \/ single_positively_in name tags (firstn p f))).
      { intros K. apply C2 in K as [K1 K2]. now rewrite K1, K2 in Ei. }
      destruct (IH (skipn (S p) f) l0 (Some r) (P0 \/ single_holds_in name tags (firstn p f))
                  (Q0 \/ single_positively_in name tags (firstn p f))) as (r' & E' & O1' & O2'); auto.
      { rewrite skipn_length. pose proof (unescaped_at_lt _ _ _ U). lia. }
      exists r'. split; auto. rewrite !Exists_cons. tauto.
  - inversion Sp; subst. 2: { exfalso; eapply F; eauto. }
    destruct (single_filter_any mt name s tags f W) as (sub & Es & O1 & O2). rewrite Es. cbn [bind].
    pose proof (combine_or_spec P0 _ Q0 _ result sub R O1 O2) as [C1 C2].
    eexists. split. { match goal with |- (if ?b then _ else _) = _ => destruct b end; reflexivity. }
    rewrite !Exists_cons, !Exists_nil. tauto.
Qed.

Theorem id_filter_any mt name s tags f : reads mt s tags ->
  exists r, is_filter_match_id mt name s f = Ok r /\
    (included r = true <-> filter_holds_in name tags f) /\
    (included r = true /\ implicit r = false <-> filter_positively_in name tags f).
Proof.
  intros W. destruct (split_commas_exists f) as [l Hl].
  destruct (id_loop_any mt name s tags W (S (length f)) f l None False False Hl) as (r & E & O1 & O2); auto.
  exists r. split; auto.
  assert (H1 : filter_holds_in name tags f <-> Exists (single_holds_in name tags) l).
  { unfold filter_holds_in. split; auto. intros H l' Hl'. now rewrite (split_commas_unique _ _ Hl' _ Hl). }
  assert (H2 : filter_positively_in name tags f <-> Exists (single_positively_in name tags) l).
  { unfold filter_positively_in. split; auto. intros H l' Hl'. now rewrite (split_commas_unique _ _ Hl' _ Hl). }
  rewrite H1, H2. tauto.
Qed.

Lemma cli_loop_any mt full s tags : reads mt s tags -> forall filters result (Q0 : Prop),
  match result with Some r0 => included r0 = true /\ (implicit r0 = false <-> Q0) | None => ~ Q0 end ->
  result <> None \/ filters <> [] ->
  exists r, cli_loop mt full s filters result = Ok (Some r) /\
    ok_result r (Forall (filter_holds_in full tags) filters) (Q0 \/ Exists (filter_positively_in full tags) filters).
Proof.
  intros W. induction filters as [|f filters IH]; intros result Q0 R NE; cbn [cli_loop].
  - destruct result as [r|]; [|tauto]. exists r. split; auto. unfold ok_result. rewrite Exists_nil.
    destruct R. split; [|tauto]. split; auto.
  - destruct (id_filter_any mt full s tags f W) as (sub & Es & O1 & O2). rewrite Es. cbn [bind].
    assert (Osub : ok_result sub (filter_holds_in full tags f) (filter_positively_in full tags f)).
    { unfold ok_result. tauto. }
    assert (O : ok_result (combine filter_result_and result sub) (True /\ filter_holds_in full tags f)
                  (Q0 \/ filter_positively_in full tags f)).
    { apply combine_and_spec; auto. destruct result; tauto. }
    set (r := combine filter_result_and result sub) in *. destruct O as [C1 C2].
    destruct (included r) eqn:Ei; cbn [negb].
    + destruct (IH (Some r) (Q0 \/ filter_positively_in full tags f)) as (r' & E' & O').
      { split; auto. tauto. } { left; discriminate. }
      exists r'. split; auto. unfold ok_result in *. rewrite Forall_cons_iff, Exists_cons. tauto.
    + exists r. split; auto. unfold ok_result. rewrite Ei, Forall_cons_iff. split; [|intuition congruence].
      split; [discriminate|intuition congruence].
Qed.

Theorem cli_selects_any mt mn filters id s tags :
  id_tags id = s -> reads mt s tags -> filters <> [] ->
  length (full_name_of (id_name id) (id_type id)) <= mn ->
  exists b, cli_selects mt mn filters id = Ok b /\
    (b = true <-> selected_in (full_name_of (id_name id) (id_type id)) tags filters).
Proof.
  intros Et W NE Ln. unfold cli_selects. rewrite make_full_name_spec. cbn [bind].
  destruct (Nat.leb_spec (length (full_name_of (id_name id) (id_type id))) mn) as [_|]; [|lia].
  set (full := full_name_of (id_name id) (id_type id)) in *. rewrite Et.
  destruct (cli_loop_any mt full s tags W filters None False) as (r & E & O1 & O2); auto.
  rewrite E. cbn [bind]. unfold selected_in. destruct (included r) eqn:Ei.
  - destruct (implicit r) eqn:Em; cbn [negb].
    + destruct (has_hidden_tag_any mt s tags W) as (h & Eh & Hh). rewrite Eh. cbn [bind].
      eexists. split; [reflexivity|].
      assert (P : Forall (filter_holds_in full tags) filters) by tauto.
      destruct h; cbn [negb]; intuition congruence.
    + eexists. split; [reflexivity|]. tauto.
  - eexists. split; [reflexivity|]. split; [discriminate|]. intuition congruence.
Qed.

Theorem default_selects_any mt id s tags :
  id_tags id = s -> reads mt s tags ->
  exists b, default_selects mt id = Ok b /\ (b = true <-> ~ In (quote "[.]") tags).
Proof.
  intros Et W. unfold default_selects. rewrite Et.
  destruct (has_hidden_tag_any mt s tags W) as (h & Eh & Hh). rewrite Eh. cbn [bind].
  eexists. split; [reflexivity|]. destruct h; cbn; intuition congruence.
Qed.


(** ** Cutting a tag string *)

Lemma find_joint a b : ~ occurs (quote "][") (a ++ quote "]") -> Base.find (a ++ quote "][" ++ b) (lit "][") = Some (length a).
Proof.
  intros H. destruct (find_occurs (a ++ quote "][" ++ b) (lit "][") a b eq_refl) as (n & E & LE). rewrite E. f_equal.
  destruct (Nat.eq_dec n (length a)) as [->|NE]; [reflexivity|]. exfalso. apply H.
  destruct (find_some _ _ _ E) as (x & y & X & LX & _). subst n.
  assert (PX : length (x ++ lit "][") <= length (a ++ quote "]")) by (rewrite !app_length; cbn [length lit quote list_ascii_of_string]; lia).
  replace (a ++ quote "][" ++ b) with ((a ++ quote "]") ++ quote "[" ++ b) in X by (rewrite <- !app_assoc; reflexivity).
  symmetry in X. rewrite (app_assoc x) in X. destruct (app_prefix_le (x ++ lit "][") y (a ++ quote "]") (quote "[" ++ b) X PX) as (m & Q & _).
  exists x, m. rewrite Q, <- app_assoc. reflexivity.
Qed.

Lemma find_absent_joint s : ~ occurs (quote "][") s -> Base.find s (lit "][") = None.
Proof. intros H. destruct (Base.find s (lit "][")) as [n|] eqn:E; [|reflexivity]. exfalso. apply H. destruct (find_some _ _ _ E) as (a & b & X & _). exists a, b. exact X. Qed.

Lemma first_joint a : first_at (lit "][") a -> ~ occurs (quote "][") (a ++ quote "]").
Proof.
  intros F (x & y & E). destruct y as [|c y _] using rev_ind.
  - rewrite app_nil_r in E. change (quote "][") with (quote "]" ++ quote "[") in E. rewrite app_assoc in E. apply app_inj_tail in E as [_ E]. discriminate.
  - rewrite !app_assoc in E. apply app_inj_tail in E as [E _]. specialize (F x (y ++ quote "][")).
    assert (a ++ lit "][" = x ++ lit "][" ++ y ++ quote "][") as Q.
    { rewrite E, <- !app_assoc. reflexivity. }
    apply F in Q. destruct y; discriminate.
Qed.

Lemma cut_exists s : exists l, cut s l.
Proof.
  remember (length s) as n. revert s Heqn. induction n as [n IH] using lt_wf_ind. intros s ->.
  destruct (Base.find s (lit "][")) as [i|] eqn:E.
  - destruct (find_first _ _ _ E) as (a & b & -> & _ & F).
    destruct (IH (length (quote "[" ++ b))) with (s := quote "[" ++ b) as [l Hl]; auto.
    { rewrite !app_length. cbn. lia. }
    exists ((a ++ quote "]") :: l). apply cut_more; auto. now apply first_joint.
  - exists [s]. apply cut_last. now apply find_none_occurs.
Qed.

Lemma cut_unique s l : cut s l -> forall l', cut s l' -> l = l'.
Proof.
  induction 1 as [s N|a s l N C IH]; intros l' H'.
  - inversion H' as [|a s' l0 N' C']; subst; [reflexivity|]. destruct N. exists a, s'. reflexivity.
  - inversion H' as [s0 N'|a' s' l0 N' C' E']; subst.
    + destruct N'. exists a, s. reflexivity.
    + assert (L : length a' = length a).
      { pose proof (find_joint a s N) as F1. pose proof (find_joint a' s' N') as F2. assert (Q : Some (length a') = Some (length a)). { etransitivity; [symmetry; exact F2|]. etransitivity; [|exact F1]. f_equal. exact E'. } congruence. }
      apply app_inv_len in E' as [-> E']; auto. injection E' as ->. f_equal. auto.
Qed.

Lemma cut_length s l : cut s l -> length l <= S (length s).
Proof. induction 1; cbn [length]; [lia|]. rewrite !app_length in *. cbn [quote list_ascii_of_string length] in *. lia. Qed.

Lemma raw_tag_loop_cut rest l : cut rest l -> rest <> quote "]" -> forall fuel pre, length l <= S fuel ->
  raw_tag_loop fuel (pre ++ rest) (find_from (pre ++ rest) (lit "][") (length pre)) (length pre) =
  Ok (filter (fun p => negb (stray p)) l).
Proof.
  induction 1 as [s N|a s l N C IH]; intros NB fuel pre L.
  - unfold find_from. destruct (Nat.leb_spec (length pre) (length (pre ++ s))). 2: { rewrite app_length in H; lia. }
    assert (K : skipn (length pre) (pre ++ s) = s) by (rewrite skipn_app_ge, Nat.sub_diag by lia; reflexivity).
    rewrite K, find_absent_joint by auto.
    assert (ST : stray s = false).
    { destruct s as [|c [|]]; try reflexivity; cbn; destruct c as [[] [] [] [] [] [] [] []]; try reflexivity. now destruct NB. }
    cbn [filter]. rewrite ST. destruct fuel; cbn [raw_tag_loop negb]; now rewrite K.
  - set (w := pre ++ a ++ quote "][" ++ s).
    assert (Ew : w = (pre ++ a ++ quote "]") ++ quote "[" ++ s) by (unfold w; now rewrite <- !app_assoc).
    assert (Ef : find_from w (lit "][") (length pre) = Some (length pre + length a)).
    { unfold find_from. destruct (Nat.leb_spec (length pre) (length w)). 2: { unfold w in H. rewrite app_length in H; lia. }
      unfold w. rewrite skipn_app_ge, Nat.sub_diag by lia. cbn [skipn]. now rewrite find_joint. }
    rewrite Ef. destruct fuel. { inversion C; subst; cbn in L; lia. } cbn [raw_tag_loop].
    rewrite csub_ok by lia. cbn [bind].
    replace (length pre + length a + 1) with (length (pre ++ a ++ quote "]")) by (rewrite !app_length; cbn; lia).
    rewrite Ew. rewrite IH; [|discriminate|cbn [length] in L; lia]. cbn [bind].
    replace (length pre + length a - length pre) with (length a) by lia.
    unfold substr. rewrite <- app_assoc, skipn_app_ge, Nat.sub_diag by lia. cbn [skipn].
    rewrite firstn_app_ge by (rewrite app_length; cbn; lia).
    replace (length a + 1 - length (a ++ quote "]")) with 0 by (rewrite app_length; cbn; lia).
    cbn [firstn]. rewrite app_nil_r. cbn [filter].
    destruct a as [|c a]; [reflexivity|]. cbn [length Nat.eqb].
    assert (ST : stray ((c :: a) ++ quote "]") = false).
    { cbn. destruct a; cbn; destruct c as [[] [] [] [] [] [] [] []]; reflexivity. }
    rewrite ST. reflexivity.
Qed.

Lemma raw_tags_any s l : In "["%char s -> In "]"%char s -> cut s l ->
  for_each_raw_tag s = Ok (filter (fun p => negb (stray p)) l).
Proof.
  intros I J C. unfold for_each_raw_tag. 
  destruct (find_char_in s open_bracket I) as [n1 E1]. destruct (find_char_in s close_bracket J) as [n2 E2].
  assert (G : raw_tag_loop (length s) s (find_from s (lit "][") 0) 0 = Ok (filter (fun p => negb (stray p)) l)).
  2: { destruct s; [destruct I|]. now rewrite E1, E2. }
  apply (raw_tag_loop_cut s l C) with (fuel := length s) (pre := []).
  - intros ->. cbn in I. intuition discriminate.
  - now apply cut_length.
Qed.

(** ** Reading one piece *)

Lemma seqb_sym x y : seqb x y = seqb y x.
Proof.
  destruct (seqb x y) eqn:E1; symmetry. apply seqb_eq; apply seqb_eq in E1; auto.
  apply seqb_neq; apply seqb_neq in E1; auto.
Qed.

Lemma parse_tag_rest mt p pre t1 local : 
  (do (a, b, c) <- Ok (pre, t1, local) ;; Ok (a ++ (if seqb b (lit "[!mayfail]") then [MayFail] else [])
          ++ (if seqb b (lit "[!shouldfail]") then [ShouldFail] else []) ++ [Visible b c])) = parse_tag mt p ->
  Forall (fun t => is_may_fail t = false /\ is_should_fail t = false) pre ->
  exists l, parse_tag mt p = Ok l /\ visible l = visible pre ++ [t1] /\
    marks l = (existsb is_hidden pre, seqb (quote "[!mayfail]") t1, seqb (quote "[!shouldfail]") t1).
Proof.
  intros <- F. cbn [bind]. eexists. split; [reflexivity|].
  assert (P : existsb is_may_fail pre = false /\ existsb is_should_fail pre = false).
  { induction F as [|x pre [A B] F [IH1 IH2]]; cbn; [tauto|]. now rewrite A, B, IH1, IH2. }
  destruct P as [P1 P2]. unfold marks. rewrite !existsb_app, !visible_app, P1, P2, !(seqb_sym (quote _)).
  change (quote "[!mayfail]") with (lit "[!mayfail]"). change (quote "[!shouldfail]") with (lit "[!shouldfail]").
  split.
  - destruct (seqb t1 _), (seqb t1 (lit "[!shouldfail]")); reflexivity.
  - destruct (seqb t1 (lit "[!mayfail]")), (seqb t1 (lit "[!shouldfail]")); cbn; rewrite ?orb_false_r; reflexivity.
Qed.

Lemma parse_tag_any mt p :
  (too_long mt p /\ parse_tag mt p = Err Assert) \/
  (~ too_long mt p /\ exists l, parse_tag mt p = Ok l /\ visible l = tags_in p /\
    marks l = (inb (quote "[.]") (tags_in p), inb (quote "[!mayfail]") (tags_in p), inb (quote "[!shouldfail]") (tags_in p))).
Proof.
  destruct (seqb p (lit "[.]")) eqn:Edot.
  { right. split.
    - apply seqb_eq in Edot. subst p. intros (r & E & N & _). apply N. injection E as <-. reflexivity.
    - destruct (parse_tag_rest mt p [Hidden] p false) as (l & E & V & M).
      + unfold parse_tag. rewrite Edot. reflexivity.
      + repeat constructor.
      + exists l. split; [exact E|]. apply seqb_eq in Edot. subst p. split; [exact V|exact M]. }
  assert (NE : p <> lit "[.]") by now apply seqb_neq.
  destruct (starts_with p (lit "[.")) eqn:Est.
  - assert (exists r, p = lit "[." ++ r) as [r Er].
    { destruct p as [|c [|d r]]; try discriminate.
      - cbn [starts_with lit list_ascii_of_string] in Est. rewrite andb_false_r in Est. discriminate.
      - cbn [starts_with lit list_ascii_of_string] in Est. apply andb_true_iff in Est as [E1 E2]. apply andb_true_iff in E2 as [E2 _]. apply aeqb_eq in E1, E2. subst. exists r. reflexivity. }
    assert (Nr : r <> quote "]") by (intros ->; apply NE; rewrite Er; reflexivity).
    assert (Et : tags_in p = [quote "[.]"; quote "[" ++ r]).
    { rewrite Er. cbn [tags_in lit list_ascii_of_string app]. destruct r as [|c [|]]; try reflexivity; destruct c as [[] [] [] [] [] [] [] []]; try reflexivity. now destruct Nr. }
    destruct (append_all_content [lit "["; skipn 2 p] (new_string mt) (wf_new mt)) as (b & E & _ & _ & C).
    rewrite vcontent_new, vcap_new in E, C.
    assert (Ec : [] ++ List.concat [lit "["; skipn 2 p] = lit "[" ++ r).
    { rewrite Er. cbn. now rewrite app_nil_r. }
    rewrite Ec in E, C.
    destruct (Nat.leb_spec (length (lit "[" ++ r)) mt) as [LE|GT].
    + right. split. { intros (r' & E' & _ & L'). rewrite Er in E'. apply app_inv_head in E'. subst r'. cbn in LE. lia. }
      destruct (parse_tag_rest mt p [Hidden; Visible (lit "[.]") false] (lit "[" ++ r) true) as (l & El & V & M).
      { unfold parse_tag. rewrite Edot, Est, E. cbn [bind]. rewrite C, firstn_all2 by auto. reflexivity. }
      { repeat constructor. }
      exists l. split; [exact El|]. rewrite Et. split; [exact V|]. rewrite M. unfold inb. cbn [existsb].
      change (seqb (quote "[!mayfail]") (quote "[.]")) with false. change (seqb (quote "[!shouldfail]") (quote "[.]")) with false.
      rewrite !orb_false_r. reflexivity.
    + left. split. { exists r. repeat split; auto. }
      unfold parse_tag. rewrite Edot, Est, E. reflexivity.
  - assert (Et : tags_in p = [p]).
    { destruct p as [|c [|d r]]; try reflexivity.
      - destruct c as [[] [] [] [] [] [] [] []]; reflexivity.
      - unfold tags_in. cbn [starts_with lit list_ascii_of_string] in Est. destruct (aeqb "[" c) eqn:E1.
        + cbn [andb] in Est. rewrite andb_true_r in Est. apply aeqb_eq in E1. subst c.
          destruct d as [[] [] [] [] [] [] [] []]; try reflexivity; discriminate.
        + destruct c as [[] [] [] [] [] [] [] []]; try reflexivity; discriminate. }
    right. split.
    { intros (r & -> & _). cbn in Est. discriminate. }
    destruct (parse_tag_rest mt p [] p false) as (l & El & V & M).
    { unfold parse_tag. rewrite Edot, Est. reflexivity. } { constructor. }
    exists l. split; [exact El|]. rewrite Et. split; [exact V|]. rewrite M. unfold inb. cbn [existsb].
    rewrite !orb_false_r, (seqb_sym (quote "[.]")). change (quote "[.]") with (lit "[.]"). rewrite Edot. reflexivity.
Qed.

Lemma parse_tags_any mt l :
  (Exists (too_long mt) l -> concat_res (parse_tag mt) l = Err Assert) /\
  (Forall (fun p => ~ too_long mt p) l ->
   exists r, concat_res (parse_tag mt) l = Ok r /\ visible r = flat_map tags_in l /\
     marks r = (inb (quote "[.]") (flat_map tags_in l), inb (quote "[!mayfail]") (flat_map tags_in l),
                inb (quote "[!shouldfail]") (flat_map tags_in l))).
Proof.
  induction l as [|p l [IH1 IH2]].
  - split; [intros H; inversion H|]. intros _. exists []. repeat split.
  - cbn [concat_res flat_map]. destruct (parse_tag_any mt p) as [[T E]|[T (r & E & V & M)]]; rewrite E; cbn [bind].
    + split; [reflexivity|]. intros F. inversion F. contradiction.
    + split.
      * intros H. inversion H; subst; [contradiction|]. rewrite IH1 by auto. reflexivity.
      * intros F. inversion F; subst. destruct IH2 as (r2 & E2 & V2 & M2); auto. rewrite E2. cbn [bind].
        eexists. split; [reflexivity|]. rewrite visible_app, V, V2. split; auto.
        unfold marks in *. rewrite !existsb_app, !inb_app. congruence.
Qed.

Lemma stray_too_long mt l : Exists (too_long mt) l <-> Exists (too_long mt) (filter (fun p => negb (stray p)) l).
Proof.
  rewrite !Exists_exists. split; intros (p & I & T); exists p; split; auto.
  - apply filter_In. split; auto. destruct T as (r & -> & _). reflexivity.
  - apply filter_In in I. tauto.
Qed.

Theorem read_as_reads mt s has : read_as mt s has -> reads mt s has.
Proof.
  intros [[-> ->]|(I & J & pieces & C & F & ->)].
  - exists []. cbn. intuition discriminate.
  - assert (F' : Forall (fun p => ~ too_long mt p) (filter (fun p => negb (stray p)) pieces)).
    { rewrite Forall_forall in *. intros p Hp. apply filter_In in Hp. apply F. tauto. }
    destruct (parse_tags_any mt (filter (fun p => negb (stray p)) pieces)) as [_ G].
    destruct (G F') as (l & E & V & M). exists l. unfold for_each_tag. rewrite (raw_tags_any s pieces I J C). cbn [bind].
    split; auto. split; auto. unfold marks in M. injection M as M1 M2 M3. rewrite M1, M2, M3, !inb_spec. tauto.
Qed.

Theorem unreadable_assert mt s : unreadable mt s -> for_each_tag mt s = Err Assert.
Proof.
  intros [NE H]. destruct (in_dec ascii_dec "["%char s) as [I|I]; [|apply tags_rejected; tauto].
  destruct (in_dec ascii_dec "]"%char s) as [J|J]; [|apply tags_rejected; tauto].
  destruct H as [H|[H|(pieces & C & T)]]; try contradiction.
  unfold for_each_tag. rewrite (raw_tags_any s pieces I J C). cbn [bind]. apply (proj1 (parse_tags_any mt _)). apply (proj1 (stray_too_long mt pieces)). exact T.
Qed.

Lemma too_long_dec mt p : {too_long mt p} + {~ too_long mt p}.
Proof.
  destruct p as [|c [|d r]].
  - right. intros (r & E & _). discriminate.
  - right. intros (r & E & _). discriminate.
  - destruct (ascii_dec c "["%char) as [->|N]; [|right; intros (r' & E & _); injection E as E1 E2 E3; contradiction].
    destruct (ascii_dec d "."%char) as [->|N]; [|right; intros (r' & E & _); injection E as E1 E2; contradiction].
    destruct (list_eq_dec ascii_dec r (quote "]")) as [->|N]; [right; intros (r' & E & NE & _); injection E as <-; now apply NE|].
    destruct (lt_dec mt (S (length r))) as [L|L].
    + left. exists r. auto.
    + right. intros (r' & E & _ & L'). injection E as <-. contradiction.
Qed.

(** Every string has exactly one reading, or is refused. *)
Theorem one_reading mt s :
  ((exists has, read_as mt s has) \/ unreadable mt s) /\
  (forall has has', read_as mt s has -> read_as mt s has' -> has = has') /\
  (forall has, read_as mt s has -> ~ unreadable mt s).
Proof.
  split; [|split].
  - destruct s as [|c s]. { left. exists []. now left. }
    destruct (in_dec ascii_dec "["%char (c :: s)) as [I|I]; [|right; split; [discriminate|tauto]].
    destruct (in_dec ascii_dec "]"%char (c :: s)) as [J|J]; [|right; split; [discriminate|tauto]].
    destruct (cut_exists (c :: s)) as [l C]. destruct (Exists_dec (too_long mt) l (too_long_dec mt)) as [T|T].
    + right. split; [discriminate|]. right. right. eauto.
    + left. eexists. right. split; auto. split; auto. exists l. split; auto. split; [|reflexivity].
      now apply Forall_Exists_neg.
  - intros has has' [[-> ->]|(I & J & l & C & F & ->)] [[E ->]|(I' & J' & l' & C' & F' & ->)]; auto.
    + destruct I'.
    + subst. destruct I.
    + now rewrite (cut_unique _ _ C _ C').
  - intros has R U. apply read_as_reads in R as (l & E & _). apply unreadable_assert in U. congruence.
Qed.

Lemma well_formed_reading mt tags : well_formed mt tags -> read_as mt (tag_string tags) (tags_of tags).
Proof.
  intros W. destruct (for_each_tag_spec mt tags W) as (l & E & V & _).
  destruct (one_reading mt (tag_string tags)) as [[[has R]|U] _].
  - pose proof (read_as_reads _ _ _ R) as (l' & E' & V' & _). assert (l' = l) by congruence. subst l'.
    rewrite <- V, V'. exact R.
  - apply unreadable_assert in U. congruence.
Qed.

Theorem reading_used mt s has : read_as mt s has ->
  exists may should, fail_flags mt s = Ok (may, should) /\
    (may = true <-> In (quote "[!mayfail]") has) /\ (should = true <-> In (quote "[!shouldfail]") has).
Proof.
  intros R. destruct (read_as_reads _ _ _ R) as (l & E & _ & _ & M & S1). unfold fail_flags. rewrite E. cbn [bind]. eauto.
Qed.

Theorem tags_read mt s :
  (unreadable mt s -> for_each_tag mt s = Err Assert) /\
  (forall has, read_as mt s has -> exists l, for_each_tag mt s = Ok l /\
    flat_map (fun t => match t with Visible s _ => [s] | _ => [] end) l = has /\
    (existsb is_hidden l = true <-> In (quote "[.]") has) /\
    (existsb is_may_fail l = true <-> In (quote "[!mayfail]") has) /\
    (existsb is_should_fail l = true <-> In (quote "[!shouldfail]") has)).
Proof. split; [apply unreadable_assert|]. intros has R. exact (read_as_reads _ _ _ R). Qed.

Theorem selection_any mt mn filters id has : read_as mt (id_tags id) has ->
  (length (full_name_of (id_name id) (id_type id)) <= mn -> filters <> [] ->
   exists b, cli_selects mt mn filters id = Ok b /\ (b = true <-> selected_in (full_name_of (id_name id) (id_type id)) has filters)) /\
  (exists b, default_selects mt id = Ok b /\ (b = true <-> ~ In (quote "[.]") has)) /\
  (forall f, exists r, is_filter_match_tags mt (id_tags id) f = Ok r /\ (included r = true <-> tags_hold_in has f)).
Proof.
  intros R. apply read_as_reads in R. split; [|split].
  - intros L NE. eapply cli_selects_any; eauto.
  - eapply default_selects_any; eauto.
  - intros f. destruct (tags_filter_any mt (id_tags id) has f R) as (r & E & O & _). eauto.
Qed.

Theorem refused_everywhere mt id : unreadable mt (id_tags id) ->
  default_selects mt id = Err Assert /\ fail_flags mt (id_tags id) = Err Assert /\
  (forall f, is_filter_match_tags mt (id_tags id) f = Err Assert).
Proof.
  intros U. apply unreadable_assert in U. unfold default_selects, has_hidden_tag, fail_flags. rewrite U. cbn [bind].
  split; [reflexivity|]. split; [reflexivity|]. intros f. unfold is_filter_match_tags. cbn [tags_loop].
  unfold is_filter_match_tags_single. destruct (filter_actions _) as [[m n] p]. rewrite U. reflexivity.
Qed.

Lemma mistyped : exists s l, for_each_tag 20 s = Ok l /\ ~ exists tags, Forall no_brackets tags /\ s = tag_string tags.
Proof.
  exists (lit "[a] [b]"), [Visible (lit "[a] [b]") false]. split; [vm_compute; reflexivity|].
  intros (tags & F & E). destruct tags as [|t tags]; [discriminate|]. inversion F as [|? ? [N1 N2] F']; subst.
  unfold tag_string in E. cbn [map List.concat] in E. unfold bracketed in E at 1.
  destruct t as [|c t]; [discriminate|]. injection E as Ec E. rewrite <- app_assoc in E.
  destruct t as [|d t]; [|injection E as Ed _; subst; apply N2; right; now left].
  destruct tags as [|u tags]; [discriminate|]. injection E as E _. discriminate.
Qed.

Lemma no_joint_one_tag mt s : ~ occurs (quote "][") s -> In "["%char s -> In "]"%char s -> ~ too_long mt s -> read_as mt s (tags_in s).
Proof.
  intros N I J T. right. split; auto. split; auto. exists [s]. split; [now apply cut_last|]. split; [auto|].
  assert (ST : stray s = false).
  { destruct s as [|c [|]]; try reflexivity; cbn; destruct c as [[] [] [] [] [] [] [] []]; try reflexivity. destruct I as [I|[]]; discriminate. }
  cbn [filter]. rewrite ST. cbn. now rewrite app_nil_r.
Qed.
