(** Proofs about tags and filters. *)
From Verif.Model Require Import Base Vector StringUtil Filter.
From Verif.Spec Require Import TextSpec FilterSpec.
From Verif.Proofs Require Import Lists VectorProofs AppendProofs MatchProofs.
From Coq Require Import Permutation.

(** ** Splitting a tag string *)

Definition starts_bracket (s : str) : bool := match s with c :: _ => aeqb c open_bracket | [] => false end.

Lemma find_delim t rest : no_brackets t ->
  find (t ++ quote "]" ++ rest) (lit "][") =
  if starts_bracket rest then Some (length t)
  else match find rest (lit "][") with Some n => Some (length t + 1 + n) | None => None end.
Proof.
  induction t; intros [N1 N2].
  - cbn [app quote list_ascii_of_string length]. cbn [find]. destruct rest.
    + reflexivity.
    + cbn [starts_with lit list_ascii_of_string starts_bracket].
      change (aeqb "]"%char "]"%char) with true. unfold open_bracket.
      unfold aeqb at 1 2. rewrite (Ascii.eqb_sym a). destruct (Ascii.eqb "["%char a); cbn [andb]; auto.
  - cbn [app]. cbn [find].
    assert (E : starts_with (a :: t ++ quote "]" ++ rest) (lit "][") = false).
    { cbn [starts_with lit list_ascii_of_string]. apply andb_false_iff. left. apply aeqb_neq. intros <-.
      apply N2. now left. }
    rewrite E. change (find (t ++ quote "]" ++ rest) (lit "][")) with (find (t ++ quote "]" ++ rest) (lit "][")).
    rewrite IHt. 2: { split; intros H; [apply N1|apply N2]; now right. }
    destruct (starts_bracket rest); auto. destruct (find rest _); cbn [length]; auto.
Qed.

Lemma find_delim_tags t ts : no_brackets t -> Forall no_brackets ts ->
  find (tag_string (t :: ts)) (lit "][") = match ts with [] => None | _ => Some (S (length t)) end.
Proof.
  intros N F. unfold tag_string. cbn [map List.concat]. unfold bracketed at 1. rewrite <- !app_assoc.
  cbn [quote list_ascii_of_string app find starts_with lit]. change (aeqb "]"%char "["%char) with false.
  cbn [andb]. pose proof (find_delim t (List.concat (map bracketed ts)) N) as E.
  cbn [quote list_ascii_of_string app] in E. change (lit "][") with ["]"%char; "["%char] in E. rewrite E.
  destruct ts; cbn; auto.
Qed.

Lemma tag_string_length_pos t ts : 2 <= length (tag_string (t :: ts)).
Proof. unfold tag_string. cbn. rewrite app_length. cbn. rewrite app_length. cbn. lia. Qed.

Lemma bracketed_length t : length (bracketed t) = length t + 2.
Proof. unfold bracketed. rewrite !app_length. cbn. lia. Qed.

Lemma raw_tag_loop_spec ts : forall fuel pre t, no_brackets t -> Forall no_brackets ts ->
  length ts <= fuel ->
  raw_tag_loop fuel (pre ++ tag_string (t :: ts)) (find_from (pre ++ tag_string (t :: ts)) (lit "][") (length pre))
    (length pre) = Ok (map bracketed (t :: ts)).
Proof.
  induction ts as [|u ts IH]; intros fuel pre t N F L.
  - unfold find_from. destruct (Nat.leb_spec (length pre) (length (pre ++ tag_string [t]))).
    2: { rewrite app_length in H; lia. }
    rewrite skipn_app_ge, Nat.sub_diag by lia. cbn [skipn]. rewrite find_delim_tags by auto.
    assert (K : skipn (length pre) (pre ++ tag_string [t]) = bracketed t).
    { rewrite skipn_app_ge, Nat.sub_diag by lia. cbn. now rewrite app_nil_r. }
    destruct fuel; cbn [raw_tag_loop]; now rewrite K.
  - set (s := pre ++ tag_string (t :: u :: ts)).
    assert (Es : s = (pre ++ bracketed t) ++ tag_string (u :: ts)).
    { unfold s, tag_string. cbn [map List.concat]. now rewrite <- !app_assoc. }
    assert (Ef : find_from s (lit "][") (length pre) = Some (length pre + S (length t))).
    { unfold find_from. destruct (Nat.leb_spec (length pre) (length s)).
      2: { unfold s in H. rewrite app_length in H; lia. }
      unfold s. rewrite skipn_app_ge, Nat.sub_diag by lia. cbn [skipn]. now rewrite find_delim_tags. }
    rewrite Ef. inversion F; subst. destruct fuel; [simpl in L; lia|]. cbn [raw_tag_loop].
    rewrite csub_ok by lia. cbn [bind].
    replace (length pre + S (length t) + 1) with (length (pre ++ bracketed t)).
    2: { rewrite app_length, bracketed_length. lia. }
    rewrite Es. rewrite IH by (auto; simpl in L; lia). cbn [bind].
    replace (length pre + S (length t) - length pre) with (S (length t)) by lia. cbn [Nat.eqb].
    unfold substr. rewrite <- app_assoc, skipn_app_ge, Nat.sub_diag by lia. cbn [skipn].
    rewrite firstn_app_ge by (rewrite bracketed_length; lia).
    replace (S (length t) + 1 - length (bracketed t)) with 0 by (rewrite bracketed_length; lia).
    cbn [firstn]. now rewrite app_nil_r.
Qed.

Lemma find_char_in s c : In c s -> exists n, find_char s c = Some n.
Proof.
  unfold find_char. induction s; simpl; intros H; [tauto|]. destruct (aeqb c a) eqn:E; eauto.
  destruct H as [<-|H]. now rewrite aeqb_refl in E. destruct (IHs H) as [n ->]. eauto.
Qed.

Lemma find_char_not_in s c : ~ In c s -> find_char s c = None.
Proof.
  unfold find_char. induction s; simpl; intros H; auto. destruct (aeqb c a) eqn:E.
  - apply aeqb_eq in E. subst. exfalso; auto.
  - rewrite IHs; auto.
Qed.

Theorem for_each_raw_tag_spec tags : Forall no_brackets tags ->
  for_each_raw_tag (tag_string tags) = Ok (map bracketed tags).
Proof.
  destruct tags as [|t ts]; intros F; [reflexivity|]. inversion F; subst. unfold for_each_raw_tag.
  destruct (find_char_in (tag_string (t :: ts)) open_bracket) as [n1 E1]. { now left. }
  destruct (find_char_in (tag_string (t :: ts)) close_bracket) as [n2 E2].
  { unfold tag_string. cbn [map List.concat]. apply in_or_app. left. unfold bracketed. apply in_or_app. right.
    apply in_or_app. right. now left. }
  destruct (tag_string (t :: ts)) eqn:E. discriminate. rewrite E1, E2, <- E.
  rewrite (raw_tag_loop_spec ts _ [] t); auto.
  clear. unfold tag_string. cbn [map List.concat]. rewrite app_length, bracketed_length.
  induction ts; cbn [map List.concat length]; try lia. rewrite app_length, bracketed_length. lia.
Qed.

(** ** Parsing one tag *)

Definition visible (l : list parsed_tag) : list str :=
  flat_map (fun t => match t with Visible s _ => [s] | _ => [] end) l.

Lemma visible_app a b : visible (a ++ b) = visible a ++ visible b.
Proof. apply flat_map_app. Qed.

Definition marks (l : list parsed_tag) : bool * bool * bool :=
  (existsb is_hidden l, existsb is_may_fail l, existsb is_should_fail l).

Definition inb (s : str) (l : list str) : bool := existsb (seqb s) l.

Lemma inb_spec s l : inb s l = true <-> In s l.
Proof.
  unfold inb. rewrite existsb_exists. split.
  - intros (x & H & E). apply seqb_eq in E. now subst.
  - intros H. exists s. split; auto. now apply seqb_eq.
Qed.

Lemma seqb_bracketed a b : seqb (bracketed a) (bracketed b) = seqb a b.
Proof.
  destruct (seqb a b) eqn:E.
  - apply seqb_eq in E. subst. now apply seqb_eq.
  - apply seqb_neq. apply seqb_neq in E. intros H. apply E. unfold bracketed in H.
    injection H as H. now apply app_inv_tail in H.
Qed.

Lemma parse_tag_spec mt t : no_brackets t ->
  (dotted t = true -> t <> quote "." -> length (bracketed (tl t)) <= mt) ->
  exists l, parse_tag mt (bracketed t) = Ok l /\ visible l = map bracketed (names t) /\
    marks l = (dotted t, inb (quote "!mayfail") (names t), inb (quote "!shouldfail") (names t)).
Proof.
  intros N L. unfold parse_tag.
  change (lit "[.]") with (bracketed (quote ".")). rewrite seqb_bracketed.
  destruct (seqb t (quote ".")) eqn:Edot.
  - apply seqb_eq in Edot. subst. cbn [bind]. eexists. split; [reflexivity|]. split; reflexivity.
  - apply seqb_neq in Edot.
    change (lit "[!mayfail]") with (bracketed (quote "!mayfail")).
    change (lit "[!shouldfail]") with (bracketed (quote "!shouldfail")).
    assert (Est : starts_with (bracketed t) (lit "[.") = dotted t).
    { unfold bracketed. cbn. destruct t; cbn; auto. unfold aeqb. rewrite Ascii.eqb_sym. now rewrite andb_true_r. }
    rewrite Est. destruct (dotted t) eqn:D.
    + destruct t as [|c t]; [discriminate|]. cbn in D. apply Ascii.eqb_eq in D. subst.
      specialize (L eq_refl Edot). cbn [tl] in L.
      destruct (append_all_content [lit "["; skipn 2 (bracketed ("."%char :: t))] (new_string mt) (wf_new mt))
        as (b & E & _ & _ & C).
      rewrite vcontent_new, vcap_new in E, C.
      assert (Ec : [] ++ List.concat [lit "["; skipn 2 (bracketed ("."%char :: t))] = bracketed t).
      { cbn. now rewrite app_nil_r. }
      rewrite Ec in E, C. rewrite E. cbn [bind]. destruct (Nat.leb_spec (length (bracketed t)) mt); [|lia].
      rewrite firstn_all2 in C by auto. rewrite C. cbn [bind]. rewrite !seqb_bracketed.
      eexists. split; [reflexivity|].
      assert (En : names ("."%char :: t) = [quote "."; t]).
      { unfold names. cbn [dotted]. rewrite Ascii.eqb_refl. destruct t; auto. now contradiction Edot. }
      rewrite En. split.
      * destruct (seqb t _), (seqb t (quote "!shouldfail")); reflexivity.
      * unfold marks, inb. cbn [existsb].
        change (seqb (quote "!mayfail") (quote ".")) with false.
        change (seqb (quote "!shouldfail") (quote ".")) with false.
        assert (Sym : forall x y, seqb x y = seqb y x).
        { intros x y. destruct (seqb x y) eqn:E1; symmetry. apply seqb_eq; apply seqb_eq in E1; auto.
          apply seqb_neq; apply seqb_neq in E1; auto. }
        rewrite (Sym (quote "!mayfail")), (Sym (quote "!shouldfail")).
        destruct (seqb t (quote "!mayfail")), (seqb t (quote "!shouldfail")); reflexivity.
    + cbn [bind]. rewrite !seqb_bracketed. eexists. split; [reflexivity|].
      assert (En : names t = [t]). { unfold names. now rewrite D. }
      rewrite En. split.
      * destruct (seqb t _), (seqb t (quote "!shouldfail")); reflexivity.
      * unfold marks, inb. cbn [existsb].
        assert (Sym : forall x y, seqb x y = seqb y x).
        { intros x y. destruct (seqb x y) eqn:E1; symmetry. apply seqb_eq; apply seqb_eq in E1; auto.
          apply seqb_neq; apply seqb_neq in E1; auto. }
        rewrite (Sym (quote "!mayfail")), (Sym (quote "!shouldfail")).
        destruct (seqb t (quote "!mayfail")), (seqb t (quote "!shouldfail")); reflexivity.
Qed.

Lemma inb_app s a b : inb s (a ++ b) = inb s a || inb s b.
Proof. apply existsb_app. Qed.

Lemma parse_tags_spec mt tags : well_formed mt tags ->
  exists l, concat_res (parse_tag mt) (map bracketed tags) = Ok l /\ visible l = tags_of tags /\
    marks l = (existsb dotted tags, inb (quote "!mayfail") (flat_map names tags),
               inb (quote "!shouldfail") (flat_map names tags)).
Proof.
  unfold tags_of. induction 1 as [|t tags [N L] F IH].
  - exists []. repeat split.
  - destruct (parse_tag_spec mt t N L) as (l1 & E1 & V1 & M1). destruct IH as (l2 & E2 & V2 & M2).
    exists (l1 ++ l2). cbn [map concat_res flat_map existsb]. rewrite E1. cbn [bind]. rewrite E2. cbn [bind].
    split; auto. rewrite visible_app, V1, V2, map_app. split; auto.
    unfold marks in *. rewrite !existsb_app, !inb_app. congruence.
Qed.

Lemma existsb_dotted_hidden tags : Forall no_brackets tags -> existsb dotted tags = true <-> hidden tags.
Proof.
  intros F. unfold hidden, tags_of. change (quote "[.]") with (bracketed (quote ".")).
  rewrite existsb_exists, in_map_iff. split.
  - intros (t & I & D). exists (quote "."). split; auto. apply in_flat_map. exists t. split; auto.
    unfold names. rewrite D. destruct t as [|? [|]]; now left.
  - intros (x & Ex & I). assert (x = quote "."). { apply seqb_eq. rewrite <- seqb_bracketed. now apply seqb_eq. }
    subst x. apply in_flat_map in I as (t & I & K). exists t. split; auto. unfold names in K.
    destruct (dotted t) eqn:D; auto. destruct K as [K|[]]. subst t. discriminate D.
Qed.

Lemma inb_bracketed t l : inb (bracketed t) (map bracketed l) = inb t l.
Proof. unfold inb. induction l; cbn [map existsb]; auto. now rewrite seqb_bracketed, IHl. Qed.

Lemma well_formed_no_brackets mt tags : well_formed mt tags -> Forall no_brackets tags.
Proof. unfold well_formed. apply Forall_impl. tauto. Qed.

Theorem for_each_tag_spec mt tags : well_formed mt tags ->
  exists l, for_each_tag mt (tag_string tags) = Ok l /\ visible l = tags_of tags /\
    (existsb is_hidden l = true <-> hidden tags) /\
    (existsb is_may_fail l = true <-> In (quote "[!mayfail]") (tags_of tags)) /\
    (existsb is_should_fail l = true <-> In (quote "[!shouldfail]") (tags_of tags)).
Proof.
  intros W. destruct (parse_tags_spec mt tags W) as (l & E & V & M). exists l.
  unfold for_each_tag. rewrite for_each_raw_tag_spec by (eapply well_formed_no_brackets; eauto). cbn [bind].
  split; auto. split; auto. unfold marks in M. injection M as M1 M2 M3. rewrite M1, M2, M3.
  rewrite existsb_dotted_hidden by (eapply well_formed_no_brackets; eauto).
  rewrite <- !inb_spec. unfold tags_of.
  change (quote "[!mayfail]") with (bracketed (quote "!mayfail")).
  change (quote "[!shouldfail]") with (bracketed (quote "!shouldfail")). rewrite !inb_bracketed. tauto.
Qed.

Lemma has_hidden_tag_spec mt tags : well_formed mt tags ->
  exists b, has_hidden_tag mt (tag_string tags) = Ok b /\ (b = true <-> hidden tags).
Proof.
  intros W. destruct (for_each_tag_spec mt tags W) as (l & E & _ & H & _). unfold has_hidden_tag.
  rewrite E. cbn [bind]. eauto.
Qed.

Theorem tags_rejected mt s : s <> [] -> (~ In "["%char s \/ ~ In "]"%char s) -> for_each_tag mt s = Err Assert.
Proof.
  intros NE H. unfold for_each_tag, for_each_raw_tag. destruct s; [tauto|].
  destruct H as [H|H].
  - unfold open_bracket. now rewrite (find_char_not_in _ _ H).
  - unfold close_bracket. rewrite (find_char_not_in _ _ H). destruct (find_char _ open_bracket); auto.
Qed.

(** ** Filters *)

Lemma is_match_matches s re : is_match s re = true <-> matches re s.
Proof. apply is_match_spec. Qed.

Definition ok_result (r : filter_result) (P : Prop) (positive : Prop) : Prop :=
  (included r = true <-> P) /\ (P -> (implicit r = false <-> positive)).

Lemma filter_actions_spec f (b : bool) (S : text -> Prop) :
  let '(m, n, p) := filter_actions f in
  (b = true <-> S p) -> ok_result (if b then m else n) (holds f S) (negated f = false).
Proof.
  unfold filter_actions, ok_result, holds, negated. destruct f as [|c f].
  - intros H. destruct b; cbn; intuition congruence.
  - unfold tilde, aeqb. destruct (Ascii.eqb c "~"%char); cbn [tl]; intros H; destruct b; cbn; intuition congruence.
Qed.

Theorem name_filter_spec name f :
  ok_result (is_filter_match_name name f) (name_holds name f) (negated f = false).
Proof.
  unfold is_filter_match_name, name_holds.
  pose proof (fun b => filter_actions_spec f b (fun p => matches p name)) as H.
  destruct (filter_actions f) as [[m n] p]. apply H. apply is_match_matches.
Qed.

Lemma visible_matches_spec p l : existsb (visible_matches p) l = true <-> Exists (matches p) (visible l).
Proof.
  induction l as [|t l IH]; simpl.
  - split; [discriminate|intros H; inversion H].
  - rewrite orb_true_iff, IH, Exists_app. apply or_iff_compat_r. destruct t; cbn [visible_matches].
    + rewrite is_match_matches, Exists_cons. split; auto. intros [H|H]; auto. inversion H.
    + split; [discriminate|intros H; inversion H].
    + split; [discriminate|intros H; inversion H].
    + split; [discriminate|intros H; inversion H].
Qed.

Theorem tag_filter_spec mt tags f : well_formed mt tags ->
  exists r, is_filter_match_tags_single mt (tag_string tags) f = Ok r /\
    ok_result r (tag_holds tags f) (negated f = false).
Proof.
  intros W. unfold is_filter_match_tags_single, tag_holds.
  pose proof (fun b => filter_actions_spec f b (fun p => Exists (matches p) (tags_of tags))) as H.
  destruct (filter_actions f) as [[m n] p]. destruct (for_each_tag_spec mt tags W) as (l & E & V & _).
  rewrite E. cbn [bind]. eexists. split; [reflexivity|]. apply H. rewrite <- V. apply visible_matches_spec.
Qed.

(** Existence and uniqueness of the splittings. *)
Lemma first_unescaped_unique s c i j :
  unescaped_at s c i -> (forall k, k < i -> ~ unescaped_at s c k) ->
  unescaped_at s c j -> (forall k, k < j -> ~ unescaped_at s c k) -> i = j.
Proof.
  intros Hi Mi Hj Mj. destruct (Nat.lt_total i j) as [L|[L|L]]; auto; exfalso; [eapply Mj|eapply Mi]; eauto.
Qed.

Theorem split_commas_unique s l : split_commas s l -> forall l', split_commas s l' -> l = l'.
Proof.
  induction 1; intros l' H'; inversion H'; subst; auto; try (exfalso; eapply H; eauto; fail).
  - exfalso. eapply H2; eauto.
  - assert (i = i0) by (eapply first_unescaped_unique; eauto). subst. f_equal. auto.
Qed.

Theorem split_tags_unique s l : split_tags s l -> forall l', split_tags s l' -> l = l'.
Proof.
  induction 1; intros l' H'; inversion H'; subst; auto; try (exfalso; eapply H; eauto; fail).
  - assert (i = i0) by (eapply first_unescaped_unique; eauto). subst. contradiction.
  - exfalso. eapply H3; eauto.
  - assert (i = i0) by (eapply first_unescaped_unique; eauto). subst. contradiction.
  - assert (i = i0) by (eapply first_unescaped_unique; eauto). subst. f_equal. auto.
Qed.

Lemma unescaped_at_lt s c i : unescaped_at s c i -> i < length s.
Proof. intros (_ & H & _). apply nth_error_Some. congruence. Qed.

Theorem split_commas_exists s : exists l, split_commas s l.
Proof.
  remember (length s) as n. revert s Heqn. induction n as [n IH] using lt_wf_ind. intros s ->.
  pose proof (find_first_not_escaped_spec s ","%char) as F. destruct (find_first_not_escaped s ","%char) as [i|].
  - destruct F as [U M]. pose proof (unescaped_at_lt _ _ _ U).
    destruct (IH (length (skipn (S i) s))) with (s := skipn (S i) s) as [l Hl]; auto.
    { rewrite skipn_length. lia. } exists (firstn i s :: l). now constructor.
  - exists [s]. now constructor.
Qed.

Theorem split_tags_exists s : exists l, split_tags s l.
Proof.
  remember (length s) as n. revert s Heqn. induction n as [n IH] using lt_wf_ind. intros s ->.
  pose proof (find_first_not_escaped_spec s "]"%char) as F. destruct (find_first_not_escaped s "]"%char) as [i|].
  - destruct F as [U M]. pose proof (unescaped_at_lt _ _ _ U). destruct (skipn (S i) s) as [|c0 f0] eqn:E.
    + exists [s]. eapply st_end; eauto.
    + destruct (IH (length (skipn (S i) s))) with (s := skipn (S i) s) as [l Hl]; auto.
      { rewrite skipn_length. lia. } exists (firstn (S i) s :: l). eapply st_more; eauto. congruence.
  - exists [s]. now constructor.
Qed.

Lemma combine_and_spec (P0 P Q0 Q : Prop) result r :
  match result with Some r0 => included r0 = true /\ P0 /\ (implicit r0 = false <-> Q0) | None => P0 /\ ~ Q0 end ->
  ok_result r P Q -> ok_result (combine filter_result_and result r) (P0 /\ P) (Q0 \/ Q).
Proof.
  intros H [H1 H2]. unfold ok_result, combine. destruct result as [[i0 m0]|].
  - destruct H as (E & HP & HQ). cbn in E. subst i0. destruct r as [i m]. cbn in *.
    destruct i, m, m0; cbn in *; intuition congruence.
  - split; tauto.
Qed.

Lemma tags_loop_spec mt tags : well_formed mt tags -> forall fuel f l result (Q0 : Prop),
  split_tags f l -> length f < fuel ->
  match result with Some r0 => included r0 = true /\ (implicit r0 = false <-> Q0) | None => ~ Q0 end ->
  exists r, tags_loop fuel mt (tag_string tags) f result = Ok r /\
    ok_result r (Forall (tag_holds tags) l) (Q0 \/ Exists (fun p => negated p = false) l).
Proof.
  intros W. induction fuel as [|fuel IH]; intros f l result Q0 Sp L R; [lia|].
  cbn [tags_loop]. pose proof (find_first_not_escaped_spec f "]"%char) as F.
  change "]"%char with close_bracket in F.
  destruct (find_first_not_escaped f close_bracket) as [p|] eqn:Efind.
  - destruct F as [U M]. unfold close_bracket in U, M.
    inversion Sp; subst.
    + exfalso. eapply H; eauto.
    + assert (i = p) by (eapply first_unescaped_unique; eauto). subst i.
      assert (Ef : firstn (S p) f = f).
      { apply firstn_all2. assert (K : length (skipn (S p) f) = 0) by now rewrite H1.
        rewrite skipn_length in K. lia. }
      rewrite Ef, H1.
      destruct (tag_filter_spec mt tags f W) as (sub & Es & Os). rewrite Es. cbn [bind].
      eexists. split. { match goal with |- (if ?b then _ else _) = _ => destruct b end; reflexivity. }
      assert (O : ok_result (combine filter_result_and result sub) (True /\ tag_holds tags f) (Q0 \/ negated f = false)).
      { apply combine_and_spec; auto. destruct result; tauto. }
      unfold ok_result in *. rewrite Forall_cons_iff, Exists_cons.
      assert (Forall (tag_holds tags) [] <-> True) by (split; auto).
      assert (Exists (fun p => negated p = false) [] <-> False) by (split; [intros K; inversion K|tauto]).
      tauto.
    + assert (i = p) by (eapply first_unescaped_unique; eauto). subst i.
      destruct (tag_filter_spec mt tags (firstn (S p) f) W) as (sub & Es & Os). rewrite Es. cbn [bind].
      assert (O : ok_result (combine filter_result_and result sub) (True /\ tag_holds tags (firstn (S p) f))
                    (Q0 \/ negated (firstn (S p) f) = false)).
      { apply combine_and_spec; auto. destruct result; tauto. }
      set (r := combine filter_result_and result sub) in *. destruct O as [O1 O2].
      destruct (included r) eqn:Ei; cbn [negb].
      * assert (Ht : tag_holds tags (firstn (S p) f)) by tauto.
        destruct (skipn (S p) f) as [|c f'] eqn:Ef; [contradiction|]. rewrite <- Ef in *.
        destruct (IH (skipn (S p) f) l0 (Some r) (Q0 \/ negated (firstn (S p) f) = false)) as (r' & E' & O'); auto.
        { rewrite skipn_length. pose proof (unescaped_at_lt _ _ _ U). lia. }
        exists r'. split; auto.
        unfold ok_result in *. rewrite Forall_cons_iff, Exists_cons. tauto.
      * exists r. split; auto. unfold ok_result. rewrite Ei, Forall_cons_iff. split; [|intuition congruence].
        split; [discriminate|]. intuition congruence.
  - inversion Sp; subst; try (exfalso; eapply F; eauto; fail).
    destruct (tag_filter_spec mt tags f W) as (sub & Es & Os). rewrite Es. cbn [bind].
    eexists. split. { match goal with |- (if ?b then _ else _) = _ => destruct b end; reflexivity. }
    assert (O : ok_result (combine filter_result_and result sub) (True /\ tag_holds tags f) (Q0 \/ negated f = false)).
    { apply combine_and_spec; auto. destruct result; tauto. }
    unfold ok_result in *. rewrite Forall_cons_iff, Exists_cons.
    assert (Forall (tag_holds tags) [] <-> True) by (split; auto).
    assert (Exists (fun p => negated p = false) [] <-> False) by (split; [intros K; inversion K|tauto]).
    tauto.
Qed.

Theorem tags_filter_spec mt tags f : well_formed mt tags ->
  exists r, is_filter_match_tags mt (tag_string tags) f = Ok r /\
    (included r = true <-> tags_hold tags f) /\
    (included r = true /\ implicit r = false <-> tags_positively tags f).
Proof.
  intros W. destruct (split_tags_exists f) as [l Hl].
  destruct (tags_loop_spec mt tags W (S (length f)) f l None False Hl) as (r & E & O1 & O2); auto.
  exists r. split; auto.
  assert (H1 : tags_hold tags f <-> Forall (tag_holds tags) l).
  { unfold tags_hold. split; auto. intros H l' Hl'. now rewrite (split_tags_unique _ _ Hl' _ Hl). }
  unfold tags_positively. rewrite H1.
  assert (H2 : (forall l0, split_tags f l0 -> Exists (fun p => negated p = false) l0) <->
               Exists (fun p => negated p = false) l).
  { split; auto. intros H l' Hl'. now rewrite (split_tags_unique _ _ Hl' _ Hl). }
  rewrite H2. tauto.
Qed.

Lemma about_tags_spec f : starts_with f (lit "[") || starts_with f (lit "~[") = about_tags f.
Proof.
  destruct f as [|c f]; [reflexivity|].
  cbn [starts_with lit list_ascii_of_string about_tags]. unfold aeqb.
  rewrite (Ascii.eqb_sym "["%char c), (Ascii.eqb_sym "~"%char c), andb_true_r. f_equal. f_equal.
  destruct f; auto. now rewrite (Ascii.eqb_sym "["%char), andb_true_r.
Qed.

Theorem single_filter_spec mt name tags f : well_formed mt tags ->
  exists r, is_filter_match_id_single mt name (tag_string tags) f = Ok r /\
    (included r = true <-> single_holds name tags f) /\
    (included r = true /\ implicit r = false <-> single_positively name tags f).
Proof.
  intros W. unfold is_filter_match_id_single, single_holds, single_positively. rewrite about_tags_spec.
  destruct (about_tags f).
  - now apply tags_filter_spec.
  - eexists. split; [reflexivity|]. destruct (name_filter_spec name f). tauto.
Qed.

Lemma combine_or_spec (P0 P Q0 Q : Prop) result r :
  match result with
  | Some r0 => (included r0 = true <-> P0) /\ (included r0 = true /\ implicit r0 = false <-> Q0)
  | None => ~ P0 /\ ~ Q0
  end ->
  (included r = true <-> P) -> (included r = true /\ implicit r = false <-> Q) ->
  (included (combine filter_result_or result r) = true <-> P0 \/ P) /\
  (included (combine filter_result_or result r) = true /\ implicit (combine filter_result_or result r) = false <-> Q0 \/ Q).
Proof.
  intros H H1 H2. unfold combine. destruct result as [[i0 m0]|].
  - destruct H as (E & HQ). destruct r as [i m]. cbn in *.
    destruct i, m, m0, i0; cbn in *; intuition congruence.
  - tauto.
Qed.

Lemma single_positively_holds name tags f : single_positively name tags f -> single_holds name tags f.
Proof. unfold single_positively, single_holds, tags_positively. destruct (about_tags f); tauto. Qed.

Lemma id_loop_spec mt name tags : well_formed mt tags -> forall fuel f l result (P0 Q0 : Prop),
  split_commas f l -> length f < fuel ->
  match result with
  | Some r0 => (included r0 = true <-> P0) /\ (included r0 = true /\ implicit r0 = false <-> Q0)
  | None => ~ P0 /\ ~ Q0
  end -> ~ Q0 ->
  exists r, id_loop fuel mt name (tag_string tags) f result = Ok r /\
    (included r = true <-> P0 \/ Exists (single_holds name tags) l) /\
    (included r = true /\ implicit r = false <-> Q0 \/ Exists (single_positively name tags) l).
Proof.
  intros W. induction fuel as [|fuel IH]; intros f l result P0 Q0 Sp L R NQ; [lia|].
  cbn [id_loop]. pose proof (find_first_not_escaped_spec f ","%char) as F.
  change ","%char with comma in F.
  destruct (find_first_not_escaped f comma) as [p|] eqn:Efind.
  - destruct F as [U M]. unfold comma in U, M.
    inversion Sp; subst. { exfalso. eapply H; eauto. }
    assert (i = p) by (eapply first_unescaped_unique; eauto). subst i.
    destruct (single_filter_spec mt name tags (firstn p f) W) as (sub & Es & O1 & O2). rewrite Es. cbn [bind].
    pose proof (combine_or_spec P0 _ Q0 _ result sub R O1 O2) as [C1 C2].
    set (r := combine filter_result_or result sub) in *.
    destruct (included r && negb (implicit r)) eqn:Ei.
    + apply andb_true_iff in Ei as [Ei1 Ei2]. apply negb_true_iff in Ei2.
      exists r. split; auto. rewrite !Exists_cons. split.
      * split; auto. intros _. apply C1 in Ei1. tauto.
      * split; auto. intros _. destruct C2 as [C2 _]. destruct (C2 (conj Ei1 Ei2)); tauto.
    + assert (NQ' : ~ (Q0 \/ single_positively name tags (firstn p f))).
      { intros K. apply C2 in K as [K1 K2]. now rewrite K1, K2 in Ei. }
      destruct (IH (skipn (S p) f) l0 (Some r) (P0 \/ single_holds name tags (firstn p f))
                  (Q0 \/ single_positively name tags (firstn p f))) as (r' & E' & O1' & O2'); auto.
      { rewrite skipn_length. pose proof (unescaped_at_lt _ _ _ U). lia. }
      exists r'. split; auto. rewrite !Exists_cons. tauto.
  - inversion Sp; subst. 2: { exfalso; eapply F; eauto. }
    destruct (single_filter_spec mt name tags f W) as (sub & Es & O1 & O2). rewrite Es. cbn [bind].
    pose proof (combine_or_spec P0 _ Q0 _ result sub R O1 O2) as [C1 C2].
    eexists. split. { match goal with |- (if ?b then _ else _) = _ => destruct b end; reflexivity. }
    rewrite !Exists_cons, !Exists_nil. tauto.
Qed.

Theorem id_filter_spec mt name tags f : well_formed mt tags ->
  exists r, is_filter_match_id mt name (tag_string tags) f = Ok r /\
    (included r = true <-> filter_holds name tags f) /\
    (included r = true /\ implicit r = false <-> filter_positively name tags f).
Proof.
  intros W. destruct (split_commas_exists f) as [l Hl].
  destruct (id_loop_spec mt name tags W (S (length f)) f l None False False Hl) as (r & E & O1 & O2); auto.
  exists r. split; auto.
  assert (H1 : filter_holds name tags f <-> Exists (single_holds name tags) l).
  { unfold filter_holds. split; auto. intros H l' Hl'. now rewrite (split_commas_unique _ _ Hl' _ Hl). }
  assert (H2 : filter_positively name tags f <-> Exists (single_positively name tags) l).
  { unfold filter_positively. split; auto. intros H l' Hl'. now rewrite (split_commas_unique _ _ Hl' _ Hl). }
  rewrite H1, H2. tauto.
Qed.

Lemma filter_positively_holds name tags f : filter_positively name tags f -> filter_holds name tags f.
Proof.
  unfold filter_positively, filter_holds. intros H l Hl. specialize (H l Hl).
  eapply Exists_impl; [|exact H]. apply single_positively_holds.
Qed.

(** Evaluation order: permuting the comma-separated filters does not change inclusion. *)
Theorem comma_order_irrelevant mt name tags f1 f2 l1 l2 r1 r2 : well_formed mt tags ->
  split_commas f1 l1 -> split_commas f2 l2 -> Permutation l1 l2 ->
  is_filter_match_id mt name (tag_string tags) f1 = Ok r1 ->
  is_filter_match_id mt name (tag_string tags) f2 = Ok r2 ->
  included r1 = included r2 /\ (included r1 = true -> implicit r1 = implicit r2).
Proof.
  intros W S1 S2 Pm E1 E2.
  destruct (id_filter_spec mt name tags f1 W) as (q1 & F1 & A1 & B1).
  destruct (id_filter_spec mt name tags f2 W) as (q2 & F2 & A2 & B2).
  rewrite F1 in E1. rewrite F2 in E2. injection E1 as ->. injection E2 as ->.
  assert (H1 : filter_holds name tags f1 <-> filter_holds name tags f2).
  { unfold filter_holds. split; intros H l Hl.
    - rewrite (split_commas_unique _ _ Hl _ S2). eapply Permutation_Exists; eauto.
    - rewrite (split_commas_unique _ _ Hl _ S1). symmetry in Pm. eapply Permutation_Exists; eauto. }
  assert (H2 : filter_positively name tags f1 <-> filter_positively name tags f2).
  { unfold filter_positively. split; intros H l Hl.
    - rewrite (split_commas_unique _ _ Hl _ S2). eapply Permutation_Exists; eauto.
    - rewrite (split_commas_unique _ _ Hl _ S1). symmetry in Pm. eapply Permutation_Exists; eauto. }
  destruct r1 as [i1 m1], r2 as [i2 m2]. cbn in *.
  destruct i1, i2, m1, m2; intuition congruence.
Qed.

(** ** Command-line selection *)

Lemma cli_loop_spec mt full tags : well_formed mt tags -> forall filters result (Q0 : Prop),
  match result with Some r0 => included r0 = true /\ (implicit r0 = false <-> Q0) | None => ~ Q0 end ->
  result <> None \/ filters <> [] ->
  exists r, cli_loop mt full (tag_string tags) filters result = Ok (Some r) /\
    ok_result r (Forall (filter_holds full tags) filters) (Q0 \/ Exists (filter_positively full tags) filters).
Proof.
  intros W. induction filters as [|f filters IH]; intros result Q0 R NE; cbn [cli_loop].
  - destruct result as [r|]; [|tauto]. exists r. split; auto. unfold ok_result. rewrite Exists_nil.
    destruct R. split; [|tauto]. split; auto.
  - destruct (id_filter_spec mt full tags f W) as (sub & Es & O1 & O2). rewrite Es. cbn [bind].
    assert (Osub : ok_result sub (filter_holds full tags f) (filter_positively full tags f)).
    { unfold ok_result. tauto. }
    assert (O : ok_result (combine filter_result_and result sub) (True /\ filter_holds full tags f)
                  (Q0 \/ filter_positively full tags f)).
    { apply combine_and_spec; auto. destruct result; tauto. }
    set (r := combine filter_result_and result sub) in *. destruct O as [C1 C2].
    destruct (included r) eqn:Ei; cbn [negb].
    + destruct (IH (Some r) (Q0 \/ filter_positively full tags f)) as (r' & E' & O').
      { split; auto. tauto. } { left; discriminate. }
      exists r'. split; auto. unfold ok_result in *. rewrite Forall_cons_iff, Exists_cons. tauto.
    + exists r. split; auto. unfold ok_result. rewrite Ei, Forall_cons_iff. split; [|intuition congruence].
      split; [discriminate|intuition congruence].
Qed.

Lemma make_full_name_spec mn id :
  make_full_name mn id = Ok (if length (full_name_of (id_name id) (id_type id)) <=? mn
                             then full_name_of (id_name id) (id_type id) else []).
Proof.
  assert (G : forall parts full, List.concat parts = full ->
    (do (buffer, fits) <- append_all (new_string mn) parts ;; Ok (if fits : bool then vcontent buffer else [])) =
    Ok (if length full <=? mn then full else [])).
  { intros parts full E. destruct (append_all_content parts (new_string mn) (wf_new mn)) as (b & Eb & _ & _ & C).
    rewrite vcontent_new, vcap_new in Eb, C. cbn [app] in Eb, C. rewrite E in Eb, C. rewrite Eb. cbn [bind].
    f_equal. destruct (Nat.leb_spec (length full) mn); auto. rewrite C. now apply firstn_all2. }
  unfold make_full_name. apply G. unfold full_name_of. destruct (id_type id); cbn [List.concat].
  - apply app_nil_r.
  - now rewrite app_nil_r.
Qed.

Theorem cli_selects_spec mt mn filters id tags :
  id_tags id = tag_string tags -> well_formed mt tags -> filters <> [] ->
  length (full_name_of (id_name id) (id_type id)) <= mn ->
  exists b, cli_selects mt mn filters id = Ok b /\
    (b = true <-> selected (full_name_of (id_name id) (id_type id)) tags filters).
Proof.
  intros Et W NE Ln. unfold cli_selects. rewrite make_full_name_spec. cbn [bind].
  destruct (Nat.leb_spec (length (full_name_of (id_name id) (id_type id))) mn) as [_|]; [|lia].
  set (full := full_name_of (id_name id) (id_type id)) in *. rewrite Et.
  destruct (cli_loop_spec mt full tags W filters None False) as (r & E & O1 & O2); auto.
  rewrite E. cbn [bind]. unfold selected. destruct (included r) eqn:Ei.
  - destruct (implicit r) eqn:Em; cbn [negb].
    + destruct (has_hidden_tag_spec mt tags W) as (h & Eh & Hh). rewrite Eh. cbn [bind].
      eexists. split; [reflexivity|].
      assert (P : Forall (filter_holds full tags) filters) by tauto.
      destruct h; cbn [negb]; intuition congruence.
    + eexists. split; [reflexivity|]. tauto.
  - eexists. split; [reflexivity|]. split; [discriminate|]. intuition congruence.
Qed.

Theorem default_selects_spec mt id tags :
  id_tags id = tag_string tags -> well_formed mt tags ->
  exists b, default_selects mt id = Ok b /\ (b = true <-> ~ hidden tags).
Proof.
  intros Et W. unfold default_selects. rewrite Et.
  destruct (has_hidden_tag_spec mt tags W) as (h & Eh & Hh). rewrite Eh. cbn [bind].
  eexists. split; [reflexivity|]. destruct h; cbn; intuition congruence.
Qed.

Lemma Exists_perm {A} (P : A -> Prop) l l' : Permutation l l' -> Exists P l -> Exists P l'.
Proof. apply Permutation_Exists. Qed.

Theorem selected_order name tags filters filters' :
  Permutation filters filters' -> selected name tags filters <-> selected name tags filters'.
Proof.
  intros Pm. unfold selected. split; intros [H1 H2]; split.
  - eapply Permutation_Forall; eauto.
  - intros Hh. eapply Permutation_Exists; eauto.
  - symmetry in Pm. eapply Permutation_Forall; eauto.
  - intros Hh. symmetry in Pm. eapply Permutation_Exists; eauto.
Qed.

(** A hidden test is not selected by filters that are all negations. *)
Theorem hidden_needs_positive name tags filters :
  hidden tags ->
  Forall (fun f => exists l, split_commas f l /\
            Forall (fun p => if about_tags p then exists k, split_tags p k /\ Forall (fun q => negated q = true) k
                             else negated p = true) l) filters ->
  ~ selected name tags filters.
Proof.
  intros Hh Neg [_ Sel]. specialize (Sel Hh). rewrite Exists_exists in Sel. destruct Sel as (f & If & Pf).
  rewrite Forall_forall in Neg. destruct (Neg f If) as (l & Sl & Nl). specialize (Pf l Sl).
  rewrite Exists_exists in Pf. destruct Pf as (p & Ip & Pp). rewrite Forall_forall in Nl. specialize (Nl p Ip).
  cbn in Nl. unfold single_positively in Pp. destruct (about_tags p).
  - destruct Nl as (k & Sk & Nk). destruct Pp as [_ Pp]. specialize (Pp k Sk). rewrite Exists_exists in Pp.
    destruct Pp as (q & Iq & Eq). rewrite Forall_forall in Nk. rewrite (Nk q Iq) in Eq. discriminate.
  - destruct Pp as [_ Pp]. congruence.
Qed.

(** ** The algebra of filter results *)

Theorem filter_and_algebra :
  (forall a b, included (filter_result_and a b) = included a && included b) /\
  (forall a, filter_result_and a a = a) /\
  (forall a b, filter_result_and a b = filter_result_and b a) /\
  (forall a b c, filter_result_and a (filter_result_and b c) = filter_result_and (filter_result_and a b) c).
Proof.
  repeat split; repeat (intros [[|] [|]]); reflexivity.
Qed.

Theorem filter_or_algebra :
  (forall a b, included (filter_result_or a b) = included a || included b) /\
  (forall a, filter_result_or a a = a) /\
  (forall a b, filter_result_or a b = filter_result_or b a) /\
  (forall a b c, filter_result_or a (filter_result_or b c) = filter_result_or (filter_result_or a b) c).
Proof.
  repeat split; repeat (intros [[|] [|]]); reflexivity.
Qed.

(** ** Computing the splittings (used in examples) *)

Lemma split_commas_last s : find_first_not_escaped s ","%char = None -> split_commas s [s].
Proof. intros E. pose proof (find_first_not_escaped_spec s ","%char) as H. rewrite E in H. now constructor. Qed.

Lemma split_commas_more s i l : find_first_not_escaped s ","%char = Some i ->
  split_commas (skipn (S i) s) l -> split_commas s (firstn i s :: l).
Proof.
  intros E. pose proof (find_first_not_escaped_spec s ","%char) as H. rewrite E in H. destruct H. now constructor.
Qed.

Lemma split_tags_last s : find_first_not_escaped s "]"%char = None -> split_tags s [s].
Proof. intros E. pose proof (find_first_not_escaped_spec s "]"%char) as H. rewrite E in H. now constructor. Qed.

Lemma split_tags_end s i : find_first_not_escaped s "]"%char = Some i -> skipn (S i) s = [] -> split_tags s [s].
Proof.
  intros E. pose proof (find_first_not_escaped_spec s "]"%char) as H. rewrite E in H. destruct H. now apply st_end.
Qed.

Lemma split_tags_more s i l : find_first_not_escaped s "]"%char = Some i -> skipn (S i) s <> [] ->
  split_tags (skipn (S i) s) l -> split_tags s (firstn (S i) s :: l).
Proof.
  intros E. pose proof (find_first_not_escaped_spec s "]"%char) as H. rewrite E in H. destruct H. now apply st_more.
Qed.

Lemma split_example_commas : split_commas (lit "a\,b,~[c],") [lit "a\,b"; lit "~[c]"; lit ""].
Proof.
  apply (split_commas_more (lit "a\,b,~[c],") 4); [reflexivity|].
  apply (split_commas_more (lit "~[c],") 4); [reflexivity|]. apply split_commas_last. reflexivity.
Qed.

Lemma split_example_tags : split_tags (lit "[a\]b]~[c*]") [lit "[a\]b]"; lit "~[c*]"].
Proof.
  apply (split_tags_more (lit "[a\]b]~[c*]") 5); [reflexivity|discriminate|].
  apply (split_tags_end (lit "~[c*]") 4); reflexivity.
Qed.

Lemma well_formed_example : well_formed 5 [quote "x"; quote ".abc"; quote "."; quote "long tag"].
Proof.
  unfold well_formed.
  repeat match goal with |- Forall _ (_ :: _) => constructor end; [| | | |constructor];
    (split; [split; intros H; vm_compute in H; intuition discriminate|]);
    intros D N; try discriminate D; try (now contradiction N); vm_compute; lia.
Qed.
