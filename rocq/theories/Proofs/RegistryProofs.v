(** Proofs about combining filter results, registration, and the list of tags. *)
From Verif.Model Require Import Base Vector StringUtil Print Filter.
From Verif.Spec Require Import TextSpec FilterSpec PrintSpec.
From Verif.Proofs Require Import Lists VectorProofs AppendProofs PrintProofs MatchProofs FilterProofs.
From Coq Require Import Permutation Sorted.

(** ** Any bracketing and order *)
Section Bracketing.
  Context {A : Type} (op : A -> A -> A).
  Hypothesis comm : forall a b, op a b = op b a.
  Hypothesis assoc : forall a b c, op a (op b c) = op (op a b) c.

  Definition fold_op (a : A) (l : list A) : A := fold_left op l a.

  Lemma fold_op_assoc l a b : fold_op (op a b) l = op a (fold_op b l).
  Proof using assoc. revert a b; induction l; intros; simpl; auto. now rewrite <- assoc, IHl. Qed.

  Lemma fold_op_perm l l' : Permutation l l' -> forall a, fold_op a l = fold_op a l'.
  Proof using assoc comm.
    induction 1; intros; simpl; auto.
    - f_equal. now rewrite <- !assoc, (comm x y).
    - now rewrite IHPermutation1.
  Qed.

  Lemma value_fold t : exists a l, operands t = a :: l /\ value op t = fold_op a l.
  Proof using assoc.
    induction t.
    - exists a, []. auto.
    - destruct IHt1 as (a1 & l1 & E1 & V1), IHt2 as (a2 & l2 & E2 & V2). exists a1, (l1 ++ a2 :: l2).
      cbn [operands value]. rewrite E1, E2, V1, V2. split; auto. unfold fold_op at 3. rewrite fold_left_app.
      cbn [fold_left]. now rewrite <- fold_op_assoc.
  Qed.

  Theorem any_bracketing t t' : Permutation (operands t) (operands t') -> value op t = value op t'.
  Proof using assoc comm.
    intros P. destruct (value_fold t) as (a & l & E & ->), (value_fold t') as (a' & l' & E' & ->).
    rewrite E, E' in P. pose proof (Permutation_in a P (or_introl eq_refl)) as [->|I].
    - apply fold_op_perm. now apply Permutation_cons_inv in P.
    - apply in_split in I as (l1 & l2 & ->).
      assert (P' : Permutation l (a' :: l1 ++ l2)).
      { apply (Permutation_cons_inv (a := a)). rewrite P.
        transitivity (a' :: a :: l1 ++ l2). { constructor. symmetry. apply Permutation_middle. } constructor. }
      rewrite (fold_op_perm _ _ P').
      transitivity (fold_op a' (a :: l1 ++ l2)).
      + simpl. now rewrite comm.
      + apply fold_op_perm. apply Permutation_middle.
  Qed.
End Bracketing.

Theorem filter_bracketing t t' : Permutation (operands t) (operands t') ->
  value filter_result_and t = value filter_result_and t' /\ value filter_result_or t = value filter_result_or t'.
Proof.
  destruct filter_and_algebra as (_ & _ & C1 & A1), filter_or_algebra as (_ & _ & C2 & A2).
  intros P. split; apply any_bracketing; auto.
Qed.

(** ** Registration *)

Definition acceptable (mn : nat) (id : test_id) : bool :=
  let full := full_name_of (id_name id) (id_type id) in (1 <=? length full) && (length full <=? mn).

Lemma add_test_spec max mn tests id : length tests <= max ->
  add_test max mn tests id = if (length tests <? max) && acceptable mn id then Ok (tests ++ [id]) else Err Assert.
Proof.
  intros L. unfold add_test, acceptable. rewrite csub_ok by auto. cbn [bind].
  destruct (Nat.ltb_spec (length tests) max), (Nat.eqb_spec (max - length tests) 0); try lia; auto.
  rewrite make_full_name_spec. cbn [bind]. set (full := full_name_of _ _).
  destruct (Nat.leb_spec (length full) mn); rewrite ?andb_false_r; auto.
  destruct full; cbn; auto.
Qed.

Lemma add_tests_spec max mn ids : forall tests, length tests <= max ->
  add_tests max mn tests ids =
  if (length (tests ++ ids) <=? max) && forallb (acceptable mn) ids then Ok (tests ++ ids) else Err Assert.
Proof.
  induction ids as [|id ids IH]; intros tests L; cbn [add_tests forallb].
  - rewrite app_nil_r. destruct (Nat.leb_spec (length tests) max); auto; lia.
  - rewrite add_test_spec by auto. rewrite app_length. cbn [length].
    destruct (Nat.ltb_spec (length tests) max); cbn [andb].
    + destruct (acceptable mn id) eqn:A; cbn [andb bind].
      * rewrite IH. 2: { rewrite app_length. cbn. lia. } rewrite <- app_assoc. cbn [app].
        rewrite app_length. cbn [length]. reflexivity.
      * now rewrite andb_false_r.
    + destruct (Nat.leb_spec (length tests + S (length ids)) max); auto; lia.
Qed.

(** ** List of tags *)

Lemma sltb_before a b : sltb a b = true <-> before a b.
Proof.
  revert b; induction a; destruct b; cbn; split; intros H; try discriminate; try (inversion H; fail).
  - constructor.
  - reflexivity.
  - apply orb_true_iff in H as [H|H].
    + apply before_lt. now apply Nat.ltb_lt.
    + apply andb_true_iff in H as [H1 H2]. apply aeqb_eq in H1. subst. apply before_eq. now apply IHa.
  - inversion H; subst.
    + apply orb_true_iff. left. now apply Nat.ltb_lt.
    + rewrite aeqb_refl. apply orb_true_iff. right. now apply IHa.
Qed.

Lemma before_total a b : before a b \/ a = b \/ before b a.
Proof.
  revert b; induction a; destruct b; auto.
  - left; constructor.
  - right; right; constructor.
  - destruct (Nat.lt_total (nat_of_ascii a) (nat_of_ascii a1)) as [H|[H|H]].
    + left. now apply before_lt.
    + assert (a = a1). { rewrite <- (ascii_nat_embedding a), <- (ascii_nat_embedding a1). now f_equal. }
      subst. destruct (IHa b) as [K|[K|K]].
      * left. now apply before_eq.
      * right; left. now subst.
      * right; right. now apply before_eq.
    + right; right. now apply before_lt.
Qed.

Lemma before_trans a b c : before a b -> before b c -> before a c.
Proof.
  intros H. revert c. induction H; intros x K; inversion K; subst;
    first [apply before_nil | apply before_lt; lia | apply before_eq; auto].
Qed.

Lemma before_irrefl a : ~ before a a.
Proof. induction a; intros H; inversion H; subst; try lia; auto. Qed.

Lemma insert_sorted_in t l x : In x (insert_sorted t l) <-> x = t \/ In x l.
Proof.
  induction l; cbn; [intuition|]. destruct (sltb t a); cbn; [intuition|]. rewrite IHl. intuition.
Qed.

Lemma insert_sorted_sorted t l : StronglySorted before l -> ~ In t l -> StronglySorted before (insert_sorted t l).
Proof.
  induction 1 as [|x l HS IH F]; cbn; intros N; [repeat constructor|].
  destruct (sltb t x) eqn:E.
  - apply sltb_before in E. constructor; [constructor; auto|]. constructor; auto.
    eapply Forall_impl; [|exact F]. intros. eapply before_trans; eauto.
  - constructor. { apply IH. tauto. }
    rewrite Forall_forall in *. intros y Hy. apply insert_sorted_in in Hy as [->|Hy]; auto.
    destruct (before_total t x) as [K|[K|K]]; auto.
    + apply sltb_before in K. congruence.
    + subst. tauto.
Qed.

Lemma sort_strings_spec l : NoDup l ->
  StronglySorted before (sort_strings l) /\ (forall x, In x (sort_strings l) <-> In x l).
Proof.
  induction 1 as [|x l N ND [IH1 IH2]]; cbn; [split; [constructor|tauto]|]. split.
  - apply insert_sorted_sorted; auto. now rewrite IH2.
  - intros y. rewrite insert_sorted_in, IH2. intuition.
Qed.

Definition plain (l : list str) : list (str * bool) := map (fun s => (s, false)) l.

Lemma stored_find_plain l t : stored_find (plain l) t = Ok (inb t l).
Proof.
  induction l; cbn; auto. fold (plain l). rewrite IHl.
  assert (seqb a t = seqb t a). { destruct (seqb t a) eqn:E; [apply seqb_eq in E; subst; now apply seqb_eq|].
    apply seqb_neq in E. apply seqb_neq. auto. }
  rewrite H. destruct (seqb t a); auto.
Qed.

Lemma read_views_plain l : read_views (plain l) = Ok l.
Proof. induction l; cbn; auto. fold (plain l). now rewrite IHl. Qed.

Fixpoint add_new (seen l : list str) : list str :=
  match l with [] => seen | x :: l' => if inb x seen then add_new seen l' else add_new (seen ++ [x]) l' end.

Lemma add_new_in l : forall seen x, In x (add_new seen l) <-> In x seen \/ In x l.
Proof.
  induction l as [|y l IH]; intros seen x; cbn; [intuition|]. destruct (inb y seen) eqn:E.
  - apply inb_spec in E. rewrite IH. intuition. subst; auto.
  - rewrite IH, in_app_iff. cbn. intuition.
Qed.

Lemma add_new_nodup l : forall seen, NoDup seen -> NoDup (add_new seen l).
Proof.
  induction l as [|y l IH]; intros seen N; cbn; auto. destruct (inb y seen) eqn:E; auto.
  apply IH.
  apply (Permutation_NoDup (l := y :: seen)). { apply Permutation_cons_append. }
  constructor; auto. intros I. apply inb_spec in I. congruence.
Qed.

Lemma add_new_length l : forall seen, length seen <= length (add_new seen l).
Proof.
  induction l as [|y l IH]; intros seen; cbn; auto. destruct (inb y seen); auto.
  specialize (IH (seen ++ [y])). rewrite app_length in IH. lia.
Qed.

Definition not_local (t : parsed_tag) : bool := match t with Visible _ b => negb b | _ => true end.

Lemma store_tags_spec max l : forallb not_local l = true -> forall seen, length seen <= max ->
  store_tags max (plain seen) l =
  if length (add_new seen (visible l)) <=? max then Ok (plain (add_new seen (visible l))) else Err Assert.
Proof.
  induction l as [|t l IH]; cbn [forallb store_tags]; intros NL seen L.
  - cbn. destruct (Nat.leb_spec (length seen) max); auto; lia.
  - apply andb_true_iff in NL as [N1 N2]. specialize (IH N2). destruct t as [s b| | |]; auto.
    cbn in N1. destruct b; try discriminate. rewrite stored_find_plain. cbn [bind].
    change (visible (Visible s false :: l)) with (s :: visible l). cbn [add_new].
    destruct (inb s seen); auto. unfold plain at 1. rewrite map_length.
    destruct (Nat.eqb_spec (length seen) max).
    + pose proof (add_new_length (visible l) (seen ++ [s])) as K. rewrite app_length in K. cbn in K.
      destruct (Nat.leb_spec (length (add_new (seen ++ [s]) (visible l))) max); auto; lia.
    + specialize (IH (seen ++ [s])). unfold plain in *. rewrite map_app in IH. cbn [map] in IH. rewrite IH; auto.
      rewrite app_length. cbn. lia.
Qed.

Lemma add_new_app l1 : forall l2 seen, add_new (add_new seen l1) l2 = add_new seen (l1 ++ l2).
Proof. induction l1; cbn; intros; auto. destruct (inb a seen); auto. Qed.

(** No ["[.x]"] shortcut: then no view into a dead buffer is stored. *)
Lemma parse_tag_not_local mt t l : parse_tag mt (bracketed t) = Ok l -> (dotted t = true -> t = quote ".") ->
  forallb not_local l = true.
Proof.
  unfold parse_tag. intros H D.
  change (lit "[.]") with (bracketed (quote ".")) in H. rewrite seqb_bracketed in H.
  destruct (seqb t (quote ".")) eqn:Edot.
  - apply seqb_eq in Edot. subst. cbn [bind] in H. injection H as <-. reflexivity.
  - apply seqb_neq in Edot.
    assert (Est : starts_with (bracketed t) (lit "[.") = dotted t).
    { unfold bracketed. cbn. destruct t; cbn; auto. unfold aeqb. rewrite Ascii.eqb_sym. now rewrite andb_true_r. }
    rewrite Est in H. destruct (dotted t); [exfalso; auto|]. cbn [bind] in H. injection H as <-.
    repeat match goal with |- context [if ?b then _ else _] => destruct b end; reflexivity.
Qed.

Lemma parse_tags_not_local mt tags : (forall t, In t tags -> dotted t = true -> t = quote ".") ->
  forall l, concat_res (parse_tag mt) (map bracketed tags) = Ok l -> forallb not_local l = true.
Proof.
  induction tags as [|t tags IH]; cbn [map concat_res]; intros H l E.
  - injection E as <-. reflexivity.
  - destruct (parse_tag mt (bracketed t)) eqn:E1; [|discriminate]. cbn [bind] in E.
    destruct (concat_res (parse_tag mt) (map bracketed tags)) eqn:E2; [|discriminate]. cbn [bind] in E.
    injection E as <-. rewrite forallb_app, (IH (fun t It => H t (or_intror It)) _ eq_refl), andb_true_r.
    eapply parse_tag_not_local; eauto. apply H. now left.
Qed.

Definition visible_of_all (tags : list (list text)) : list text := flat_map tags_of tags.

Lemma store_all_tags_spec mt max (tests : list test_id) (tags : list (list text)) :
  Forall2 (fun id t => id_tags id = tag_string t) tests tags ->
  Forall (well_formed mt) tags -> Forall (Forall (fun t => dotted t = true -> t = quote ".")) tags ->
  forall seen, length seen <= max ->
  store_all_tags mt max (plain seen) tests =
  if length (add_new seen (visible_of_all tags)) <=? max then Ok (plain (add_new seen (visible_of_all tags)))
  else Err Assert.
Proof.
  induction 1 as [|id t tests tags E F IH]; intros W D seen L; cbn [store_all_tags visible_of_all flat_map].
  - cbn. destruct (Nat.leb_spec (length seen) max); auto; lia.
  - inversion W; subst. inversion D; subst. rewrite E.
    destruct (parse_tags_spec mt t H1) as (l & El & V & _).
    pose proof (parse_tags_not_local mt t (proj1 (Forall_forall _ _) H3) l El) as NL.
    unfold for_each_tag. rewrite for_each_raw_tag_spec by (eapply well_formed_no_brackets; eauto). cbn [bind].
    rewrite El. cbn [bind]. rewrite store_tags_spec by auto. rewrite V, <- add_new_app.
    destruct (Nat.leb_spec (length (add_new seen (tags_of t))) max) as [Hl|Hl]; cbn [bind].
    + now apply IH.
    + pose proof (add_new_length (visible_of_all tags) (add_new seen (tags_of t))).
      unfold visible_of_all in *.
      destruct (Nat.leb_spec (length (add_new (add_new seen (tags_of t)) (flat_map tags_of tags))) max); auto; lia.
Qed.

Theorem list_all_tags_spec mm mt max tests tags :
  Forall2 (fun id t => id_tags id = tag_string t) tests tags ->
  Forall (well_formed mt) tags -> Forall (Forall (fun t => dotted t = true -> t = quote ".")) tags ->
  exists l, StronglySorted before l /\ (forall x, In x l <-> exists t, In t tags /\ In x (tags_of t)) /\
    list_all_tags mm mt max tests =
      if length l <=? max then Ok (map (fun t => fit mm (quote "[" ++ t ++ quote "]
")) l) else Err Assert.
Proof.
  intros F W D. pose proof (store_all_tags_spec mt max tests tags F W D [] (Nat.le_0_l _)) as E.
  set (u := add_new [] (visible_of_all tags)) in *.
  assert (ND : NoDup u) by (apply add_new_nodup; constructor).
  destruct (sort_strings_spec u ND) as [S1 S2]. exists (sort_strings u). split; auto. split.
  - intros x. rewrite S2. unfold u. rewrite add_new_in. unfold visible_of_all. rewrite in_flat_map. cbn. intuition.
  - unfold list_all_tags. cbn [plain map] in E. rewrite E.
    assert (Ll : length (sort_strings u) = length u).
    { clear. induction u as [|a u IHu]; cbn [sort_strings fold_right length]; auto. fold (sort_strings u).
      rewrite <- IHu. generalize (sort_strings u). induction l as [|b l IHl]; cbn; auto.
      destruct (sltb a b); cbn; auto. }
    unfold text, str in *. rewrite Ll. destruct (length u <=? max); cbn [bind]; auto.
    rewrite read_views_plain. cbn [bind]. pose proof (prints_texts mm (map (fun t => [lit "["; t; lit "]
"]) (sort_strings u))) as P. rewrite map_map in P. cbn [map] in P. unfold text, str in *. rewrite P, map_map. reflexivity.
Qed.

(** With a shortcut ["[.x]"], a dead buffer is read. *)
Theorem list_all_tags_dangling : exists tests, forall mm mt max, 3 <= mt -> 2 <= max ->
  Forall2 (fun id t => id_tags id = tag_string t /\ well_formed mt t) tests [[quote ".a"]] /\
  list_all_tags mm mt max tests = Err UB.
Proof.
  exists [mkid (lit "t") (lit "[.a]") [] []]. intros mm mt max L1 L2. split.
  - constructor; [|constructor]. split; auto. constructor; [|constructor]. split.
    + split; intros [K|[K|[]]]; discriminate.
    + intros _ _. cbn. lia.
  - unfold list_all_tags. cbn [store_all_tags id_tags]. unfold for_each_tag.
    change (for_each_raw_tag (lit "[.a]")) with (@Ok (list str) [lit "[.a]"]). cbn [bind concat_res].
    assert (E : parse_tag mt (lit "[.a]") = Ok [Hidden; Visible (lit "[.]") false; Visible (lit "[a]") true]).
    { unfold parse_tag. change (seqb (lit "[.a]") (lit "[.]")) with false.
      change (starts_with (lit "[.a]") (lit "[.")) with true. cbv iota.
      destruct (append_all_content [lit "["; skipn 2 (lit "[.a]")] (new_string mt) (wf_new mt)) as (b & Eb & _ & _ & C).
      rewrite Eb. rewrite vcontent_new, vcap_new in *. cbn [bind]. change ([] ++ List.concat [lit "["; skipn 2 (lit "[.a]")]) with (lit "[a]") in *.
      change (length (lit "[a]")) with 3. destruct (Nat.leb_spec 3 mt); [|lia]. rewrite C.
      rewrite firstn_all2 by (cbn; lia). reflexivity. }
    rewrite E. cbn [bind app store_tags stored_find length].
    destruct (Nat.eqb_spec 0 max); [lia|]. cbn [app store_tags stored_find].
    change (seqb (lit "[.]") (lit "[a]")) with false. cbn [bind length].
    destruct (Nat.eqb_spec 1 max); [lia|]. reflexivity.
Qed.

Theorem registration max mn ids :
  (length ids <= max /\
   Forall (fun id => 1 <= length (full_name_of (id_name id) (id_type id)) <= mn) ids ->
   add_tests max mn [] ids = Ok ids) /\
  (~ (length ids <= max /\
      Forall (fun id => 1 <= length (full_name_of (id_name id) (id_type id)) <= mn) ids) ->
   add_tests max mn [] ids = Err Assert).
Proof.
  rewrite add_tests_spec by (cbn; lia). cbn [app].
  assert (A : forallb (acceptable mn) ids = true <->
              Forall (fun id => 1 <= length (full_name_of (id_name id) (id_type id)) <= mn) ids).
  { rewrite forallb_forall, Forall_forall. split; intros H x I; specialize (H x I); unfold acceptable in *.
    - apply andb_true_iff in H as [H1 H2]. apply Nat.leb_le in H1, H2. auto.
    - apply andb_true_iff. split; apply Nat.leb_le; lia. }
  destruct (Nat.leb_spec (length ids) max), (forallb (acceptable mn) ids); cbn [andb]; split; intros; auto;
    exfalso; intuition (try lia; discriminate).
Qed.

Theorem explicit_wins a b : included a = included b ->
  implicit (filter_result_and a b) = implicit a && implicit b /\
  implicit (filter_result_or a b) = implicit a && implicit b.
Proof. destruct a as [[|] [|]], b as [[|] [|]]; cbn; intros; try discriminate; auto. Qed.

Theorem hidden_selection mt mn filters id tags :
  id_tags id = tag_string tags -> well_formed mt tags -> filters <> [] ->
  length (full_name_of (id_name id) (id_type id)) <= mn -> hidden tags ->
  exists b, cli_selects mt mn filters id = Ok b /\
    (b = true <-> Forall (filter_holds (full_name_of (id_name id) (id_type id)) tags) filters /\
                  Exists (filter_positively (full_name_of (id_name id) (id_type id)) tags) filters).
Proof.
  intros E W N L H. destruct (cli_selects_spec mt mn filters id tags E W N L) as (b & Eb & Hb).
  exists b. split; auto. rewrite Hb. unfold selected. tauto.
Qed.

Lemma matches_dot x : matches (quote "[.]") x <-> x = quote "[.]".
Proof.
  unfold matches. split.
  - intros [K|(ts & E & G)]; [discriminate|]. cbn in E. injection E as <-.
    inversion G; subst. inversion H2; subst. inversion H3; subst. inversion H4; subst. reflexivity.
  - intros ->. right. eexists. split; [reflexivity|]. repeat constructor.
Qed.

Theorem dot_filter name tags : Forall no_brackets tags ->
  (filter_positively name tags (quote "[.]") <-> hidden tags) /\
  (filter_holds name tags (quote "~[.]") <-> ~ hidden tags).
Proof.
  intros _.
  assert (S1 : split_commas (quote "[.]") [quote "[.]"]) by (apply split_commas_last; reflexivity).
  assert (S2 : split_commas (quote "~[.]") [quote "~[.]"]) by (apply split_commas_last; reflexivity).
  assert (T1 : split_tags (quote "[.]") [quote "[.]"]) by (apply (split_tags_end _ 2); reflexivity).
  assert (T2 : split_tags (quote "~[.]") [quote "~[.]"]) by (apply (split_tags_end _ 3); reflexivity).
  assert (H : Exists (matches (quote "[.]")) (tags_of tags) <-> hidden tags).
  { unfold hidden. rewrite Exists_exists. split.
    - intros (x & I & M). apply matches_dot in M. now subst.
    - intros I. exists (quote "[.]"). split; auto. now apply matches_dot. }
  assert (E1 : tags_hold tags (quote "[.]") <-> hidden tags).
  { unfold tags_hold. rewrite <- H. split.
    - intros K. specialize (K _ T1). inversion K; subst. exact H2.
    - intros K l Hl. rewrite (split_tags_unique _ _ Hl _ T1). constructor; auto. }
  assert (E2 : tags_hold tags (quote "~[.]") <-> ~ hidden tags).
  { unfold tags_hold. rewrite <- H. split.
    - intros K. specialize (K _ T2). inversion K; subst. exact H2.
    - intros K l Hl. rewrite (split_tags_unique _ _ Hl _ T2). constructor; auto. }
  split.
  - unfold filter_positively. split.
    + intros K. specialize (K _ S1). inversion K; subst; [|inversion H1]. destruct H1 as [H1 _]. now apply E1.
    + intros K l Hl. rewrite (split_commas_unique _ _ Hl _ S1). left. split; [now apply E1|].
      intros k Hk. rewrite (split_tags_unique _ _ Hk _ T1). now left.
  - unfold filter_holds. split.
    + intros K. specialize (K _ S2). inversion K; subst; [|inversion H1]. now apply E2.
    + intros K l Hl. rewrite (split_commas_unique _ _ Hl _ S2). left. now apply E2.
Qed.
