(** Listing the tags of tests with ["[.x]"] shortcuts (C52). *)
From Verif.Model Require Import Base Vector StringUtil Print Filter.
From Verif.Spec Require Import TextSpec FilterSpec PrintSpec.
From Verif.Proofs Require Import Lists VectorProofs AppendProofs PrintProofs MatchProofs FilterProofs RegistryProofs.
From Coq Require Import Permutation Sorted.

(** No view into the buffer is stored. *)
Fixpoint okb (seen : list str) (l : list parsed_tag) : bool :=
  match l with
  | [] => true
  | Visible s local :: l' => if inb s seen then okb seen l' else negb local && okb (seen ++ [s]) l'
  | _ :: l' => okb seen l'
  end.

Lemma store_ok max l : forall seen, okb seen l = true -> length seen <= max ->
  store_tags max (plain seen) l =
  if length (add_new seen (visible l)) <=? max then Ok (plain (add_new seen (visible l))) else Err Assert.
Proof.
  induction l as [|t l IH]; cbn [okb store_tags]; intros seen K L.
  - cbn. destruct (Nat.leb_spec (length seen) max); auto; lia.
  - destruct t as [s b| | |]; auto. rewrite stored_find_plain. cbn [bind].
    change (visible (Visible s b :: l)) with (s :: visible l). cbn [add_new].
    destruct (inb s seen); auto. apply andb_prop in K as [K1 K]. destruct b; [discriminate|].
    unfold plain at 1. rewrite map_length. destruct (Nat.eqb_spec (length seen) max).
    + pose proof (add_new_length (visible l) (seen ++ [s])) as M. rewrite app_length in M. cbn in M.
      destruct (Nat.leb_spec (length (add_new (seen ++ [s]) (visible l))) max); auto; lia.
    + specialize (IH (seen ++ [s]) K). unfold plain in *. rewrite map_app in IH. cbn [map] in IH. rewrite IH; auto.
      rewrite app_length. cbn. lia.
Qed.

(** A view into the buffer is stored. *)
Definition dead_in (l : list (str * bool)) : bool := existsb snd l.

Lemma find_dead l t : dead_in l = true -> stored_find l t = Err UB \/ stored_find l t = Ok true.
Proof.
  induction l as [|[s b] l IH]; [discriminate|]. cbn. destruct b; auto. intros D. destruct (seqb s t); auto.
Qed.

Lemma store_dead max l : forall tags, dead_in tags = true ->
  store_tags max tags l = Err UB \/ store_tags max tags l = Ok tags.
Proof.
  induction l as [|t l IH]; intros tags D; cbn [store_tags]; auto. destruct t as [s b| | |]; auto.
  destruct (find_dead tags s D) as [-> | ->]; cbn [bind]; auto.
Qed.

Lemma store_not_ok max l : forall seen, okb seen l = false ->
  store_tags max (plain seen) l = Err UB \/ store_tags max (plain seen) l = Err Assert \/
  exists tags, store_tags max (plain seen) l = Ok tags /\ dead_in tags = true.
Proof.
  induction l as [|t l IH]; intros seen; cbn [okb store_tags]; [discriminate|]. intros K.
  destruct t as [s b| | |]; auto. rewrite stored_find_plain. cbn [bind]. destruct (inb s seen); auto.
  destruct (length (plain seen) =? max); auto. destruct b.
  - assert (D : dead_in (plain seen ++ [(s, true)]) = true).
    { unfold dead_in. rewrite existsb_app. cbn. now rewrite orb_true_r. }
    destruct (store_dead max l _ D) as [-> | ->]; eauto.
  - cbn [negb andb] in K. specialize (IH _ K). unfold plain in *. now rewrite map_app in IH.
Qed.

Lemma read_dead l : dead_in l = true -> read_views l = Err UB.
Proof. induction l as [|[s b] l IH]; [discriminate|]. cbn. destruct b; auto. intros D. now rewrite IH. Qed.

(** All tests together. *)
Lemma store_tags_app max l1 : forall l2 tags,
  store_tags max tags (l1 ++ l2) = (do tags1 <- store_tags max tags l1 ;; store_tags max tags1 l2).
Proof.
  induction l1 as [|t l1 IH]; intros l2 tags; cbn [app store_tags bind]; auto. destruct t as [s b| | |]; auto.
  destruct (stored_find tags s) as [found|]; cbn [bind]; auto. destruct found; auto. destruct (length tags =? max); auto.
Qed.

Lemma concat_res_app (A B : Type) (f : A -> res (list B)) l1 : forall l2 r1 r2,
  concat_res f l1 = Ok r1 -> concat_res f l2 = Ok r2 -> concat_res f (l1 ++ l2) = Ok (r1 ++ r2).
Proof.
  induction l1 as [|x l1 IH]; cbn [app concat_res]; intros l2 r1 r2 E1 E2; [injection E1 as <-; exact E2|].
  destruct (f x) as [y|]; [|discriminate]. cbn [bind] in *. destruct (concat_res f l1) as [ys|]; [|discriminate].
  cbn [bind] in E1. injection E1 as <-. rewrite (IH _ _ _ eq_refl E2). cbn [bind]. now rewrite app_assoc.
Qed.

Lemma store_all mt max (tests : list test_id) (tags : list (list text)) :
  Forall2 (fun id t => id_tags id = tag_string t) tests tags -> Forall (well_formed mt) tags ->
  exists l, concat_res (parse_tag mt) (map bracketed (List.concat tags)) = Ok l /\
    forall stored, store_all_tags mt max stored tests = store_tags max stored l.
Proof.
  induction 1 as [|id t tests tags E F IH]; intros W; [exists []; split; auto|].
  inversion W as [|? ? W1 W2]; subst. destruct (IH W2) as (l2 & E2 & S2).
  destruct (parse_tags_spec mt t W1) as (l1 & E1 & _). exists (l1 ++ l2). cbn [List.concat store_all_tags]. split.
  - rewrite map_app. now apply concat_res_app.
  - intros stored. rewrite E. unfold for_each_tag.
    rewrite for_each_raw_tag_spec by (eapply well_formed_no_brackets; eauto). cbn [bind]. rewrite E1. cbn [bind].
    rewrite store_tags_app. destruct (store_tags max stored l1); cbn [bind]; auto.
Qed.

(** What is asked of the tags themselves. *)
Lemma okb_plain l1 : forallb not_local l1 = true -> forall l2 seen, okb seen (l1 ++ l2) = okb (add_new seen (visible l1)) l2.
Proof.
  induction l1 as [|t l1 IH]; cbn [forallb]; intros NL l2 seen; [reflexivity|]. apply andb_prop in NL as [N1 N2].
  cbn [app okb]. destruct t as [s b| | |]; try exact (IH N2 l2 seen).
  change (visible (Visible s b :: l1)) with (s :: visible l1). cbn [add_new]. cbn [not_local] in N1. rewrite N1.
  destruct (inb s seen); [exact (IH N2 l2 seen)|exact (IH N2 l2 (seen ++ [s]))].
Qed.

Lemma parse_shortcut mt t l : parse_tag mt (bracketed t) = Ok l -> dotted t = true -> t <> quote "." ->
  length (bracketed (tl t)) <= mt ->
  exists l1, l = l1 ++ [Visible (bracketed (tl t)) true] /\ forallb not_local l1 = true /\ visible l1 = [bracketed (quote ".")].
Proof.
  unfold parse_tag. intros H D Edot L. change (lit "[.]") with (bracketed (quote ".")) in H. rewrite seqb_bracketed in H.
  apply seqb_neq in Edot. rewrite Edot in H. apply seqb_neq in Edot.
  assert (Est : starts_with (bracketed t) (lit "[.") = dotted t).
  { unfold bracketed. cbn. destruct t; cbn; auto. unfold aeqb. rewrite Ascii.eqb_sym. now rewrite andb_true_r. }
  rewrite Est, D in H. destruct t as [|c t]; [discriminate|]. cbn in D. apply Ascii.eqb_eq in D. subst. cbn [tl] in *.
  destruct (append_all_content [lit "["; skipn 2 (bracketed ("."%char :: t))] (new_string mt) (wf_new mt)) as (b & E & _ & _ & C).
  rewrite vcontent_new, vcap_new in E, C.
  assert (Ec : [] ++ List.concat [lit "["; skipn 2 (bracketed ("."%char :: t))] = bracketed t).
  { cbn. now rewrite app_nil_r. }
  rewrite Ec in E, C. rewrite E in H. cbn [bind] in H. destruct (Nat.leb_spec (length (bracketed t)) mt); [|lia].
  rewrite firstn_all2 in C by auto. rewrite C in H. cbn [bind] in H. injection H as <-.
  match goal with |- exists l1, ?h :: ?v :: (?a ++ ?b ++ [?c]) = _ /\ _ => exists (h :: v :: a ++ b) end.
  split; [cbn [app]; now rewrite <- app_assoc|].
  repeat match goal with |- context [if ?b then _ else _] => destruct b end; split; reflexivity.
Qed.

Lemma bracketed_inj a b : bracketed a = bracketed b -> a = b.
Proof. intros E. apply seqb_eq. rewrite <- seqb_bracketed. now apply seqb_eq. Qed.

Definition shortcuts (prior ts : list text) : Prop :=
  forall before t after, ts = before ++ t :: after -> dotted t = true -> t <> quote "." ->
  In (tl t) (quote "." :: prior ++ flat_map names before).

Lemma shortcuts_cons prior t ts : shortcuts prior (t :: ts) <->
  (dotted t = true -> t <> quote "." -> In (tl t) (quote "." :: prior)) /\ shortcuts (prior ++ names t) ts.
Proof.
  unfold shortcuts. split.
  - intros H. split.
    + intros D N. specialize (H [] t ts eq_refl D N). cbn [flat_map] in H. now rewrite app_nil_r in H.
    + intros before u after -> D N. specialize (H (t :: before) u after eq_refl D N). cbn [flat_map] in H.
      now rewrite app_assoc in H.
  - intros [H1 H2] [|v before] u after E D N.
    + injection E as <- <-. cbn [flat_map]. rewrite app_nil_r. auto.
    + injection E as <- ->. cbn [flat_map]. rewrite app_assoc. eapply H2; eauto.
Qed.

Lemma okb_shortcuts mt ts : well_formed mt ts -> forall l seen prior,
  concat_res (parse_tag mt) (map bracketed ts) = Ok l -> (forall x, In (bracketed x) seen <-> In x prior) ->
  okb seen l = true <-> shortcuts prior ts.
Proof.
  induction 1 as [|t ts [N L] W IH]; intros l seen prior E S.
  - injection E as <-. cbn. split; auto. intros _ [|] ? ? K; discriminate K.
  - cbn [map concat_res] in E. destruct (parse_tag_spec mt t N L) as (l1 & E1 & V1 & _). rewrite E1 in E. cbn [bind] in E.
    destruct (concat_res (parse_tag mt) (map bracketed ts)) as [l2|] eqn:E2; [|discriminate]. cbn [bind] in E. injection E as <-.
    rewrite shortcuts_cons.
    assert (S' : forall s, (forall x, In (bracketed x) s <-> In (bracketed x) seen \/ In (bracketed x) (visible l1)) ->
              forall x, In (bracketed x) s <-> In x (prior ++ names t)).
    { intros s K x. rewrite K, S, in_app_iff, V1, in_map_iff. split; (intros [I|I]; [now left|right]); [|eauto].
      destruct I as (y & Ey & I). apply bracketed_inj in Ey. now subst. }
    assert (C : (dotted t = true /\ t <> quote ".") \/ (dotted t = true -> t = quote ".")).
    { destruct (dotted t); [|right; discriminate]. destruct (seqb t (quote ".")) eqn:Q; [right; intros; now apply seqb_eq|].
      left. split; auto. now apply seqb_neq. }
    destruct C as [[D ND]|D].
    + destruct (parse_shortcut mt t l1 E1 D ND (L D ND)) as (l0 & -> & NL & V0).
      rewrite <- app_assoc, okb_plain by auto. rewrite V0. rewrite visible_app, V0 in S'. cbn [visible flat_map app] in S'.
      cbn [app okb]. set (seen1 := add_new seen [bracketed (quote ".")]).
      assert (K : inb (bracketed (tl t)) seen1 = true <-> In (tl t) (quote "." :: prior)).
      { rewrite inb_spec. unfold seen1. rewrite add_new_in, S. cbn [In]. split; [intros [I|[I|[]]]|intros [I|I]]; auto.
        - apply bracketed_inj in I. auto.
        - rewrite I. auto. }
      destruct (inb (bracketed (tl t)) seen1) eqn:I.
      * rewrite (IH l2 seen1 (prior ++ names t) eq_refl).
        { split; [intros R; split; auto; intros; now apply K|now intros [_ R]]. }
        { apply S'. intros x. unfold seen1. rewrite add_new_in. cbn [In]. split; [intuition|].
          intros [J|[J|[J|[]]]]; auto. rewrite <- J. unfold seen1 in I. apply inb_spec in I. rewrite add_new_in in I. cbn [In] in I. intuition. }
      * cbn [negb andb]. split; [discriminate|]. intros [R _]. specialize (R D ND). apply K in R. discriminate R.
    + rewrite okb_plain by (eapply parse_tag_not_local; eauto).
      rewrite (IH l2 (add_new seen (visible l1)) (prior ++ names t) eq_refl).
      { split; [intros R; split; auto; intros A B; now specialize (D A)|now intros [_ R]]. }
      { apply S'. intros x. apply add_new_in. }
Qed.

Theorem list_shortcuts mm mt max tests tags :
  Forall2 (fun id t => id_tags id = tag_string t) tests tags -> Forall (well_formed mt) tags ->
  (after_plain (List.concat tags) ->
   exists l, StronglySorted before l /\ (forall x, In x l <-> exists t, In t tags /\ In x (tags_of t)) /\
     list_all_tags mm mt max tests =
       if length l <=? max then Ok (map (fun t => fit mm (quote "[" ++ t ++ quote "]
")) l) else Err Assert) /\
  (~ after_plain (List.concat tags) -> list_all_tags mm mt max tests = Err UB \/ list_all_tags mm mt max tests = Err Assert).
Proof.
  intros F W. destruct (store_all mt max tests tags F W) as (l0 & E0 & St).
  assert (W' : well_formed mt (List.concat tags)).
  { clear - W. induction W as [|t tags A B IH]; cbn [List.concat]; [constructor|]. apply Forall_app. now split. }
  pose proof (okb_shortcuts mt _ W' l0 [] [] E0 (fun x => conj (fun K : In _ [] => match K with end) (fun K : In _ [] => match K with end))) as K.
  assert (K' : shortcuts [] (List.concat tags) <-> after_plain (List.concat tags)) by reflexivity.
  rewrite K' in K. clear K'. destruct (parse_tags_spec mt _ W') as (l1 & E1 & V & _). rewrite E0 in E1. injection E1 as <-.
  split.
  - intros A. apply K in A. pose proof (store_ok max l0 [] A (Nat.le_0_l _)) as E. rewrite <- St in E.
    set (u := add_new [] (visible l0)) in *.
    assert (ND : NoDup u) by (apply add_new_nodup; constructor).
    destruct (sort_strings_spec u ND) as [S1 S2]. exists (sort_strings u). split; auto. split.
    + intros x. rewrite S2. unfold u. rewrite add_new_in, V. unfold tags_of. cbn [In].
      assert (G : flat_map names (List.concat tags) = List.concat (map (flat_map names) tags)).
      { clear. induction tags as [|a tags IH]; auto. cbn [List.concat map]. now rewrite flat_map_app, IH. }
      rewrite G, concat_map, map_map, in_concat. setoid_rewrite in_map_iff. split.
      * intros [[]|(y & (t & <- & It) & I)]. exists t. split; auto. now apply in_map_iff.
      * intros (t & It & I). right. eexists. split; [exists t; split; [reflexivity|auto]|]. now apply in_map_iff.
    + unfold list_all_tags. cbn [plain map] in E. rewrite E.
      assert (Ll : length (sort_strings u) = length u).
      { clear. induction u as [|a u IHu]; cbn [sort_strings fold_right length]; auto. fold (sort_strings u).
        rewrite <- IHu. generalize (sort_strings u). induction l as [|b l IHl]; cbn; auto.
        destruct (sltb a b); cbn; auto. }
      unfold text, str in *. rewrite Ll. destruct (length u <=? max); cbn [bind]; auto.
      rewrite read_views_plain. cbn [bind]. pose proof (prints_texts mm (map (fun t => [lit "["; t; lit "]
"]) (sort_strings u))) as P. rewrite map_map in P. cbn [map] in P. unfold text, str in *. rewrite P, map_map. reflexivity.
  - intros A. destruct (okb [] l0) eqn:O; [exfalso; apply A, K; exact O|].
    unfold list_all_tags. rewrite St. destruct (store_not_ok max l0 [] O) as [E|[E|(stored & E & D)]]; cbn [plain map] in E; rewrite E; cbn [bind]; auto.
    rewrite (read_dead _ D). auto.
Qed.

Theorem list_after_plain mm mt max tests tags :
  Forall2 (fun id t => id_tags id = tag_string t) tests tags -> Forall (well_formed mt) tags -> after_plain (List.concat tags) ->
  exists l, StronglySorted before l /\ (forall x, In x l <-> exists t, In t tags /\ In x (tags_of t)) /\
    list_all_tags mm mt max tests =
      if length l <=? max then Ok (map (fun t => fit mm (quote "[" ++ t ++ quote "]
")) l) else Err Assert.
Proof. intros F W. exact (proj1 (list_shortcuts mm mt max tests tags F W)). Qed.

Theorem list_not_after_plain mm mt max tests tags :
  Forall2 (fun id t => id_tags id = tag_string t) tests tags -> Forall (well_formed mt) tags -> ~ after_plain (List.concat tags) ->
  list_all_tags mm mt max tests = Err UB \/ list_all_tags mm mt max tests = Err Assert.
Proof. intros F W. exact (proj2 (list_shortcuts mm mt max tests tags F W)). Qed.
