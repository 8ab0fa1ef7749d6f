(** The order in which tests are registered, tags and declarations (C103). *)
From Coq Require Import Permutation Sorting.Sorted Lia Ascii.
From Verif.Spec Require Import TextSpec FilterSpec PrintSpec CliSpec Events VerdictSpec SessionSpec DeclareSpec.
From Verif.Model Require Import Base Vector StringUtil Print Filter Run Cli File Session Declare.
From Verif.Spec Require Import LinkClaims.
From Verif.Proofs Require Import Lists RegistryProofs ShortcutProofs SessionProofs SessionFacts ConfigProofs CliProofs CliFacts ProgramProofs DeclareProofs LinkProofs.
Local Open Scope list_scope.

Lemma sorted_equal (a : list text) : forall b, StronglySorted before a -> StronglySorted before b -> (forall x, In x a <-> In x b) -> a = b.
Proof.
  induction a as [|x a IH]; intros [|y b] A B E.
  - reflexivity.
  - destruct (proj2 (E y) (or_introl eq_refl)).
  - destruct (proj1 (E x) (or_introl eq_refl)).
  - apply StronglySorted_inv in A as [A FA]. apply StronglySorted_inv in B as [B FB]. rewrite Forall_forall in FA, FB.
    assert (x = y).
    { destruct (proj1 (E x) (or_introl eq_refl)) as [H|H]; [now symmetry|]. destruct (proj2 (E y) (or_introl eq_refl)) as [K|K]; [exact K|].
      exfalso. exact (before_irrefl x (before_trans _ _ _ (FA _ K) (FB _ H))). }
    subst y. f_equal. apply IH; auto. intros z. split; intros I.
    + destruct (proj1 (E z) (or_intror I)) as [<-|]; auto. exfalso. exact (before_irrefl x (FA _ I)).
    + destruct (proj2 (E z) (or_intror I)) as [<-|]; auto. exfalso. exact (before_irrefl x (FB _ I)).
Qed.

Lemma tags_exist mt (tests : list test_case) : Forall (fun t => exists tags, id_tags (t_id t) = tag_string tags /\ well_formed mt tags) tests ->
  exists tags, Forall2 (fun id t => id_tags id = tag_string t) (map t_id tests) tags /\ Forall (well_formed mt) tags.
Proof.
  induction 1 as [|t l (tags & E & W) _ (ls & F & G)]; [exists []; split; constructor|]. exists (tags :: ls). split; constructor; auto.
Qed.
Lemma tags_perm mm mt max tests tests' a b : Permutation tests tests' ->
  Forall (fun t => exists tags, id_tags (t_id t) = tag_string tags /\ well_formed mt tags) tests ->
  list_all_tags mm mt max (map t_id tests) = Ok a -> list_all_tags mm mt max (map t_id tests') = Ok b -> a = b.
Proof.
  intros P W A B. destruct (tags_exist _ _ W) as (tags & F & G). apply (Permutation_map t_id) in P.
  destruct (Permutation_Forall2 P F) as (tags' & Q & F'). assert (G' : Forall (well_formed mt) tags') by (eapply Permutation_Forall; eauto).
  destruct (list_eq_dec (list_eq_dec ascii_dec) a b) as [|N]; [assumption|exfalso].
  assert (X : ~ ~ after_plain (List.concat tags)) by (intros K; destruct (list_not_after_plain mm mt max _ _ F G K); congruence).
  assert (Y : ~ ~ after_plain (List.concat tags')) by (intros K; destruct (list_not_after_plain mm mt max _ _ F' G' K); congruence).
  apply X. intros X'. apply Y. intros Y'. apply N.
  destruct (list_after_plain mm mt max _ _ F G X') as (l & S1 & M1 & E1). destruct (list_after_plain mm mt max _ _ F' G' Y') as (l' & S2 & M2 & E2).
  rewrite A in E1. rewrite B in E2. assert (l = l').
  { apply sorted_equal; auto. intros x. rewrite M1, M2. split; intros (t & I & J); exists t; split; auto; [eapply Permutation_in; eauto|eapply Permutation_in; [apply Permutation_sym|]; eauto]. }
  subst l'. destruct (length l <=? max); congruence.
Qed.

Lemma impl_tags lm fuel r args tests' out s out' s' : Permutation (g_tests r) tests' ->
  Forall (fun t => exists tags, id_tags (t_id t) = tag_string tags /\ well_formed (l_max_tag_length lm) tags) (g_tests r) ->
  get_option args (lit "--list-tags") <> None ->
  run_tests_impl lm fuel r args = Ok (out, s) -> run_tests_impl lm fuel (with_tests tests' r) args = Ok (out', s') -> s' = s /\ alike_outputs out out'.
Proof.
  intros P W N R R'.
  destruct (get_option args (lit "--help")) eqn:H; [|destruct (get_option args (lit "--list-tests-with-tag")) eqn:T].
  1,2: destruct (impl_perm lm fuel r args tests' out s P) with (2 := R) as (o & E & A); [intros _; rewrite H, ?T; (now left) || (now right)|]; rewrite R' in E; injection E as -> ->; auto.
  unfold run_tests_impl in *. rewrite H, T in *. destruct (get_option args (lit "--list-tags")); [|contradiction]. cbn [g_tests with_tests] in *.
  destruct (list_all_tags _ _ _ (map t_id (g_tests r))) as [la|] eqn:A; cbn [bind] in R; [|discriminate].
  destruct (list_all_tags _ _ _ (map t_id tests')) as [lb|] eqn:B; cbn [bind] in R'; [|discriminate].
  rewrite (tags_perm _ _ _ _ _ _ _ P W A B) in *. injection R as <- <-. injection R' as <- <-. split; [reflexivity|now left].
Qed.

Lemma main_tags lm fuel can_open r r' path argv out code out' code' : relinked r r' -> length argv <= l_max_command_line_args lm ->
  Forall (fun t => exists tags, id_tags (t_id t) = tag_string tags /\ well_formed (l_max_tag_length lm) tags) (g_tests r) ->
  main lm fuel can_open r path argv = Ok (out, code) -> main lm fuel can_open r' path argv = Ok (out', code') ->
  code' = code /\ exists (before after : list output) (k : option nat) (events events' : list event),
    out = before ++ map (Reported k) events ++ after /\ out' = before ++ map (Reported k) events' ++ after /\
    (events = events' \/ same_but_order events events').
Proof.
  intros RL L W M M'. destruct (setting (read argv) (quote "--list-tags")) eqn:N.
  2:{ destruct (main_perm lm fuel can_open r r' path argv out code RL L N M) as (b & a & k & e & e' & o & E & H). rewrite M' in E. injection E as -> ->. split; [reflexivity|]. exists b, a, k, e, e'. exact H. }
  rewrite (relinked_with _ _ RL) in M'. destruct RL as (P & _). unfold main in *. destruct (parse_arguments (cli_of lm) path argv) as [[printed [args|]]|] eqn:PA; cbn [bind] in *; [| |discriminate].
  2:{ injection M as <- <-. injection M' as <- <-. split; [reflexivity|]. exists (map Printed printed), [], None, [], []. cbn [map app]. rewrite app_nil_r. auto. }
  rewrite configure_with in M'. destruct (configure lm can_open r args) as [[r1 out1]|] eqn:C; cbn [bind lift] in *; [|discriminate].
  destruct (parsed_options (cli_of lm) _ _ _ _ L PA) as [GO _]. specialize (GO (quote "--list-tags") ltac:(discriminate)). rewrite N in GO. change quote with lit in GO.
  assert (T : g_tests r1 = g_tests r).
  { pose proof (configure_with lm (g_tests r) can_open r args) as E. rewrite C in E. cbn [lift] in E. assert (X : with_tests (g_tests r) r = r) by now destruct r.
    rewrite X, C in E. injection E as E. rewrite E. reflexivity. }
  rewrite <- T in P, W. rewrite run_tests_impl_eq in M, M'.
  destruct (run_tests_impl lm fuel r1 args) as [[oa s]|] eqn:R; cbn [bind] in M; [|discriminate]. injection M as <- <-.
  destruct (run_tests_impl lm fuel (with_tests (g_tests r') r1) args) as [[ob s']|] eqn:R'; cbn [bind] in M'; [|discriminate]. injection M' as <- <-.
  destruct (impl_tags lm fuel r1 args _ oa s ob s' P W) as (-> & A); auto.
  { destruct (get_option args (lit "--list-tags")); discriminate. }
  change (closing (with_tests (g_tests r') r1)) with (closing r1). split; [reflexivity|].
  destruct A as [<-|(k & ev & ev' & B & -> & ->)].
  - exists (map Printed printed ++ out1 ++ oa), (closing r1), None, [], []. cbn [map app]. rewrite <- !app_assoc. auto.
  - exists (map Printed printed ++ out1), (closing r1), k, ev, ev'. rewrite <- !app_assoc. auto.
Qed.

Lemma declared_perm c max mn ds ds' : Permutation ds ds' -> Forall (declarable c) ds ->
  (forall tests, declare_all c max mn [] ds = Ok tests -> exists tests', declare_all c max mn [] ds' = Ok tests' /\ Permutation tests tests') /\
  (forall e, declare_all c max mn [] ds = Err e -> declare_all c max mn [] ds' = Err e).
Proof.
  intros P D. assert (D' : Forall (declarable c) ds') by (eapply Permutation_Forall; eauto).
  destruct (declared c max mn ds D) as [A B]. destruct (declared c max mn ds' D') as [A' B']. cbv zeta in *.
  pose proof (Permutation_flat_map instances P) as Q. set (l := flat_map instances ds) in *. set (l' := flat_map instances ds') in *.
  assert (X : forall m m' : list (instance prog), Permutation m m' -> length m <= max /\ Forall (fun i => 1 <= length (full_name_of (i_name i) (i_type i)) <= mn) m ->
    length m' <= max /\ Forall (fun i => 1 <= length (full_name_of (i_name i) (i_type i)) <= mn) m').
  { intros m m' PM [H1 H2]. rewrite <- (Permutation_length PM). split; [exact H1|]. eapply Permutation_Forall; eauto. }
  assert (DEC : (length l <= max /\ Forall (fun i => 1 <= length (full_name_of (i_name i) (i_type i)) <= mn) l) \/
    ~ (length l <= max /\ Forall (fun i => 1 <= length (full_name_of (i_name i) (i_type i)) <= mn) l)).
  { destruct (le_dec (length l) max) as [H|H]; [|right; tauto].
    assert (FD : forall i : instance prog, {1 <= length (full_name_of (i_name i) (i_type i)) <= mn} + {~ 1 <= length (full_name_of (i_name i) (i_type i)) <= mn}).
    2:{ destruct (Forall_dec _ FD l); [left|right]; tauto. }
    intros i. destruct (le_dec 1 (length (full_name_of (i_name i) (i_type i)))); [|right; lia]. destruct (le_dec (length (full_name_of (i_name i) (i_type i))) mn); [left|right]; lia. }
  destruct DEC as [H|H].
  - rewrite (A H), (A' (X _ _ Q H)). split; [|discriminate]. intros tests [= <-]. eexists. split; [reflexivity|]. now apply Permutation_map.
  - assert (H' : ~ (length l' <= max /\ Forall (fun i => 1 <= length (full_name_of (i_name i) (i_type i)) <= mn) l')) by (intros K; exact (H (X _ _ (Permutation_sym Q) K))).
    rewrite (B H), (B' H'). split; [discriminate|auto].
Qed.
