From Coq Require Import Lia.
From Verif.Spec Require Import TextSpec FilterSpec CliSpec Events DeclareSpec.
From Verif.Model Require Import Base Vector StringUtil Filter Run Declare.
From Verif.Proofs Require Import Lists VectorProofs AppendProofs ReplaceProofs FilterProofs RegistryProofs.
Local Open Scope list_scope.

(** ** Names of types *)

Lemma find_at p a b : first_at p a -> find (a ++ p ++ b) p = Some (length a).
Proof.
  intros F. destruct (find (a ++ p ++ b) p) eqn:E.
  - destruct (find_first _ _ _ E) as (a' & b' & Q & <- & F'). destruct (first_at_unique p a a' b b' F F' Q) as [-> _]. reflexivity.
  - apply find_none_occurs in E. destruct E. now exists a, b.
Qed.

Definition borders (p : text) : bool :=
  existsb (fun k => seqb (firstn k p) (skipn (length p - k) p)) (seq 1 (length p - 1)).

Lemma no_border p m n b : borders p = false -> p = n ++ m -> p = m ++ b -> m = [] \/ b = [].
Proof.
  intros B E1 E2. destruct m as [|x m]; [auto|]. destruct b as [|y b]; [auto|]. exfalso.
  assert (T : borders p = true); [|congruence]. unfold borders. apply existsb_exists. exists (length (x :: m)). split.
  - apply in_seq. rewrite E2, app_length. cbn. lia.
  - apply seqb_eq. rewrite E2 at 1. rewrite firstn_app, firstn_all, Nat.sub_diag, firstn_O, app_nil_r. rewrite E1, app_length. replace (length n + length (x :: m) - length (x :: m)) with (length n) by lia.
    rewrite skipn_app, skipn_all, Nat.sub_diag. reflexivity.
Qed.

Lemma absent_first p a : borders p = false -> ~ occurs p a -> first_at p a.
Proof.
  intros B O a' b' E. destruct b' as [|y b']; [reflexivity|]. exfalso.
  assert (L : length a = length a' + length (y :: b')). { apply (f_equal (@length _)) in E. rewrite !app_length in E. lia. }
  destruct (le_lt_dec (length (a' ++ p)) (length a)) as [H|H].
  - rewrite app_assoc in E. symmetry in E. destruct (app_prefix_le (a' ++ p) (y :: b') a p E H) as (m & Q & _). apply O. exists a', m. now rewrite Q, <- app_assoc.
  - rewrite app_assoc in E. destruct (app_prefix_le a p (a' ++ p) (y :: b') E) as (m & Q & Q2); [lia|].
    destruct (app_prefix_le a' p a m Q) as (n & Q3 & Q4); [cbn in L; lia|].
    destruct (no_border p m n (y :: b') B Q4 Q2) as [->|K]; [|discriminate]. rewrite app_nil_r in Q. rewrite Q in H. lia.
Qed.

Lemma prefix_found c rest : find (before_type c ++ rest) (type_prefix c) = Some (length (before_type c) - length (type_prefix c)).
Proof. destruct c; reflexivity. Qed.

Lemma suffix_found c rest : find (before_type c ++ rest) (type_suffix c) = match find rest (type_suffix c) with Some n => Some (length (before_type c) + n) | None => None end.
Proof. destruct c; simpl; match goal with |- context [find rest ?p] => destruct (find rest p); reflexivity end. Qed.

Lemma type_cut c a rest : first_at (ender c) a -> get_type_name (type_prefix c) (type_suffix c) (before_type c ++ a ++ ender c ++ rest) = Ok a.
Proof.
  intros F. unfold get_type_name. rewrite prefix_found. cbn [bind]. rewrite suffix_found.
  change (type_suffix c) with (ender c). rewrite (find_at _ _ _ F).
  replace (length (before_type c) - length (type_prefix c) + length (type_prefix c)) with (length (before_type c)) by (destruct c; reflexivity).
  rewrite csub_ok by lia. cbn [bind]. unfold substr. rewrite skipn_app, skipn_all, Nat.sub_diag. cbn [app skipn].
  replace (length (before_type c) + length a - length (before_type c)) with (length a) by lia.
  now rewrite firstn_app, firstn_all, Nat.sub_diag, firstn_O, app_nil_r.
Qed.

Definition after_ender (c : compiler) : text := skipn (length (ender c)) (after_type c).
Lemma after_type_ender c : after_type c = ender c ++ after_ender c.
Proof. destruct c; reflexivity. Qed.

Lemma ender_borders c : borders (ender c) = false.
Proof. destruct c; reflexivity. Qed.

Theorem type_exact c type : ~ occurs (ender c) type -> type_name c type = Ok type.
Proof. intros O. unfold type_name, signature. rewrite after_type_ender. apply type_cut. apply absent_first; [apply ender_borders|exact O]. Qed.

Theorem type_truncated c a b : first_at (ender c) a -> type_name c (a ++ ender c ++ b) = Ok a.
Proof. intros F. unfold type_name, signature. rewrite <- !app_assoc. now apply type_cut. Qed.

Lemma occurs_first p s : occurs p s -> exists a b, s = a ++ p ++ b /\ first_at p a.
Proof.
  intros O. destruct (find s p) eqn:E.
  - destruct (find_first _ _ _ E) as (a & b & Q & _ & F). eauto.
  - now apply find_none_occurs in E.
Qed.

Theorem type_exact_iff c type : type_name c type = Ok type <-> ~ occurs (ender c) type.
Proof.
  split; [|apply type_exact]. intros E O. destruct (occurs_first _ _ O) as (a & b & -> & F). rewrite (type_truncated _ _ _ F) in E.
  injection E as E. apply (f_equal (@length _)) in E. rewrite !app_length in E. destruct c; cbn in E; lia.
Qed.

(** ** Declarations *)
Section Declare.
Variable c : compiler.
Variable max mn : nat.

Definition case_of (i : instance prog) : test_case := mktest (mkid (i_name i) (i_tags i) (i_type i) (i_fixture i)) (i_line i) (i_body i).

Fixpoint add_cases (tests l : list test_case) : res (list test_case) :=
  match l with
  | [] => Ok tests
  | t :: l' => do tests1 <- add_impl max mn tests (t_id t) (t_line t) (t_body t) ;; add_cases tests1 l'
  end.
Lemma add_cases_app tests a b : add_cases tests (a ++ b) = do tests1 <- add_cases tests a ;; add_cases tests1 b.
Proof. revert tests; induction a as [|t a IH]; intros tests; cbn [app add_cases bind]; [reflexivity|]. destruct (add_impl _ _ _ _ _ _); cbn [bind]; auto. Qed.

Lemma add_impl_spec tests id line body : length tests <= max ->
  add_impl max mn tests id line body = if (length tests <? max) && RegistryProofs.acceptable mn id then Ok (tests ++ [mktest id line body]) else Err Assert.
Proof.
  intros L. unfold add_impl, RegistryProofs.acceptable. rewrite csub_ok by auto. cbn [bind].
  destruct (Nat.ltb_spec (length tests) max), (Nat.eqb_spec (max - length tests) 0); try lia; auto.
  rewrite make_full_name_spec. cbn [bind]. set (full := full_name_of _ _).
  destruct (Nat.leb_spec (length full) mn); rewrite ?andb_false_r; auto.
  destruct full; cbn; auto.
Qed.

Lemma add_cases_spec l : forall tests, length tests <= max ->
  add_cases tests l =
  if (length (tests ++ l) <=? max) && forallb (fun t => RegistryProofs.acceptable mn (t_id t)) l then Ok (tests ++ l) else Err Assert.
Proof.
  induction l as [|[id line body] l IH]; intros tests L; cbn [add_cases forallb].
  - rewrite app_nil_r. destruct (Nat.leb_spec (length tests) max); auto; lia.
  - cbn [t_id t_line t_body]. rewrite add_impl_spec by auto. rewrite app_length. cbn [length].
    destruct (Nat.ltb_spec (length tests) max); cbn [andb].
    + destruct (RegistryProofs.acceptable mn id) eqn:A; cbn [andb bind].
      * rewrite IH. 2: { rewrite app_length. cbn. lia. } rewrite <- app_assoc. cbn [app].
        rewrite app_length. cbn [length]. reflexivity.
      * now rewrite andb_false_r.
    + destruct (Nat.leb_spec (length tests + S (length l)) max); auto; lia.
Qed.

Lemma add_each_cases f types line body fixture name tags : (forall t, f t = mkid name tags t fixture) -> Forall (fun t => ~ occurs (ender c) t) types -> forall tests,
  add_each c max mn tests f types line body = add_cases tests (map case_of (map (fun t => mkinstance _ name tags t fixture line (body t)) types)).
Proof.
  intros Hf. induction 1 as [|t types O _ IH]; intros tests; cbn [add_each map add_cases]; [reflexivity|].
  rewrite (type_exact c t O). cbn [bind case_of t_id t_line t_body i_name i_tags i_type i_fixture i_line i_body]. rewrite Hf.
  destruct (add_impl _ _ _ _ _ _); cbn [bind]; auto.
Qed.

Lemma declare_cases tests d : declarable c d -> declare c max mn tests d = add_cases tests (map case_of (instances d)).
Proof.
  intros D. destruct d; cbn [declare instances]; try (destruct (D _ eq_refl) as [N O]).
  - cbn. unfold add. destruct (add_impl _ _ _ _ _ _); reflexivity.
  - unfold add_with_types. destruct types; [now destruct N|]. now apply add_each_cases.
  - unfold add_with_type_list, add_with_types. destruct types; [now destruct N|]. now apply add_each_cases.
  - cbn. unfold add_fixture. destruct (add_impl _ _ _ _ _ _); reflexivity.
  - unfold add_fixture_with_types. destruct types; [now destruct N|]. now apply add_each_cases.
  - unfold add_fixture_with_type_list, add_fixture_with_types. destruct types; [now destruct N|]. now apply add_each_cases.
Qed.

Lemma declare_all_cases ds : Forall (declarable c) ds -> forall tests, declare_all c max mn tests ds = add_cases tests (map case_of (flat_map instances ds)).
Proof.
  induction 1 as [|d ds D _ IH]; intros tests; cbn [declare_all flat_map map]; [reflexivity|].
  rewrite map_app, add_cases_app, (declare_cases _ _ D). destruct (add_cases tests _); cbn [bind]; auto.
Qed.

Theorem declared ds : Forall (declarable c) ds ->
  let l := flat_map instances ds in
  (length l <= max /\ Forall (fun i => 1 <= length (full_name_of (i_name i) (i_type i)) <= mn) l ->
   declare_all c max mn [] ds = Ok (map case_of l)) /\
  (~ (length l <= max /\ Forall (fun i => 1 <= length (full_name_of (i_name i) (i_type i)) <= mn) l) ->
   declare_all c max mn [] ds = Err Assert).
Proof.
  intros D l. rewrite (declare_all_cases _ D). fold l. rewrite add_cases_spec by (cbn; lia). cbn [app]. rewrite map_length.
  assert (A : forallb (fun t => RegistryProofs.acceptable mn (t_id t)) (map case_of l) = true <-> Forall (fun i => 1 <= length (full_name_of (i_name i) (i_type i)) <= mn) l).
  { rewrite forallb_forall, Forall_forall. split.
    - intros H i I. specialize (H (case_of i) (in_map _ _ _ I)). unfold RegistryProofs.acceptable in H. apply andb_true_iff in H as [H1 H2].
      apply Nat.leb_le in H1, H2. cbn in H1, H2. lia.
    - intros H t I. apply in_map_iff in I as (i & <- & I). specialize (H i I). unfold RegistryProofs.acceptable. apply andb_true_iff. split; apply Nat.leb_le; cbn; lia. }
  split.
  - intros [L F]. apply A in F. rewrite F. apply Nat.leb_le in L. now rewrite L.
  - intros N. destruct (Nat.leb_spec (length l) max); [|reflexivity]. destruct (forallb _ _); [|reflexivity]. destruct N. split; [assumption|]. now apply A.
Qed.
End Declare.

(** ** Filters that stand for themselves *)
Lemma escaped_cons x s : escaped (x :: s) = (if in_dec ascii_dec x special then [bslash; x] else [x]) ++ escaped s.
Proof. reflexivity. Qed.
Lemma escaped_app a b : escaped (a ++ b) = escaped a ++ escaped b.
Proof. unfold escaped. apply flat_map_app. Qed.
Lemma bslash_special : In bslash special.
Proof. cbn. tauto. Qed.

Lemma nth_middle {A} (a b : list A) i : length a = i -> nth_error (a ++ b) i = hd_error b.
Proof. intros <-. rewrite nth_error_app2, Nat.sub_diag by lia. destruct b; reflexivity. Qed.

Lemma starts_escaped s i : starts_at (escaped s) i -> exists a b, s = a ++ b /\ length (escaped a) = i.
Proof.
  remember (escaped s) as e eqn:Q. induction 1 as [|i c H IH N NB|i c H IH N N2]; [now exists [], s| |].
  - destruct IH as (a & b & -> & L). subst e. rewrite escaped_app, (nth_middle _ _ _ L) in N. destruct b as [|x b]; [discriminate|]. rewrite escaped_cons in N.
    destruct (in_dec ascii_dec x special) as [S|S] eqn:D; cbn [app hd_error] in N; [injection N as <-; now destruct NB|].
    exists (a ++ [x]), b. rewrite <- app_assoc. split; [reflexivity|]. rewrite escaped_app, app_length, L, escaped_cons, D. cbn. lia.
  - destruct IH as (a & b & -> & L). subst e. rewrite escaped_app, (nth_middle _ _ _ L) in N. destruct b as [|x b]; [discriminate|]. rewrite escaped_cons in N.
    destruct (in_dec ascii_dec x special) as [S|S] eqn:D; cbn [app hd_error] in N; [|injection N as ->; destruct S; exact bslash_special].
    exists (a ++ [x]), b. rewrite <- app_assoc. split; [reflexivity|]. rewrite escaped_app, app_length, L, escaped_cons, D. cbn. lia.
Qed.

Lemma escaped_hides s c i : In c special -> ~ unescaped_at (escaped s) c i.
Proof.
  intros S (H & N & NB). destruct (starts_escaped _ _ H) as (a & b & -> & L). rewrite escaped_app, (nth_middle _ _ _ L) in N.
  destruct b as [|x b]; [discriminate|]. rewrite escaped_cons in N. destruct (in_dec ascii_dec x special) as [S'|S']; cbn [app hd_error] in N; injection N as N; subst; auto.
Qed.

Lemma escaped_tokens s : tokens (escaped s) = Some (map Lit s).
Proof.
  induction s as [|x s IH]; [reflexivity|]. rewrite escaped_cons. destruct (in_dec ascii_dec x special) as [S|S]; cbn [app tokens map].
  - change (Ascii.eqb bslash bslash) with true. cbn iota. now rewrite IH.
  - rewrite IH. destruct (Ascii.eqb_spec x bslash) as [->|]; [now destruct S; exact bslash_special|].
    destruct (Ascii.eqb_spec x "*"%char) as [->|]; [|reflexivity]. destruct S. cbn. tauto.
Qed.

Lemma glob_literal s x : glob (map Lit s) x <-> x = s.
Proof.
  revert x; induction s as [|c s IH]; intros x; cbn [map]; split.
  - inversion 1; reflexivity.
  - intros ->. constructor.
  - inversion 1; subst. f_equal. now apply IH.
  - intros ->. constructor. now apply IH.
Qed.

Lemma escaped_nil s : escaped s = [] -> s = [].
Proof. destruct s as [|x s]; [reflexivity|]. rewrite escaped_cons. destruct (in_dec _ _ _); discriminate. Qed.

Lemma escaped_matches s name : s <> [] -> (matches (escaped s) name <-> name = s).
Proof.
  intros N. unfold matches. rewrite escaped_tokens. split.
  - intros [E|(ts & [= <-] & G)]; [now apply escaped_nil in E|now apply glob_literal].
  - intros ->. right. exists (map Lit s). split; [reflexivity|now apply glob_literal].
Qed.

Lemma escaped_head s c : In c special -> c <> bslash -> hd_error (escaped s) <> Some c.
Proof.
  intros S NB. destruct s as [|x s]; [discriminate|]. rewrite escaped_cons. destruct (in_dec ascii_dec x special) as [S'|S']; cbn; intros [= <-]; auto.
Qed.

Lemma escaped_plain s : s <> [] -> about_tags (escaped s) = false /\ negated (escaped s) = false /\ dashed (escaped s) = false.
Proof.
  intros N. destruct (escaped s) as [|x e] eqn:E; [now apply escaped_nil in E|].
  assert (H : forall c, In c special -> c <> bslash -> x <> c).
  { intros c S B ->. apply (escaped_head s c S B). now rewrite E. }
  assert (H1 : x <> "["%char) by (apply H; [cbn; tauto|discriminate]). assert (H2 : x <> "~"%char) by (apply H; [cbn; tauto|discriminate]).
  assert (H3 : x <> "-"%char) by (apply H; [cbn; tauto|discriminate]).
  cbn [about_tags negated dashed]. apply Ascii.eqb_neq in H1, H2. rewrite H1, H2. repeat split. unfold same_text. destruct (list_eq_dec _ _ _) as [Q|]; [|reflexivity].
  injection Q as Q. contradiction.
Qed.

Theorem escaped_selects name tags s : s <> [] -> (selected name tags [escaped s] <-> name = s).
Proof.
  intros N. destruct (escaped_plain s N) as (T & G & _).
  assert (C : split_commas (escaped s) [escaped s]) by (constructor; intros i; apply escaped_hides; cbn; tauto).
  assert (M : name_holds name (escaped s) <-> name = s) by (unfold name_holds, holds; rewrite G; now apply escaped_matches).
  assert (FH : filter_holds name tags (escaped s) <-> name = s).
  { unfold filter_holds. split.
    - intros H. specialize (H _ C). inversion H as [? ? K|? ? K]; [|inversion K]. unfold single_holds in K. rewrite T in K. now apply M.
    - intros E l L. rewrite <- (split_commas_unique _ _ C _ L). left. unfold single_holds. rewrite T. now apply M. }
  unfold selected. split.
  - intros [F _]. inversion F as [|? ? K _]. now apply FH.
  - intros E. split; [constructor; [now apply FH|constructor]|]. intros _. left. intros l L. rewrite <- (split_commas_unique _ _ C _ L). left.
    unfold single_positively. rewrite T. split; [now apply M|exact G].
Qed.

Theorem escaped_argument s rest : s <> [] -> read (escaped s :: rest) = Filtering (escaped s) :: read rest.
Proof. intros N. cbn [read]. destruct (escaped_plain s N) as (_ & _ & D). now rewrite D. Qed.

Theorem type_names c type :
  (type_name c type = Ok type <-> ~ occurs (ender c) type) /\
  (forall a b, type = a ++ ender c ++ b -> first_at (ender c) a -> type_name c type = Ok a).
Proof. split; [apply type_exact_iff|]. intros a b -> F. now apply type_truncated. Qed.

Theorem type_names_refuted c : exists type type', type <> type' /\ type_name c type <> Ok type /\ type_name c type = type_name c type'.
Proof.
  destruct c.
  - exists (quote "int[3]"), (quote "int[3][4]"). repeat split; vm_compute; congruence.
  - exists (quote "f() [with T = int; U = char]::local"), (quote "f() [with T = int; U = int]::local"). repeat split; vm_compute; congruence.
  - exists (quote "class vec<int>(void)"), (quote "class vec<int>(void) const"). repeat split; vm_compute; congruence.
Qed.
