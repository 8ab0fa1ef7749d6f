(** Labels of captured expressions (C29). *)
From Verif.Spec Require Import TextSpec CaptureSpec.
From Verif.Model Require Import Base Capture.
From Verif.Proofs Require Import Lists.

(** The loop, character by character. *)
Fixpoint scan (s : str) (in_string in_char : bool) (parens : Z) : res (option nat) :=
  match s with
  | [] => Ok None
  | c :: s' =>
    let next a b p := do r <- scan s' a b p ;; Ok (option_map S r) in
    if aeqb c (ascii_of_nat 34) then next (if in_char then in_string else negb in_string) in_char parens
    else if aeqb c (ascii_of_nat 39) then next in_string (if in_string then in_char else negb in_char) parens
    else if aeqb c "("%char then
      if negb in_string && negb in_char then
        if (parens =? 2147483647)%Z then Err UB else next in_string in_char (parens + 1)%Z
      else next in_string in_char parens
    else if aeqb c ")"%char then
      if negb in_string && negb in_char then
        if (parens =? -2147483648)%Z then Err UB else next in_string in_char (parens - 1)%Z
      else next in_string in_char parens
    else if aeqb c ","%char then
      if negb in_string && negb in_char && (parens =? 0)%Z then Ok (Some 0) else next in_string in_char parens
    else next in_string in_char parens
  end.

Definition shift (k : nat) (r : res (option nat)) : res (option nat) := do p <- r ;; Ok (option_map (Nat.add k) p).

Lemma mark_cases c : existsb (aeqb c) marks = false ->
  aeqb c (ascii_of_nat 34) = false /\ aeqb c (ascii_of_nat 39) = false /\ aeqb c "("%char = false /\ aeqb c ")"%char = false /\ aeqb c ","%char = false.
Proof. unfold marks. cbn [existsb]. rewrite !orb_false_iff. intuition. Qed.

Lemma scan_skip c s a b p : existsb (aeqb c) marks = false -> scan (c :: s) a b p = shift 1 (scan s a b p).
Proof.
  intros H. apply mark_cases in H as (H1 & H2 & H3 & H4 & H5). cbn [scan]. rewrite H1, H2, H3, H4, H5. unfold shift. reflexivity.
Qed.

Lemma shift_0 r : shift 0 r = r.
Proof. destruct r as [[p|]|]; reflexivity. Qed.
Lemma shift_shift a b r : shift a (shift b r) = shift (a + b) r.
Proof. destruct r as [[p|]|]; unfold shift; cbn [bind option_map]; auto. do 2 f_equal. lia. Qed.

Lemma scan_find s : forall a b p, scan s a b p =
  match find_if (fun c => existsb (aeqb c) marks) s with None => Ok None | Some n => shift n (scan (skipn n s) a b p) end.
Proof.
  induction s as [|c s IH]; intros a b p; [reflexivity|]. cbn [find_if]. destruct (existsb (aeqb c) marks) eqn:M; [cbn [skipn]; now rewrite shift_0|].
  rewrite scan_skip, IH by exact M. destruct (find_if _ s) as [n|]; [|reflexivity]. cbn [skipn]. rewrite shift_shift. reflexivity.
Qed.

Lemma find_if_lt {A} (f : A -> bool) s n : find_if f s = Some n -> n < length s.
Proof.
  revert n. induction s as [|c s IH]; intros n; cbn [find_if]; [discriminate|]. destruct (f c); [intros [= <-]; cbn; lia|].
  destruct (find_if f s) as [m|]; [|discriminate]. intros [= <-]. specialize (IH m eq_refl). cbn. lia.
Qed.

Lemma skipn_twice {A} (s : list A) : forall k m, skipn m (skipn k s) = skipn (k + m) s.
Proof. induction s as [|c s IH]; intros [|k] m; cbn [skipn Nat.add]; auto; destruct m; reflexivity. Qed.

Lemma loop_scan names : forall n k a b p, k <= length names -> length names - k < n ->
  name_loop n names (find_set marks names k) a b p = shift k (scan (skipn k names) a b p).
Proof.
  induction n as [|n IH]; intros k a b p L F; [lia|]. rewrite scan_find. unfold find_set.
  destruct (find_if _ (skipn k names)) as [m|] eqn:E; [|reflexivity].
  pose proof (find_if_lt _ _ _ E) as LT. rewrite skipn_length in LT. rewrite skipn_twice.
  rewrite shift_shift. cbn [name_loop]. destruct (nth_error names (k + m)) as [c|] eqn:N; [|apply nth_error_None in N; lia].
  assert (X : skipn (k + m) names = c :: skipn (k + m + 1) names).
  { destruct (nth_error_split _ _ N) as (l1 & l2 & -> & <-). rewrite skipn_app, skipn_all, Nat.sub_diag. cbn [skipn app]. f_equal.
    replace (l1 ++ c :: l2) with ((l1 ++ [c]) ++ l2) by now rewrite <- app_assoc. replace (length l1 + 1) with (length (l1 ++ [c])) by (rewrite app_length; reflexivity).
    rewrite skipn_app, skipn_all, Nat.sub_diag. reflexivity. }
  rewrite X. cbn [scan].
  assert (R : forall a b p, name_loop n names (find_set marks names (k + m + 1)) a b p = shift (k + m) (do r <- scan (skipn (k + m + 1) names) a b p ;; Ok (option_map S r))).
  { intros. rewrite IH by lia. change (do r <- scan (skipn (k + m + 1) names) a0 b0 p0 ;; Ok (option_map S r)) with (shift 1 (scan (skipn (k + m + 1) names) a0 b0 p0)). now rewrite shift_shift. }
  repeat match goal with |- context [if ?x then _ else _] => destruct x end; rewrite ?R; unfold shift; cbn [bind option_map]; rewrite ?Nat.add_0_r; reflexivity.
Qed.

Lemma extract_scan names : extract_next_name names =
  do pos <- scan names false false 0%Z ;;
  match pos with Some p => Ok (trim (firstn p names) blanks, skipn (p + 1) names) | None => Ok (trim names blanks, []) end.
Proof. unfold extract_next_name. rewrite loop_scan by lia. cbn [skipn]. now rewrite shift_0. Qed.

(** ** Balanced texts *)
Lemma aeqb_neq a b : a <> b -> aeqb a b = false.
Proof. intros H. destruct (aeqb a b) eqn:E; [apply aeqb_eq in E; contradiction|reflexivity]. Qed.

Lemma scan_string q : forall rest p, ~ In double_quote q -> scan (q ++ rest) true false p = shift (length q) (scan rest true false p).
Proof.
  induction q as [|c q IH]; intros rest p NI; [now rewrite shift_0|]. cbn [app length]. change (S (length q)) with (1 + length q). rewrite <- shift_shift, <- IH by (intros X; apply NI; now right).
  cbn [scan]. rewrite (aeqb_neq c (ascii_of_nat 34)) by (intros ->; apply NI; now left). cbn [negb andb].
  repeat match goal with |- context [if ?x then _ else _] => destruct x end; reflexivity.
Qed.
Lemma scan_char q : forall rest p, ~ In single_quote q -> scan (q ++ rest) false true p = shift (length q) (scan rest false true p).
Proof.
  induction q as [|c q IH]; intros rest p NI; [now rewrite shift_0|]. cbn [app length]. change (S (length q)) with (1 + length q). rewrite <- shift_shift, <- IH by (intros X; apply NI; now right).
  cbn [scan]. destruct (aeqb c (ascii_of_nat 34)); [reflexivity|]. rewrite (aeqb_neq c (ascii_of_nat 39)) by (intros ->; apply NI; now left). cbn [negb andb].
  repeat match goal with |- context [if ?x then _ else _] => destruct x end; reflexivity.
Qed.

Lemma scan_balanced commas s : balanced commas s -> forall rest d, (0 <= d)%Z -> (commas = true -> 0 < d)%Z ->
  (d + Z.of_nat (length s) <= 2147483647)%Z -> scan (s ++ rest) false false d = shift (length s) (scan rest false false d).
Proof.
  induction 1 as [commas|commas c s P _ IH|s _ IH|commas q s NI _ IH|commas q s NI _ IH|commas s s' _ IH1 _ IH2]; intros rest d D0 DC L; cbn [length] in L.
  - now rewrite shift_0.
  - cbn [app length]. change (S (length s)) with (1 + length s). rewrite <- shift_shift, <- IH by (auto; lia). rewrite scan_skip; [reflexivity|].
    unfold plain in P. cbn [In] in P. unfold marks. cbn [existsb]. fold double_quote single_quote. rewrite !aeqb_neq by (intros ->; apply P; tauto). reflexivity.
  - cbn [app length]. change (S (length s)) with (1 + length s). rewrite <- shift_shift, <- IH by (auto; lia). specialize (DC eq_refl). cbn [scan]. cbn [aeqb].
    replace (aeqb "," (ascii_of_nat 34)) with false by reflexivity. replace (aeqb "," (ascii_of_nat 39)) with false by reflexivity. replace (aeqb "," "(") with false by reflexivity.
    replace (aeqb "," ")") with false by reflexivity. replace (aeqb "," ",") with true by reflexivity. cbn [negb andb]. destruct (Z.eqb_spec d 0); [lia|reflexivity].
  - cbn [app length]. rewrite app_length in *. cbn [length] in *. rewrite <- app_assoc. cbn [app scan].
    replace (aeqb double_quote (ascii_of_nat 34)) with true by reflexivity. cbn [negb].
    change (do r <- ?x ;; Ok (option_map S r)) with (shift 1 x). rewrite scan_string by exact NI. cbn [scan]. replace (aeqb double_quote (ascii_of_nat 34)) with true by reflexivity. cbn [negb].
    change (do r <- ?x ;; Ok (option_map S r)) with (shift 1 x). rewrite IH by (auto; lia). rewrite !shift_shift. f_equal. lia.
  - cbn [app length]. rewrite app_length in *. cbn [length] in *. rewrite <- app_assoc. cbn [app scan].
    replace (aeqb single_quote (ascii_of_nat 34)) with false by reflexivity. replace (aeqb single_quote (ascii_of_nat 39)) with true by reflexivity. cbn [negb].
    change (do r <- ?x ;; Ok (option_map S r)) with (shift 1 x). rewrite scan_char by exact NI. cbn [scan].
    replace (aeqb single_quote (ascii_of_nat 34)) with false by reflexivity. replace (aeqb single_quote (ascii_of_nat 39)) with true by reflexivity. cbn [negb].
    change (do r <- ?x ;; Ok (option_map S r)) with (shift 1 x). rewrite IH by (auto; lia). rewrite !shift_shift. f_equal. lia.
  - cbn [app length]. rewrite app_length in *. cbn [length] in *. rewrite <- app_assoc. cbn [app scan].
    replace (aeqb "(" (ascii_of_nat 34)) with false by reflexivity. replace (aeqb "(" (ascii_of_nat 39)) with false by reflexivity. replace (aeqb "(" "(") with true by reflexivity.
    cbn [negb andb]. destruct (Z.eqb_spec d 2147483647); [lia|].
    change (do r <- ?x ;; Ok (option_map S r)) with (shift 1 x). rewrite IH1 by (intros; lia). cbn [scan].
    replace (aeqb ")" (ascii_of_nat 34)) with false by reflexivity. replace (aeqb ")" (ascii_of_nat 39)) with false by reflexivity. replace (aeqb ")" "(") with false by reflexivity. replace (aeqb ")" ")") with true by reflexivity.
    cbn [negb andb]. destruct (Z.eqb_spec (d + 1) (-2147483648)); [lia|]. replace (d + 1 - 1)%Z with d by lia.
    change (do r <- ?x ;; Ok (option_map S r)) with (shift 1 x). rewrite IH2 by (auto; lia). rewrite !shift_shift. f_equal. lia.
Qed.

(** ** Trimming *)
Lemma blank_spec c : existsb (aeqb c) blanks = true <-> blank c.
Proof.
  unfold blanks, blank. rewrite existsb_exists. split.
  - intros (x & H & E). apply aeqb_eq in E. now subst.
  - intros H. exists c. split; [exact H|]. apply aeqb_eq. reflexivity.
Qed.

Lemma find_if_split {A} (f : A -> bool) s n : find_if f s = Some n -> exists a c b, s = a ++ c :: b /\ length a = n /\ f c = true /\ Forall (fun x => f x = false) a.
Proof.
  revert n. induction s as [|x s IH]; intros n; cbn [find_if]; [discriminate|]. destruct (f x) eqn:E.
  - intros [= <-]. exists [], x, s. auto.
  - destruct (find_if f s) as [m|]; [|discriminate]. intros [= <-]. destruct (IH m eq_refl) as (a & c & b & -> & <- & H1 & H2). exists (x :: a), c, b. repeat split; auto.
Qed.
Lemma find_if_none {A} (f : A -> bool) s : find_if f s = None -> Forall (fun x => f x = false) s.
Proof. induction s as [|x s IH]; cbn [find_if]; [auto|]. destruct (f x) eqn:E; [discriminate|]. destruct (find_if f s); [discriminate|]. auto. Qed.

Lemma trim_spec s : Exists (fun c => ~ blank c) s -> trimmed s (trim s blanks).
Proof.
  intros X. unfold trim. set (keep := fun c => negb (existsb (aeqb c) blanks)).
  assert (K1 : forall c, keep c = false -> blank c) by (intros c H; apply blank_spec; unfold keep in H; destruct (existsb _ _); [reflexivity|discriminate]).
  assert (K2 : forall c, keep c = true -> ~ blank c) by (intros c H B; apply blank_spec in B; unfold keep in H; rewrite B in H; discriminate).
  destruct (find_if keep s) as [n|] eqn:F.
  - destruct (find_if_split _ _ _ F) as (a & c & b & -> & <- & HC & HA). rewrite skipn_app, skipn_all, Nat.sub_diag. cbn [skipn app].
    unfold find_last_if. destruct (find_if keep (rev (c :: b))) as [m|] eqn:G.
    + destruct (find_if_split _ _ _ G) as (a' & c' & b' & E & LA & HC' & HA'). apply (f_equal (@rev _)) in E. rewrite rev_involutive, rev_app_distr in E. cbn [rev] in E. rewrite <- app_assoc in E. cbn [app] in E.
      rewrite E. rewrite !app_length, rev_length. cbn [length]. rewrite rev_length.
      replace (length (rev b' ++ c' :: rev a') - (length (rev b' ++ c' :: rev a') - (length (rev b' ++ c' :: rev a') - 1 - m) - 1)) with (length (rev b' ++ [c'])).
      2:{ rewrite !app_length. cbn [length]. rewrite !rev_length. lia. }
      match goal with |- trimmed _ (firstn ?k _) => replace k with (length (rev b' ++ [c'])) by (rewrite !app_length; cbn [length]; rewrite !rev_length; lia) end.
      replace (rev b' ++ c' :: rev a') with ((rev b' ++ [c']) ++ rev a') in * by (rewrite <- app_assoc; reflexivity).
      rewrite firstn_app, firstn_all, Nat.sub_diag. cbn [firstn]. rewrite app_nil_r.
      exists a, (rev a'). split; [reflexivity|]. split; [eapply Forall_impl; [|exact HA]; auto|]. split; [apply Forall_rev; eapply Forall_impl; [|exact HA']; auto|]. split.
      * destruct (rev b') as [|z zs]; cbn [app] in E; injection E as -> _; [exists c', []|exists z, (zs ++ [c'])]; split; auto.
      * exists c', (rev b'). auto.
    + exfalso. apply find_if_none in G. apply Forall_rev in G. rewrite rev_involutive in G. inversion G; subst. congruence.
  - exfalso. apply find_if_none in F. rewrite Exists_exists in X. destruct X as (c & Hc & NB). rewrite Forall_forall in F. apply NB, K1, F, Hc.
Qed.

(** ** Labels *)
Lemma extract_first a rest : balanced false a -> (Z.of_nat (length a) <= 2147483647)%Z ->
  extract_next_name (a ++ ","%char :: rest) = Ok (trim a blanks, rest).
Proof.
  intros B L. rewrite extract_scan, (scan_balanced _ _ B) by (try discriminate; lia). cbn [scan].
  replace (aeqb "," (ascii_of_nat 34)) with false by reflexivity. replace (aeqb "," (ascii_of_nat 39)) with false by reflexivity. replace (aeqb "," "(") with false by reflexivity.
  replace (aeqb "," ")") with false by reflexivity. replace (aeqb "," ",") with true by reflexivity. cbn [negb andb Z.eqb]. unfold shift. cbn [bind option_map]. rewrite Nat.add_0_r.
  rewrite firstn_app, firstn_all, Nat.sub_diag. cbn [firstn]. rewrite app_nil_r. do 2 f_equal.
  replace (a ++ ","%char :: rest) with ((a ++ [","%char]) ++ rest) by now rewrite <- app_assoc. replace (length a + 1) with (length (a ++ [","%char])) by (rewrite app_length; reflexivity).
  rewrite skipn_app, skipn_all, Nat.sub_diag. reflexivity.
Qed.
Lemma extract_last a : balanced false a -> (Z.of_nat (length a) <= 2147483647)%Z -> extract_next_name a = Ok (trim a blanks, []).
Proof.
  intros B L. rewrite extract_scan. pose proof (scan_balanced _ _ B [] 0) as E. rewrite app_nil_r in E. rewrite E by (try discriminate; lia). reflexivity.
Qed.

Lemma labels args values : length args = length values ->
  Forall (fun a => balanced false a /\ (Z.of_nat (length a) <= 2147483647)%Z /\ Exists (fun c => ~ blank c) a) args ->
  exists names, Forall2 trimmed args names /\
    capture_texts (joined args) values = Ok (map (fun x => [fst x; lit " := "; snd x]) (List.combine names values)).
Proof.
  revert values. induction args as [|a args IH]; intros [|v values] L F; try discriminate; [exists []; auto|].
  inversion F as [|? ? (B & LE & X) F']; subst. injection L as L. destruct (IH values L F') as (names & N & C). exists (trim a blanks :: names). split; [constructor; [now apply trim_spec|exact N]|].
  cbn [capture_texts List.combine map fst snd]. destruct args as [|a' args].
  - cbn [joined]. rewrite extract_last by assumption. cbn [bind]. destruct values; [|discriminate]. inversion N; subst. reflexivity.
  - change (joined (a :: a' :: args)) with (a ++ ","%char :: joined (a' :: args)). rewrite extract_first by assumption. cbn [bind]. rewrite C. reflexivity.
Qed.

(** Trimming is determined. *)
Lemma trimmed_unique s t t' : trimmed s t -> trimmed s t' -> t = t'.
Proof.
  assert (PRE : forall a b c s x y, a ++ b = c ++ s -> Forall blank a -> Forall blank c -> b = x :: y -> ~ blank x -> (exists x' y', s = x' :: y' /\ ~ blank x') -> a = c).
  { induction a as [|z a IH]; intros b c s0 x y E FA FC EB NB (x' & y' & ES & NB').
    - destruct c as [|w c]; [reflexivity|]. exfalso. subst. cbn in E. injection E as -> _. inversion FC; subst. contradiction.
    - destruct c as [|w c]; [exfalso; subst s0; cbn in E; injection E as -> _; inversion FA; subst; contradiction|]. cbn in E. injection E as -> E. f_equal. inversion FA; inversion FC; subst. eapply IH; eauto. }
  intros (b & e & E & B1 & B2 & (c & t1 & T1 & N1) & (d & t2 & T2 & N2)) (b' & e' & E' & B1' & B2' & (c' & t1' & T1' & N1') & (d' & t2' & T2' & N2')).
  assert (EB : b = b').
  { rewrite E in E'. apply (PRE b (t ++ e) b' (t' ++ e') c (t1 ++ e) E' B1 B1'); [rewrite T1; reflexivity|exact N1|]. exists c', (t1' ++ e'). rewrite T1'. auto. }
  subst b'. rewrite E in E'. apply app_inv_head in E'.
  assert (EE : rev e = rev e').
  { apply (f_equal (@rev _)) in E'. rewrite !rev_app_distr in E'. apply (PRE (rev e) (rev t) (rev e') (rev t') d (rev t2) E'); auto using Forall_rev.
    - rewrite T2, rev_app_distr. reflexivity.
    - exists d', (rev t2'). rewrite T2', rev_app_distr. auto. }
  apply (f_equal (@rev _)) in EE. rewrite !rev_involutive in EE. subst e'. now apply app_inv_tail in E'.
Qed.

(** ** What the splitting does not know *)
Lemma digit_separator : capture_texts (lit "1'000, b") [lit "1000"; lit "2"] =
  Ok [[lit "1'000, b"; lit " := "; lit "1000"]; [[]; lit " := "; lit "2"]].
Proof. vm_compute. reflexivity. Qed.
Lemma braces : capture_texts (lit "f{1, 2}, b") [lit "3"; lit "4"] =
  Ok [[lit "f{1"; lit " := "; lit "3"]; [lit "2}"; lit " := "; lit "4"]].
Proof. vm_compute. reflexivity. Qed.
Lemma escaped_quote : let q := [ascii_of_nat 34] in let literal := q ++ lit "\" ++ q ++ q in
  capture_texts (literal ++ lit ", b") [lit "1"; lit "2"] =
  Ok [[literal ++ lit ", b"; lit " := "; lit "1"]; [[]; lit " := "; lit "2"]].
Proof. vm_compute. reflexivity. Qed.
Lemma template_arguments : capture_texts (lit "f<1, 2>(), b") [lit "3"; lit "4"] =
  Ok [[lit "f<1"; lit " := "; lit "3"]; [lit "2>()"; lit " := "; lit "4"]].
Proof. vm_compute. reflexivity. Qed.
