(** What printed numbers are read as, and comparisons of floating-point numbers in checks (C97). *)
From Coq Require Import ZArith NArith QArith Lqa Lia List Ascii.
From Verif.Spec Require Import TextSpec NumberSpec FloatSpec FilterSpec ExpressionSpec ValueSpec OrderSpec.
From Verif.Model Require Import Base Vector StringUtil Integer Fixed FloatText Values Expression Comparison.
From Verif.Proofs Require Import Lists VectorProofs AppendProofs IntegerProofs ExpressionProofs ValueProofs FixedProofs FloatProofs FloatTextProofs OrderProofs OrderText ComparisonProofs.
Import ListNotations.

(** ** A text is read as one number *)
Lemma read_start acc c s n : read 10 acc (c :: s) = Some n -> exists k, digit_value c = Some k /\ (k < 10)%N.
Proof. cbn [read]. destruct (digit_value c) as [k|]; [|discriminate]. destruct (N.ltb_spec k 10); [eauto|discriminate]. Qed.
Lemma read_until_e s : forall s' acc acc' n n' t t', read 10 acc s = Some n -> read 10 acc' s' = Some n' -> s ++ "e"%char :: t = s' ++ "e"%char :: t' -> s = s' /\ t = t'.
Proof.
  induction s as [|c s IH]; intros [|c' s'] acc acc' n n' t t' R R' E; cbn [app] in E.
  - injection E as <-. auto.
  - injection E as <- _. destruct (read_start _ _ _ _ R') as (k & D & L). vm_compute in D. injection D as <-. vm_compute in L. discriminate.
  - injection E as -> _. destruct (read_start _ _ _ _ R) as (k & D & L). vm_compute in D. injection D as <-. vm_compute in L. discriminate.
  - injection E as <- E. cbn [read] in R, R'. destruct (digit_value c) as [k|]; [|discriminate]. destruct (k <? 10)%N; [|discriminate]. destruct (IH _ _ _ _ _ _ _ R R' E) as (-> & ->). auto.
Qed.
Lemma digit_not c s n : read 10 0 (c :: s) = Some n -> c <> "-"%char /\ c <> "."%char /\ c <> "i"%char.
Proof. intros R. destruct (read_start _ _ _ _ R) as (k & D & L). repeat split; intros ->; vm_compute in D; discriminate. Qed.
Lemma scientific_one p s d x p' s' d' x' t : scientific p s d x t -> scientific p' s' d' x' t -> p = p' /\ s = s' /\ d = d' /\ x = x'.
Proof.
  intros (c & r & ex & E & L & R & RX & _) (c' & r' & ex' & E' & L' & R' & RX' & _). pose proof (digit_not _ _ _ R) as (N & N2 & _). pose proof (digit_not _ _ _ R') as (N' & N2' & _).
  assert (s = s' /\ c :: "."%char :: r ++ "e"%char :: (if (x <? 0)%Z then "-"%char else "+"%char) :: ex = c' :: "."%char :: r' ++ "e"%char :: (if (x' <? 0)%Z then "-"%char else "+"%char) :: ex') as (-> & E2).
  { rewrite E in E'. destruct s, s'; cbn [app] in E'; [apply (f_equal (@tl ascii)) in E'; cbn [tl] in E'; split; [reflexivity|exact E']| | |split; [reflexivity|exact E']]; exfalso; injection E' as X _; congruence. }
  injection E2 as <- E2. assert (RR : exists a, read 10 a r = Some d) by (cbn [read] in R; destruct (digit_value c) as [k|]; [|discriminate]; destruct (k <? 10)%N; [eauto|discriminate]).
  assert (RR' : exists a, read 10 a r' = Some d') by (cbn [read] in R'; destruct (digit_value c) as [k|]; [|discriminate]; destruct (k <? 10)%N; [eauto|discriminate]).
  destruct RR as (a & RR). destruct RR' as (a' & RR'). destruct (read_until_e _ _ _ _ _ _ _ _ RR RR' E2) as (<- & E3). injection E3 as SX <-. split; [congruence|]. split; auto. split; [congruence|].
  rewrite RX in RX'. injection RX' as AX. destruct (Z.ltb_spec x 0), (Z.ltb_spec x' 0); try discriminate; lia.
Qed.
Lemma same_refl x : same x x.
Proof. split; destruct x; cbn; auto; apply Qle_refl. Qed.
Theorem read_once t x y : reads t x -> reads t y -> same x y.
Proof.
  assert (I : forall p s d e, ~ scientific p s d e ["i"; "n"; "f"]%char) by (intros p s d e (c & r & ex & E & _ & R & _); destruct s; cbn [app] in E; injection E; intros; congruence).
  assert (M : forall p s d e, ~ scientific p s d e ["-"; "i"; "n"; "f"]%char).
  { intros p s d e (c & r & ex & E & _ & R & _). pose proof (digit_not _ _ _ R) as (N & _ & N2). destruct s; cbn [app] in E; injection E; intros; congruence. }
  intros H H'. inversion H; subst; inversion H'; subst; try apply same_refl; try (exfalso; now apply (I p s d x0)) || (exfalso; now apply (M p s d x0)) || idtac; try (exfalso; eapply I; eassumption); try (exfalso; eapply M; eassumption).
  match goal with A : scientific _ _ _ _ t, B : scientific _ _ _ _ t |- _ => destruct (scientific_one _ _ _ _ _ _ _ _ _ A B) as (<- & <- & <- & <-) end. split; cbn [at_most]; lra.
Qed.

(** ** Checks *)
Definition without_to_chars (ev : evaluation) : Prop := ev = AtCompileTime \/ exists g1 g2, ev = AtRunTime None g1 g2.

Lemma view_appends ev ss s : wf ss -> appends ss (append_view ev ss s) s.
Proof. intros W. destruct ev; cbn [append_view]; [now apply appended_constexpr|]. rewrite <- append_constexpr_eq by auto. now apply appended_constexpr. Qed.

Lemma joined ss s1 b1 s2 b2 T1 op T2 r : wf ss ->
  appended ss T1 (Ok (s1, b1)) -> appended s1 op (Ok (s2, b2)) -> appended s2 T2 r ->
  appended ss (T1 ++ op ++ T2) (if b1 then if b2 then do (s3, ok) <- r ;; if ok : bool then Ok (s3, true) else Ok (s3, false) else Ok (s2, false) else Ok (s1, false)).
Proof.
  intros W A1 A2 A3. assert (E : (do (s3, ok) <- r ;; if ok : bool then Ok (s3, true) else Ok (s3, false)) = r) by (destruct r as [(s3 & [|])|]; reflexivity). rewrite E. clear E.
  destruct A1 as (s1' & b1' & E1 & W1 & C1 & K1 & B1). injection E1 as <- <-. destruct A2 as (s2' & b2' & E2 & W2 & C2 & K2 & B2). injection E2 as <- <-. destruct A3 as (s3 & b3 & -> & W3 & C3 & K3 & B3).
  unfold appended. rewrite !app_assoc. destruct (Nat.leb_spec (length (vcontent ss ++ T1)) (vcap ss)) as [L1|L1]; subst b1.
  - rewrite firstn_all2 in K1 by lia. rewrite K1, C1 in *. destruct (Nat.leb_spec (length ((vcontent ss ++ T1) ++ op)) (vcap ss)) as [L2|L2]; subst b2.
    + rewrite firstn_all2 in K2 by lia. rewrite K2, C2 in *. exists s3, b3. auto.
    + exists s2, false. split; [reflexivity|]. split; auto. split; auto. split; [rewrite K2; now rewrite (firstn_app_le _ ((vcontent ss ++ T1) ++ op)) by lia|symmetry; apply Nat.leb_gt; rewrite (app_length ((vcontent ss ++ T1) ++ op)); lia].
  - exists s1, false. split; [reflexivity|]. split; auto. split; auto. split; [rewrite K1, <- app_assoc; now rewrite (firstn_app_le _ (vcontent ss ++ T1)) by lia|symmetry; apply Nat.leb_gt; rewrite !app_length in *; lia].
Qed.

Definition kind (make : Z -> value) (f : format) : Prop := make = Float /\ f = binary32 \/ make = Double /\ f = binary64.

Lemma message ev make f ss op bits1 bits2 x1 x2 : without_to_chars ev -> kind make f -> wf ss -> pattern f bits1 -> pattern f bits2 ->
  number_value (number_of f bits1) = Some x1 -> number_value (number_of f bits2) = Some x2 ->
  exists T1 y1 T2 y2, appended ss (T1 ++ op ++ T2) (append_values ev ss [make bits1; View op; make bits2]) /\ reads T1 y1 /\ reads T2 y2 /\
    (at_most x1 x2 -> at_most y1 y2) /\ (at_most x2 x1 -> at_most y2 y1).
Proof.
  intros EV KD W P1 P2 V1 V2.
  assert (H : exists t, known t f /\ forall ss bits, append_built_in ev ss (make bits) = append_float t ss bits (t_precision t)).
  { destruct KD as [(-> & ->)|(-> & ->)]; [exists float_traits|exists double_traits]; (split; [unfold known; auto|]); intros; (destruct EV as [->|(g1 & g2 & ->)]; reflexivity). }
  destruct H as (t & K & H). assert (PP : (1 <= t_precision t)%nat) by (destruct K as [(-> & _)|(-> & _)]; cbn; lia).
  destruct (append_float_spec t f bits1 ss (t_precision t) K P1 W PP) as (T0 & _ & s1 & b1 & E1 & W1 & _).
  destruct (view_appends ev s1 op W1) as (s2 & b2 & E2 & W2 & X2).
  destruct (printed_in_order t f bits1 bits2 ss s2 (t_precision t) x1 x2 K P1 P2 W W2 PP V1 V2) as (T1 & y1 & T2 & y2 & A1 & A2 & R1 & R2 & O). exists T1, y1, T2, y2. split; [|auto].
  cbn [append_values]. rewrite H, E1. cbn [bind append_built_in]. rewrite E2. cbn [bind]. rewrite H. rewrite E1 in A1. apply (joined ss s1 b1 s2 b2 T1 op T2); auto. exists s2, b2. auto.
Qed.

Lemma holds_not_reversed o x1 x2 y1 y2 : holds o x1 x2 -> (at_most x1 x2 -> at_most y1 y2) -> (at_most x2 x1 -> at_most y2 y1) -> not_reversed o y1 y2.
Proof. unfold holds, not_reversed, same. destruct o; tauto. Qed.
Lemma total x y : at_most x y \/ at_most y x.
Proof. destruct x, y; cbn; auto. destruct (Qlt_le_dec r r0); [left; now apply Qlt_le_weak|auto]. Qed.
Lemma at_most_dec x y : at_most x y \/ ~ at_most x y.
Proof. destruct x, y; cbn; auto. destruct (Qlt_le_dec r0 r); [right; now apply Qlt_not_le|auto]. Qed.
Lemma holds_opposite o x y : ~ holds o x y -> holds (opposite o) x y.
Proof. pose proof (total x y). pose proof (at_most_dec x y). pose proof (at_most_dec y x). destruct o; cbn [holds opposite]; unfold same; tauto. Qed.

Theorem checks_not_reversed ev max all expected macro source apply o make f bits1 bits2 x1 x2 : without_to_chars ev -> kind make f -> pattern f bits1 -> pattern f bits2 ->
  number_value (number_of f bits1) = Some x1 -> number_value (number_of f bits2) = Some x2 -> (apply o (make bits1) (make bits2) = true <-> holds o x1 x2) ->
  exists A B y1 y2 p e, binary_built_in ev max all expected macro source apply o (make bits1) (make bits2) = Ok e /\
    (x_success e = true <-> (holds o x1 x2 <-> expected = true)) /\
    (x_success e = false -> vcontent (x_actual e) = kept max (A ++ written p ++ B)) /\
    (p = o \/ p = opposite o) /\ holds p x1 x2 /\ reads A y1 /\ reads B y2 /\ not_reversed p y1 y2.
Proof.
  intros EV KD P1 P2 V1 V2 AP. set (a := make bits1) in *. set (b := make bits2) in *. set (p := if apply o a b then o else opposite o).
  assert (HP : holds p x1 x2). { unfold p. destruct (apply o a b); [now apply AP|]. apply holds_opposite. rewrite <- AP. discriminate. }
  destruct (message ev make f (new_string max) (written p) bits1 bits2 x1 x2 EV KD (wf_new max) P1 P2 V1 V2) as (A & y1 & B & y2 & M & R1 & R2 & O1 & O2). fold a b in M.
  destruct (settled_kept _ _ _ M) as (s & ST & KE). pose proof (holds_not_reversed p x1 x2 y1 y2 HP O1 O2) as NR.
  assert (E : forall s1, (if apply o a b then append_built_in ev s1 (View (op_actual o)) else append_built_in ev s1 (View (op_inverse o))) = append_built_in ev s1 (View (written p))) by (intros s1; unfold p; destruct (apply o a b), o; reflexivity).
  assert (SU : forall c, Bool.eqb (apply o a b) expected = c -> (c = true <-> (holds o x1 x2 <-> expected = true))) by (intros c <-; rewrite <- AP; destruct (apply o a b), expected; cbn; intuition discriminate).
  assert (PO : p = o \/ p = opposite o) by (unfold p; destruct (apply o a b); auto).
  exists A, B, y1, y2, p. unfold binary_built_in. destruct (negb (Bool.eqb (apply o a b) expected) || all) eqn:N.
  - eexists. split.
    { unfold nothing_shown. rewrite <- three_values in ST. destruct (append_built_in ev (new_string max) a) as [(s1 & ok1)|]; cbn [bind] in ST |- *; [|discriminate]. rewrite E. rewrite ST. cbn [bind]. reflexivity. }
    cbn [x_success x_actual]. auto 10.
  - eexists. split; [reflexivity|]. cbn [x_success x_actual]. split; [now apply SU|]. split; [|auto]. intros F. rewrite F in N. discriminate.
Qed.

(** ** Different types *)
Theorem types_reversed :
  exists A B e, binary_built_in AtCompileTime 1024 false true (lit "CHECK") (lit "a <= b") (fun _ _ _ => false) LessEqual (Float 0x3DCCCCCD) (Double 0x3FB999999BBF5B17) = Ok e /\
    x_success e = false /\ vcontent (x_actual e) = A ++ written Greater ++ B /\
    exists x1 x2 y1 y2, number_value (number_of binary32 0x3DCCCCCD) = Some x1 /\ number_value (number_of binary64 0x3FB999999BBF5B17) = Some x2 /\ holds Greater x1 x2 /\
      reads A y1 /\ reads B y2 /\ holds Less y1 y2.
Proof.
  exists (lit "1.000000e-01"), (lit "1.000000005000000e-01"). eexists. split; [vm_compute; reflexivity|]. split; [reflexivity|]. split; [vm_compute; reflexivity|].
  eexists _, _, (Real (1 # 10)), (Real (1000000005 # 10000000000)). split; [vm_compute; reflexivity|]. split; [vm_compute; reflexivity|]. split; [vm_compute; split; [discriminate|intros H; now apply H]|]. split; [|split; [|vm_compute; split; [discriminate|intros H; now apply H]]].
  - apply (reads_number 7 false 1000000 (-1)); [|vm_compute; reflexivity]. exists "1"%char, (lit "000000"), (lit "01"). split; [reflexivity|]. split; [reflexivity|]. split; [reflexivity|]. split; [reflexivity|]. split; [cbn; lia|]. intros c ex' _ H. cbn in H. lia.
  - apply (reads_number 16 false 1000000005000000 (-1)); [|vm_compute; reflexivity]. exists "1"%char, (lit "000000005000000"), (lit "01"). split; [reflexivity|]. split; [reflexivity|]. split; [reflexivity|]. split; [reflexivity|]. split; [cbn; lia|]. intros c ex' _ H. cbn in H. lia.
Qed.
