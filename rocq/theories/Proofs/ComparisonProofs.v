(** C91: comparisons of values of built-in types. *)
From Verif.Spec Require Import TextSpec NumberSpec FloatSpec FilterSpec ExpressionSpec ValueSpec CompareSpec.
From Verif.Model Require Import Base Vector StringUtil Integer Fixed FloatText Values Expression Comparison.
From Verif.Proofs Require Import Lists VectorProofs AppendProofs IntegerProofs ExpressionProofs ValueProofs.

(** ** What is shown *)
Definition settled (r : res (sstr * bool)) : res sstr := do (s, ok) <- r ;; Ok (if ok : bool then s else vclear s).

Lemma three_values ev ss a op b :
  (do (s1, ok1) <- append_built_in ev ss a ;;
   do (s2, ok2) <- (if ok1 : bool then append_built_in ev s1 (View op) else Ok (s1, false)) ;;
   do (s3, ok3) <- (if ok2 : bool then append_built_in ev s2 b else Ok (s2, false)) ;;
   Ok (if ok3 : bool then s3 else vclear s3)) = settled (append_values ev ss [a; View op; b]).
Proof.
  unfold settled. cbn [append_values]. destruct (append_built_in ev ss a) as [(s1 & ok1)|]; cbn [bind]; auto.
  destruct ok1; cbn [bind]; auto. destruct (append_built_in ev s1 (View op)) as [(s2 & ok2)|]; cbn [bind]; auto.
  destruct ok2; cbn [bind]; auto. destruct (append_built_in ev s2 b) as [(s3 & ok3)|]; cbn [bind]; auto. now destruct ok3.
Qed.

Lemma vcontent_clear (s : sstr) : vcontent (vclear s) = [].
Proof. reflexivity. Qed.

Lemma settled_kept n r T : appends (new_string n) r T -> exists s, settled r = Ok s /\ vcontent s = kept n T.
Proof.
  intros (s & b & -> & W & C & K & B). unfold settled. cbn [bind]. eexists. split; [reflexivity|].
  unfold kept. rewrite vcap_new in *. change (vcontent (new_string n) ++ T) with T in *. subst b.
  destruct (Nat.leb_spec (length T) n); [|apply vcontent_clear]. rewrite K. now apply firstn_all2.
Qed.

Section Shown.
Variables (ev : evaluation) (constant : bool) (std : option (format -> Z -> text)) (max : nat).
Hypothesis H1 : ev = AtCompileTime /\ constant = true /\ std = None \/
  (exists g1 g2, ev = AtRunTime std g1 g2 /\ constant = false /\ max <= length g1).
Hypothesis H2 : forall texts f bits, std = Some texts -> length (texts f bits) <= 32.

Lemma fair_new : fair ev (new_string max) /\ at_compile_time ev = constant /\ std_texts ev = std.
Proof using H1 H2. apply describe; auto. now rewrite vcap_new. Qed.

Theorem binary_shown all expected macro source apply o a b : possible a -> possible b ->
  exists A B x, shows constant std a A /\ shows constant std b B /\
    binary_built_in ev max all expected macro source apply o a b = Ok x /\
    x_type x = macro /\ x_expected x = source /\
    (x_success x = true <-> apply o a b = expected) /\
    (x_success x = false \/ all = true ->
       vcontent (x_actual x) = kept max (A ++ written (if apply o a b then o else opposite o) ++ B)) /\
    (x_success x = true -> all = false -> vcontent (x_actual x) = []).
Proof using H1 H2.
  intros PA PB. destruct fair_new as (F & EC & ES).
  set (p := if apply o a b then o else opposite o).
  destruct (values_text ev [a; View (written p); b] (new_string max)) as (T & S & AP); auto.
  { apply wf_new. } { repeat constructor; auto. }
  rewrite EC, ES in S. inversion S as [|? ? A T1 SA S1]; subst. inversion S1 as [|? ? O T2 SO S2]; subst. inversion S2 as [|? ? B T3 SB S3]; subst.
  inversion S3; subst. inversion SO; subst. rewrite app_nil_r in AP.
  destruct (settled_kept _ _ _ AP) as (s & ST & K).
  exists A, B. unfold binary_built_in.
  assert (E : forall s1, (if apply o a b then append_built_in ev s1 (View (op_actual o)) else append_built_in ev s1 (View (op_inverse o))) =
                         append_built_in ev s1 (View (written p))).
  { intros s1. unfold p. destruct (apply o a b), o; reflexivity. }
  destruct (negb (Bool.eqb (apply o a b) expected) || all) eqn:N.
  - eexists. split; [exact SA|]. split; [exact SB|]. split.
    { unfold nothing_shown. rewrite <- three_values in ST.
      destruct (append_built_in ev (new_string max) a) as [(s1 & ok1)|]; cbn [bind] in ST |- *; [|discriminate].
      rewrite E. rewrite ST. cbn [bind]. reflexivity. }
    cbn [x_type x_expected x_success x_actual]. do 2 (split; auto). split; [apply eqb_iff|]. split; auto.
    intros X Y. rewrite X, Y in N. discriminate.
  - eexists. split; [exact SA|]. split; [exact SB|]. split; [reflexivity|].
    apply orb_false_iff in N. destruct N as (N & N2). apply negb_false_iff in N.
    cbn [x_type x_expected x_success x_actual bind]. do 2 (split; auto). split; [apply eqb_iff|]. rewrite N. split.
    + intros [X|X]; congruence.
    + reflexivity.
Qed.

Theorem unary_shown all expected macro source to_bool a : possible a ->
  exists A x, shows constant std a A /\
    unary_built_in ev max all expected macro source to_bool a = Ok x /\
    x_type x = macro /\ x_expected x = source /\
    (x_success x = true <-> to_bool a = expected) /\
    (x_success x = false \/ all = true -> vcontent (x_actual x) = kept max A) /\
    (x_success x = true -> all = false -> vcontent (x_actual x) = []).
Proof using H1 H2.
  intros PA. destruct fair_new as (F & EC & ES).
  destruct (value_text ev (new_string max) a) as (A & S & AP); auto. { apply wf_new. }
  rewrite EC, ES in S. destruct (settled_kept _ _ _ AP) as (s & ST & K). unfold settled in ST.
  exists A. unfold unary_built_in, nothing_shown.
  destruct (negb (Bool.eqb (to_bool a) expected) || all) eqn:N.
  - eexists. split; [exact S|]. split.
    { rewrite ST. cbn [bind]. reflexivity. }
    cbn [x_type x_expected x_success x_actual]. do 2 (split; auto). split; [apply eqb_iff|]. split; auto.
    intros X Y. rewrite X, Y in N. discriminate.
  - eexists. split; [exact S|]. split; [reflexivity|].
    apply orb_false_iff in N. destruct N as (N & N2). apply negb_false_iff in N.
    cbn [x_type x_expected x_success x_actual bind]. do 2 (split; auto). split; [apply eqb_iff|]. rewrite N. split.
    + intros [X|X]; congruence.
    + reflexivity.
Qed.
End Shown.

(** ** Comparisons of the language *)
Lemma promoted_number v x : number v x -> exists s w, promoted v = Some (s, w, x) /\ computed_in v s w /\ 32 <= w.
Proof.
  induction 1; cbn [promoted].
  - exists true, 32. repeat constructor.
  - exists true, 32. repeat constructor.
  - destruct (Nat.ltb_spec w 32).
    + exists true, 32. split; [reflexivity|]. split; [now constructor|lia].
    + exists s, w. split; [reflexivity|]. split; [now constructor|lia].
  - destruct IHnumber as (s & w & E & C & L). exists s, w. split; auto. split; auto. now constructor.
Qed.

Lemma compare_relation o x y : compare_numbers o x y = true <-> relation o x y.
Proof.
  destruct o; cbn [compare_numbers relation]; rewrite ?negb_true_iff, ?Z.ltb_lt, ?Z.leb_le, ?Z.eqb_eq, ?Z.eqb_neq; lia.
Qed.

Lemma number_range v x : number v x -> possible v -> forall s w, promoted v = Some (s, w, x) ->
  if s then (- 2 ^ (Z.of_nat w - 1) <= x < 2 ^ (Z.of_nat w - 1))%Z else (0 <= x < 2 ^ Z.of_nat w)%Z.
Proof.
  induction 1; intros P s0 w0 E; cbn [promoted] in E.
  - injection E as <- <-. lia.
  - injection E as <- <-. lia.
  - inversion P as [|? ? ? W R| | | | | | | | | |]; subst. unfold integer_range in R.
    destruct (Nat.ltb_spec w 32).
    + injection E as <- <-. change (Z.of_nat 32 - 1)%Z with 31%Z.
      destruct s; [assert (2 ^ (Z.of_nat w - 1) <= 2 ^ 31)%Z by (apply Z.pow_le_mono_r; lia)
                  |assert (2 ^ Z.of_nat w <= 2 ^ 31)%Z by (apply Z.pow_le_mono_r; lia)]; lia.
    + injection E as <- <-. exact R.
  - inversion P as [| |? _ PV| | | | | | | | |]; subst. exact (IHnumber PV s0 w0 E).
Qed.

Lemma power_split w : 1 <= w -> (2 ^ Z.of_nat w = 2 * 2 ^ (Z.of_nat w - 1))%Z.
Proof. intros. rewrite <- Z.pow_succ_r by lia. f_equal. lia. Qed.

(** The number [x] of a type [s], [w] converted to the common type with [s'], [w']. *)
Lemma converted (s : bool) (w : nat) (x : Z) (s' : bool) (w' : nat) : 32 <= w -> 32 <= w' ->
  (if s then (- 2 ^ (Z.of_nat w - 1) <= x < 2 ^ (Z.of_nat w - 1))%Z else (0 <= x < 2 ^ Z.of_nat w)%Z) ->
  let (sc, wc) := common_type s w s' w' in
  convert sc wc x = (if s && negb s' && (w <=? w')%nat && (x <? 0)%Z then x + 2 ^ Z.of_nat w' else x)%Z.
Proof.
  intros L L' R. unfold common_type. destruct s, s'; cbn [Bool.eqb andb negb convert]; auto.
  - destruct (Nat.leb_spec w w'); cbn [andb convert]; auto.
    assert (2 ^ (Z.of_nat w - 1) <= 2 ^ (Z.of_nat w' - 1))%Z by (apply Z.pow_le_mono_r; lia).
    pose proof (power_split w' ltac:(lia)).
    destruct (Z.ltb_spec x 0).
    + symmetry. apply (Z.mod_unique x _ (-1)); lia.
    + apply Z.mod_small. lia.
  - destruct (Nat.leb_spec w' w); cbn [convert]; auto. now apply Z.mod_small.
  - apply Z.mod_small. destruct (Nat.ltb_spec w w'); [|lia].
    assert (2 ^ Z.of_nat w <= 2 ^ Z.of_nat w')%Z by (apply Z.pow_le_mono_r; lia). lia.
Qed.

Lemma common_sym s w s' w' : common_type s w s' w' = common_type s' w' s w.
Proof.
  unfold common_type. destruct s, s'; cbn [Bool.eqb]; auto; f_equal; destruct (Nat.ltb_spec w w'), (Nat.ltb_spec w' w); lia.
Qed.

Lemma compare_converted o a b x y : number a x -> number b y -> possible a -> possible b ->
  exists s w s' w', computed_in a s w /\ computed_in b s' w' /\
    compare_values o a b = compare_numbers o
      (if s && negb s' && (w <=? w')%nat && (x <? 0)%Z then x + 2 ^ Z.of_nat w' else x)%Z
      (if s' && negb s && (w' <=? w)%nat && (y <? 0)%Z then y + 2 ^ Z.of_nat w else y)%Z.
Proof.
  intros NA NB PA PB. destruct (promoted_number a x NA) as (s & w & EA & CA & LA). destruct (promoted_number b y NB) as (s' & w' & EB & CB & LB).
  exists s, w, s', w'. do 2 (split; auto). unfold compare_values. rewrite EA, EB.
  pose proof (converted s w x s' w' LA LB (number_range a x NA PA s w EA)) as K1.
  pose proof (converted s' w' y s w LB LA (number_range b y NB PB s' w' EB)) as K2.
  rewrite (common_sym s' w' s w) in K2. destruct (common_type s w s' w') as (sc & wc). now rewrite K1, K2.
Qed.

Lemma computed_once v s w s' w' : computed_in v s w -> computed_in v s' w' -> s = s' /\ w = w'.
Proof. intros A. revert s' w'. induction A; intros s' w' B; inversion B; subst; auto; lia. Qed.
Lemma number_once v x y : number v x -> number v y -> x = y.
Proof. intros A. revert y. induction A; intros y B; inversion B; subst; auto. Qed.

Theorem compare_true o a b x y : number a x -> number b y -> possible a -> possible b ->
  (forall w, ~ misread a b w) -> (forall w, ~ misread b a w) ->
  (compare_values o a b = true <-> relation o x y).
Proof.
  intros NA NB PA PB MA MB. destruct (compare_converted o a b x y NA NB PA PB) as (s & w & s' & w' & CA & CB & ->).
  rewrite <- compare_relation.
  destruct (s && negb s' && (w <=? w') && (x <? 0)%Z) eqn:E.
  { exfalso. apply (MA w'). destruct s, s'; try discriminate. cbn in E. apply andb_true_iff in E. destruct E as (E1 & E2).
    apply Nat.leb_le in E1. apply Z.ltb_lt in E2. exists w, x. auto 10. }
  destruct (s' && negb s && (w' <=? w) && (y <? 0)%Z) eqn:E'; [|tauto].
  exfalso. apply (MB w). destruct s, s'; try discriminate. cbn in E'. apply andb_true_iff in E'. destruct E' as (E1 & E2).
  apply Nat.leb_le in E1. apply Z.ltb_lt in E2. exists w', y. auto 10.
Qed.

Theorem compare_misread o a b x y w : number a x -> number b y -> possible a -> possible b -> misread a b w ->
  (compare_values o a b = true <-> relation o (x + 2 ^ Z.of_nat w)%Z y).
Proof.
  intros NA NB PA PB (n & z & CA & NZ & NEG & CB & L). destruct (compare_converted o a b x y NA NB PA PB) as (s & w0 & s' & w' & CA' & CB' & ->).
  rewrite (number_once _ _ _ NZ NA) in NEG.
  destruct (computed_once _ _ _ _ _ CA CA') as (<- & <-). destruct (computed_once _ _ _ _ _ CB CB') as (<- & <-).
  cbn [andb negb]. rewrite (proj2 (Nat.leb_le n w) L), (proj2 (Z.ltb_lt x 0) NEG). apply compare_relation.
Qed.
Theorem compare_misread_right o a b x y w : number a x -> number b y -> possible a -> possible b -> misread b a w ->
  (compare_values o a b = true <-> relation o x (y + 2 ^ Z.of_nat w)%Z).
Proof.
  intros NA NB PA PB (n & z & CA & NZ & NEG & CB & L). destruct (compare_converted o a b x y NA NB PA PB) as (s & w0 & s' & w' & CA' & CB' & ->).
  rewrite (number_once _ _ _ NZ NB) in NEG.
  destruct (computed_once _ _ _ _ _ CA CB') as (<- & <-). destruct (computed_once _ _ _ _ _ CB CA') as (<- & <-).
  cbn [andb negb]. rewrite (proj2 (Nat.leb_le n w) L), (proj2 (Z.ltb_lt y 0) NEG). apply compare_relation.
Qed.

Lemma opposite_relation o x y : relation (opposite o) x y <-> ~ relation o x y.
Proof. destruct o; cbn [relation opposite]; lia. Qed.

Lemma truth_number v x : number v x -> (truth v = true <-> x <> 0%Z).
Proof.
  induction 1; cbn [truth].
  - split; auto; discriminate.
  - split; [discriminate|congruence].
  - rewrite negb_true_iff, Z.eqb_neq. tauto.
  - auto.
Qed.

(** ** A message tells which values were compared *)
Definition space : ascii := " "%char.
Lemma read_no_space base s : forall acc n, read base acc s = Some n -> ~ In space s.
Proof.
  induction s as [|c s IH]; intros acc n E H; [destruct H|]. cbn [read] in E.
  destruct (digit_value c) as [d|] eqn:D; [|discriminate]. destruct (d <? base)%N; [|discriminate].
  destruct H as [->|H]; [discriminate|]. eapply IH; eauto.
Qed.
Lemma writes_int_no_space s z : writes_int s z -> ~ In space s.
Proof.
  intros [(_ & (R & _))|(_ & s' & -> & (R & _))].
  - eapply read_no_space; eauto.
  - intros [X|X]; [discriminate|]. revert X. eapply read_no_space; eauto.
Qed.
Lemma shows_no_space constant std v x t : number v x -> shows constant std v t -> ~ In space t.
Proof.
  intros N. revert t. induction N; intros t S; inversion S; subst; auto.
  - cbn. intuition discriminate.
  - cbn. intuition discriminate.
  - eapply writes_int_no_space; eauto.
Qed.

Lemma split_at_space (s s' r r' : text) : ~ In space s -> ~ In space s' -> s ++ space :: r = s' ++ space :: r' -> s = s' /\ r = r'.
Proof.
  revert s'. induction s as [|c s IH]; intros [|c' s'] A B E; cbn in E.
  - injection E as <-. auto.
  - injection E as <- _. exfalso. apply B. now left.
  - injection E as -> _. exfalso. apply A. now left.
  - injection E as -> E. destruct (IH s') as (-> & ->); auto; intros X; [apply A|apply B]; now right.
Qed.

Definition sign (o : operator) : text :=
  match o with
  | Less => lit "<" | Greater => lit ">" | LessEqual => lit "<=" | GreaterEqual => lit ">=" | Equal => lit "==" | NotEqual => lit "!="
  end.
Lemma written_sign o t : written o ++ t = space :: sign o ++ space :: t.
Proof. now destruct o. Qed.
Lemma sign_inj o o' : sign o = sign o' -> o = o'.
Proof. destruct o, o'; (reflexivity || discriminate). Qed.

Lemma comparable_number v v' : comparable v v' -> (exists x, number v x) /\ (exists x, number v' x).
Proof.
  induction 1.
  - split; [destruct b|destruct b']; eexists; constructor.
  - split; eexists; constructor.
  - destruct IHcomparable as ((x & X) & (y & Y)). split; eexists; constructor; eauto.
Qed.

Theorem text_identifies constant std a b a' b' A B A' B' o o' : comparable a a' -> comparable b b' ->
  shows constant std a A -> shows constant std b B -> shows constant std a' A' -> shows constant std b' B' ->
  A ++ written o ++ B = A' ++ written o' ++ B' -> a = a' /\ b = b' /\ o = o'.
Proof.
  intros CA CB SA SB SA' SB' E. rewrite !written_sign in E.
  destruct (comparable_number _ _ CA) as ((x & X) & (x' & X')).
  destruct (split_at_space _ _ _ _ (shows_no_space _ _ _ _ _ X SA) (shows_no_space _ _ _ _ _ X' SA') E) as (<- & E2).
  destruct (split_at_space (sign o) (sign o') B B') as (E3 & <-); auto.
  { destruct o; cbn; intuition discriminate. } { destruct o'; cbn; intuition discriminate. }
  repeat split; [eapply distinct; eauto|eapply distinct; eauto|now apply sign_inj].
Qed.

(** ** In the form used by Properties/Comparison.v. *)
Section Forms.
Variables (ev : evaluation) (constant : bool) (std : option (format -> Z -> text)) (max : nat).
Hypothesis H1 : ev = AtCompileTime /\ constant = true /\ std = None \/
  (exists g1 g2, ev = AtRunTime std g1 g2 /\ constant = false /\ max <= length g1).
Hypothesis H2 : forall texts f bits, std = Some texts -> length (texts f bits) <= 32.

Theorem truth_shown all expected macro source o a b x y :
  possible a -> possible b -> number a x -> number b y ->
  (forall w, ~ misread a b w) -> (forall w, ~ misread b a w) ->
  exists A B e p, shows constant std a A /\ shows constant std b B /\
    binary_built_in ev max all expected macro source compare_values o a b = Ok e /\
    (x_success e = true <-> (relation o x y <-> expected = true)) /\
    (x_success e = false -> vcontent (x_actual e) = kept max (A ++ written p ++ B)) /\
    (p = o \/ p = opposite o) /\ relation p x y.
Proof using H1 H2.
  intros PA PB NA NB MA MB.
  destruct (binary_shown ev constant std max H1 H2 all expected macro source compare_values o a b PA PB)
    as (A & B & e & SA & SB & E & _ & _ & V & K & _).
  pose proof (compare_true o a b x y NA NB PA PB MA MB) as R.
  exists A, B, e, (if compare_values o a b then o else opposite o). do 3 (split; [assumption|]). split; [|split; [|split]].
  - rewrite V, <- R. destruct (compare_values o a b), expected; intuition discriminate.
  - intros F. apply K. now left.
  - destruct (compare_values o a b); auto.
  - destruct (compare_values o a b); [now apply R|]. apply opposite_relation. rewrite <- R. discriminate.
Qed.

Theorem unary_truth_shown all expected macro source a x :
  possible a -> number a x ->
  exists A e, shows constant std a A /\
    unary_built_in ev max all expected macro source truth a = Ok e /\
    (x_success e = true <-> (x <> 0%Z <-> expected = true)) /\
    (x_success e = false -> vcontent (x_actual e) = kept max A).
Proof using H1 H2.
  intros PA NA. destruct (unary_shown ev constant std max H1 H2 all expected macro source truth a PA) as (A & e & SA & E & _ & _ & V & K & _).
  pose proof (truth_number a x NA) as R. exists A, e. do 2 (split; [assumption|]). split.
  - rewrite V, <- R. destruct (truth a), expected; intuition discriminate.
  - intros F. apply K. now left.
Qed.

Theorem wrong_shown all macro source a b x y w :
  possible a -> possible b -> number a x -> number b y -> misread a b w -> (y <= x + 2 ^ Z.of_nat w)%Z ->
  (x < y)%Z /\
  exists A B e, shows constant std a A /\ shows constant std b B /\
    binary_built_in ev max all true macro source compare_values Less a b = Ok e /\
    x_success e = false /\ vcontent (x_actual e) = kept max (A ++ written GreaterEqual ++ B).
Proof using H1 H2.
  intros PA PB NA NB M L.
  assert (F : compare_values Less a b = false).
  { destruct (compare_values Less a b) eqn:C; auto. apply (compare_misread Less a b x y w NA NB PA PB M) in C. cbn in C. lia. }
  split.
  - destruct M as (n & z & CA & NZ & NEG & CB & _). rewrite (number_once _ _ _ NZ NA) in NEG.
    destruct (promoted_number b y NB) as (s & w' & EB & CB' & _). destruct (computed_once _ _ _ _ _ CB CB') as (<- & <-).
    pose proof (number_range b y NB PB _ _ EB) as R. cbn in R. lia.
  - destruct (binary_shown ev constant std max H1 H2 all true macro source compare_values Less a b PA PB)
      as (A & B & e & SA & SB & E & _ & _ & V & K & _).
    rewrite F in *. exists A, B, e. do 3 (split; [assumption|]).
    assert (X : x_success e = false) by (destruct (x_success e); auto; now apply proj1 in V; specialize (V eq_refl)).
    split; auto.
Qed.

Lemma kept_some n s : kept n s <> [] -> kept n s = s.
Proof. unfold kept. destruct (length s <=? n); congruence. Qed.

Theorem message_identifies all expected macro source apply o a b e all' expected' macro' source' apply' o' a' b' e' :
  comparable a a' -> comparable b b' -> possible a -> possible b -> possible a' -> possible b' ->
  binary_built_in ev max all expected macro source apply o a b = Ok e ->
  binary_built_in ev max all' expected' macro' source' apply' o' a' b' = Ok e' ->
  x_success e = false -> x_success e' = false ->
  vcontent (x_actual e) = vcontent (x_actual e') -> vcontent (x_actual e) <> [] ->
  a = a' /\ b = b'.
Proof using H1 H2.
  intros CA CB PA PB PA' PB' E E' F F' Q NE.
  destruct (binary_shown ev constant std max H1 H2 all expected macro source apply o a b PA PB)
    as (A & B & e1 & SA & SB & E1 & _ & _ & _ & K & _).
  destruct (binary_shown ev constant std max H1 H2 all' expected' macro' source' apply' o' a' b' PA' PB')
    as (A' & B' & e2 & SA' & SB' & E2 & _ & _ & _ & K' & _).
  rewrite E in E1. injection E1 as <-. rewrite E' in E2. injection E2 as <-.
  specialize (K (or_introl F)). specialize (K' (or_introl F')).
  pose proof NE as NE'. rewrite Q in NE'. rewrite K in Q, NE. rewrite K' in Q, NE'.
  rewrite (kept_some _ _ NE), (kept_some _ _ NE') in Q.
  destruct (text_identifies _ _ _ _ _ _ _ _ _ _ _ _ CA CB SA SB SA' SB' Q) as (-> & -> & _). auto.
Qed.
End Forms.
