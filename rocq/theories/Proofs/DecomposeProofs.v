(** Decomposition of expressions (C72). *)
From Coq Require Import Lia.
From Verif.Spec Require Import TextSpec ExpressionSpec MacroSpec OperatorSpec.
From Verif.Model Require Import Base Decompose.

Section Reading.
Context {V : Type}.

Lemma level_range (o : op V) : 4 <= level V o <= 17.
Proof. destruct o; cbn; try (destruct o; cbn); lia. Qed.

Lemma rtl_level (o : op V) : right_to_left V o = true <-> level V o = 16.
Proof. unfold right_to_left. apply Nat.eqb_eq. Qed.
Lemma ltr_level (o : op V) : right_to_left V o = false <-> level V o <> 16.
Proof. unfold right_to_left. apply Nat.eqb_neq. Qed.

Lemma reads_mono {A} n m (a : A) l t : reads V n a l t -> n <= m -> reads V m a l t.
Proof.
  intros R LE. inversion R; subst; [constructor| |].
  - apply Reads_left; auto; lia.
  - apply Reads_right; auto; lia.
Qed.

Lemma reads_levels {A} n (a : A) l t : reads V n a l t -> Forall (fun x => level V (fst x) <= n) l.
Proof.
  induction 1 as [|n o a l b r t u RL LE R1 IH1 R2 IH2|n o a l b r t u RL LE R1 IH1 R2 IH2]; [constructor| |].
  all: apply Forall_app; split; [|constructor; [cbn; lia|]].
  all: eapply Forall_impl; [|eassumption]; cbn; intros; lia.
Qed.

Lemma reads_top {A} n (a : A) l t : reads V n a l t -> top V t <= n.
Proof. intros R; inversion R; subst; cbn; lia. Qed.

(** Two ways to split the same list: either at the same place, or one within a part of the other. *)
Lemma split_compare {T} : forall (l l' : list T) x x' r r',
  l ++ x :: r = l' ++ x' :: r' ->
  (l = l' /\ x = x' /\ r = r') \/ (exists m, l' = l ++ x :: m /\ r = m ++ x' :: r') \/
  (exists m, l = l' ++ x' :: m /\ r' = m ++ x :: r).
Proof.
  induction l as [|y l IH]; intros [|y' l'] x x' r r' E; cbn in E.
  - injection E as -> ->. left. auto.
  - injection E as -> ->. right; left. exists l'. auto.
  - injection E as <- <-. right; right. exists l. auto.
  - injection E as -> E. destruct (IH _ _ _ _ _ E) as [(-> & -> & ->)|[[m [-> ->]]|[m [-> ->]]]].
    + left; auto.
    + right; left. exists m. auto.
    + right; right. exists m. auto.
Qed.

Lemma middle_level {A} n (a : A) l x m t : reads V n a (l ++ x :: m) t -> level V (fst x) <= n.
Proof. intros R. apply reads_levels in R. apply Forall_elt in R. exact R. Qed.

Lemma reads_unique {A} : forall (t : tree V A) n n' a l t', reads V n a l t -> reads V n' a l t' -> t = t'.
Proof.
  induction t as [x|o t IHt u IHu]; intros n n' a l t' R R'.
  - inversion R; subst. inversion R'; subst; [reflexivity| |]; destruct l; discriminate.
  - inversion R as [|n0 o0 a0 l0 b r t0 u0 RL LE R1 R2|n0 o0 a0 l0 b r t0 u0 RL LE R1 R2]; subst;
    (inversion R' as [n1 a1 EL|n1 o1 a1 l1 b1 r1 t1 u1 RL' LE' R1' R2' EL|n1 o1 a1 l1 b1 r1 t1 u1 RL' LE' R1' R2' EL]; subst;
     [destruct l0; discriminate| |]);
    (match goal with E : _ ++ _ :: _ = _ ++ _ :: _ |- _ =>
       symmetry in E; apply split_compare in E; destruct E as [(-> & EX & ->)|[[m [-> ->]]|[m [-> ->]]]] end);
    try (injection EX as <- <-; f_equal; [eapply IHt; eassumption|eapply IHu; eassumption]);
    exfalso; repeat match goal with
    | H : reads V _ _ (_ ++ _ :: _) _ |- _ => apply middle_level in H; cbn [fst] in H
    | H : right_to_left V _ = true |- _ => apply rtl_level in H
    | H : right_to_left V _ = false |- _ => apply ltr_level in H
    end; pose proof (level_range o); try pose proof (level_range o1); lia.
Qed.

(** A list has a first and a last operator of the highest level. *)
Lemma highest {A} : forall l : list (op V * A), l <> [] ->
  exists n, (exists l1 x l2, l = l1 ++ x :: l2 /\ level V (fst x) = n /\ Forall (fun y => level V (fst y) < n) l1 /\
                        Forall (fun y => level V (fst y) <= n) l2) /\
            (exists l1 x l2, l = l1 ++ x :: l2 /\ level V (fst x) = n /\ Forall (fun y => level V (fst y) <= n) l1 /\
                        Forall (fun y => level V (fst y) < n) l2).
Proof.
  induction l as [|x l IH]; intros NE; [congruence|].
  destruct l as [|y l].
  { exists (level V (fst x)). split; exists [], x, []; repeat split; constructor. }
  destruct (IH ltac:(discriminate)) as [n [(f1 & fx & f2 & F1 & F2 & F3 & F4) (l1 & lx & l2 & L1 & L2 & L3 & L4)]].
  destruct (lt_eq_lt_dec (level V (fst x)) n) as [[LT|EQ]|GT].
  - exists n. split.
    + exists (x :: f1), fx, f2. rewrite F1. repeat split; auto.
    + exists (x :: l1), lx, l2. rewrite L1. repeat split; auto. constructor; auto; lia.
  - exists n. split.
    + exists [], x, (y :: l). repeat split; auto. rewrite F1. apply Forall_app; split; [|constructor; [lia|auto]].
      eapply Forall_impl; [|exact F3]. cbn; intros; lia.
    + exists (x :: l1), lx, l2. rewrite L1. repeat split; auto. constructor; auto; lia.
  - assert (LT : Forall (fun z => level V (fst z) < level V (fst x)) (y :: l)).
    { rewrite L1. apply Forall_app; split; [|constructor; [lia|]]; (eapply Forall_impl; [|eassumption]); cbn; intros; lia. }
    exists (level V (fst x)). split; exists [], x, (y :: l); repeat split; auto.
    eapply Forall_impl; [|exact LT]. cbn; intros; lia.
Qed.

Lemma reads_total {A} : forall m n (a : A) (l : list (op V * A)), List.length l <= m ->
  Forall (fun x => level V (fst x) <= n) l -> exists t, reads V n a l t.
Proof.
  induction m as [|m IH]; intros n a l LE F.
  { destruct l; [|cbn in LE; lia]. exists (Leaf a). constructor. }
  destruct l as [|x0 l0] eqn:EL; [exists (Leaf a); constructor|]. rewrite <- EL in *.
  assert (NE : l <> []) by (subst; discriminate). clear EL x0 l0.
  destruct (highest l NE) as [k [(f1 & [o b] & f2 & F1 & F2 & F3 & F4) (l1 & [o' b'] & l2 & L1 & L2 & L3 & L4)]].
  cbn [fst] in *.
  destruct (Nat.eq_dec k 16) as [E16|N16].
  - destruct (IH 15 a f1) as [t T].
    { rewrite F1, app_length in LE. cbn in LE. lia. }
    { eapply Forall_impl; [|exact F3]. cbn; intros; lia. }
    destruct (IH 16 b f2) as [u U].
    { rewrite F1, app_length in LE. cbn in LE. lia. }
    { eapply Forall_impl; [|exact F4]. cbn; intros; lia. }
    exists (Node o t u). rewrite F1. rewrite F1 in F. apply Forall_elt in F. cbn in F.
    apply Reads_right; rewrite ?rtl_level, ?F2, ?E16 in *; cbn; auto; lia.
  - destruct (IH k a l1) as [t T].
    { rewrite L1, app_length in LE. cbn in LE. lia. }
    { exact L3. }
    destruct (IH (k - 1) b' l2) as [u U].
    { rewrite L1, app_length in LE. cbn in LE. lia. }
    { eapply Forall_impl; [|exact L4]. cbn; intros; lia. }
    exists (Node o' t u). rewrite L1. rewrite L1 in F. apply Forall_elt in F. cbn in F.
    apply Reads_left; rewrite ?ltr_level, ?L2 in *; auto.
Qed.

Lemma reads_exactly_one {A} : forall (a : A) (l : list (op V * A)), exists! t, reads V 17 a l t.
Proof.
  intros a l. destruct (reads_total (List.length l) 17 a l (le_n _)) as [t T].
  - apply Forall_forall. intros [o b] _. apply level_range.
  - exists t. split; [exact T|]. intros t' T'. eapply reads_unique; eassumption.
Qed.
End Reading.

Section Meaning.
Variable V : Type.
Variable apply : op V -> V -> V -> option V.
Variable for_constants : operator -> V -> V -> bool.
Variable truth testable : V -> bool.
Variable show : V -> option text.

Fixpoint lift (t : tree V V) : tree V (option V) :=
  match t with Leaf a => Leaf (Some a) | Node o l r => Node o (lift l) (lift r) end.
Definition lifted (l : list (op V * V)) : list (op V * option V) := map (fun '(o, b) => (o, Some b)) l.

Fixpoint graft (t : tree V V) : tree V (option V) :=
  if top V t <=? 8 then Node (Compare V LessEqual) (Leaf None) (lift t)
  else match t with Leaf a => Leaf (Some a) | Node o l r => Node o (graft l) (lift r) end.

Lemma reads_lift n a l t : reads V n a l t -> reads V n (Some a) (lifted l) (lift t).
Proof.
  induction 1 as [|n o a l b r t u RL LE R1 IH1 R2 IH2|n o a l b r t u RL LE R1 IH1 R2 IH2]; cbn;
    [constructor| |]; unfold lifted in *; rewrite map_app; cbn.
  - apply Reads_left; auto.
  - apply Reads_right; auto.
Qed.

Lemma reads_graft : forall t n a l, reads V n a l t -> 9 <= n -> reads V n None (behind_extractor V a l) (graft t).
Proof.
  induction t as [x|o t IHt u IHu]; intros n a l R N9.
  - inversion R; subst. cbn. change (behind_extractor V x []) with ([] ++ (Compare V LessEqual, Some x) :: []).
    apply Reads_left; cbn; auto; constructor.
  - cbn [graft]. destruct (Nat.leb_spec (top V (Node o t u)) 8) as [T8|T8].
    + change (behind_extractor V a l) with ([] ++ (Compare V LessEqual, Some a) :: lifted l).
      apply Reads_left; [reflexivity|cbn; lia|constructor|]. cbn [level].
      apply (reads_lift _ _ _ (Node o t u)). cbn [top] in T8.
      inversion R; subst; [apply Reads_left|apply Reads_right]; auto.
    + cbn [top] in T8. inversion R; subst.
      * unfold behind_extractor. rewrite map_app. cbn [map]. rewrite app_comm_cons.
        apply Reads_left; auto; [apply IHt; auto; lia|apply reads_lift; auto].
      * unfold behind_extractor. rewrite map_app. cbn [map]. rewrite app_comm_cons.
        match goal with H : right_to_left V o = true |- _ => pose proof (proj1 (rtl_level _) H) end.
        apply Reads_right; auto; [apply IHt; auto; lia|apply reads_lift; auto].
Qed.

Lemma elaborate_lift t : elaborate V apply (lift t) = option_map (Value V) (value V apply t).
Proof.
  induction t as [a|o l IHl r IHr]; cbn; [reflexivity|]. rewrite IHl, IHr.
  destruct (value V apply l), (value V apply r); reflexivity.
Qed.

(** The object made for an expression whose operators all bind at least as [||]. *)
Lemma elaborate_graft : forall t v n a l, reads V n a l t -> n <= 15 -> value V apply t = Some v ->
  exists x, elaborate V apply (graft t) = Some x /\
  match shape_of V t with
  | SingleValue _ _ => x = Unary V v
  | TwoSides _ o l r => exists a b, value V apply l = Some a /\ value V apply r = Some b /\ x = Binary V o a b
  | Complex _ => x = Invalid V
  end.
Proof.
  induction t as [c|o t IHt u IHu]; intros v n a l R N15 E.
  - cbn in *. injection E as ->. exists (Unary V v). split; reflexivity.
  - unfold shape_of. cbn [graft]. destruct (Nat.leb_spec (top V (Node o t u)) 8) as [T8|T8].
    + exists (Unary V v). split; [|reflexivity].
      cbn [elaborate]. rewrite elaborate_lift, E. reflexivity.
    + cbn [top] in T8. cbn [value] in E.
      destruct (value V apply t) as [vt|] eqn:ET; [|discriminate].
      destruct (value V apply u) as [vu|] eqn:EU; [|discriminate].
      assert (X : exists l1, reads V (level V o) a l1 t /\ level V o <= n).
      { inversion R; subst; [eauto|]. exists l0. split; [|auto]. eapply reads_mono; [eassumption|lia]. }
      destruct X as [l1 [R1 LO]].
      destruct (IHt vt _ a l1 R1 ltac:(lia) eq_refl) as [x [EX SX]].
      cbn [elaborate]. rewrite EX, elaborate_lift, EU. cbn [option_map].
      unfold shape_of in SX.
      destruct (top V t <=? 8) eqn:T.
      * subst x. destruct o; cbn in T8, LO; try lia; cbn; eexists; split; try reflexivity; eauto.
      * assert (XX : x = Invalid V \/ exists c a b, x = Binary V c a b).
        { destruct t as [|oo tt uu]; [cbn in T; discriminate|].
          destruct oo; auto. destruct (top V tt <=? 8); auto.
          destruct SX as [? [? [_ [_ ->]]]]. right. eauto. }
        destruct o; cbn in T8, LO; try lia; destruct XX as [->|[? [? [? ->]]]]; cbn; eexists; split; reflexivity.
Qed.

Lemma compared_holds o a b v : apply (Compare V o) a b = Some v -> compared V apply truth o a b = truth v.
Proof. unfold compared. intros ->. reflexivity. Qed.

Lemma two_sides t o l r : shape_of V t = TwoSides V o l r -> t = Node (Compare V o) l r.
Proof.
  unfold shape_of. destruct (top V t <=? 8); [discriminate|]. destruct t as [|oo l' r']; [discriminate|].
  destruct oo; try discriminate. destruct (top V l' <=? 8); [|discriminate]. intros H; injection H as -> -> ->. reflexivity.
Qed.
Lemma single_shape t t' : shape_of V t = SingleValue V t' -> t' = t.
Proof.
  unfold shape_of. destruct (top V t <=? 8); [intros H; injection H; auto|]. destruct t as [|oo l' r']; [discriminate|].
  destruct oo; try discriminate. destruct (top V l' <=? 8); discriminate.
Qed.

Let check := check_expression V apply for_constants truth testable show.

(** What is said for the object made. *)
Lemma said t v x t' :
  value V apply t = Some v -> elaborate V apply t' = Some x ->
  match shape_of V t with
  | SingleValue _ _ => x = Unary V v
  | TwoSides _ o l r => exists a b, value V apply l = Some a /\ value V apply r = Some b /\ x = Binary V o a b
  | Complex _ => x = Invalid V
  end ->
  exists c, check t t' = Some c /\ says V apply for_constants truth testable show t c /\ holds c = truth v.
Proof.
  intros E EX S. unfold check, check_expression. rewrite EX, E. unfold says.
  destruct (shape_of V t) as [s|o l r|] eqn:SH.
  - subst x. cbn. destruct (testable v) eqn:T; eexists; split; try reflexivity; split; try reflexivity;
      exists v; rewrite T; auto.
  - destruct S as [a [b [EA [EB ->]]]]. pose proof (two_sides _ _ _ _ SH). subst t. cbn [value] in E. rewrite EA, EB in E.
    cbn. destruct (for_constants o a b) eqn:F; eexists; (split; [reflexivity|]); (split; [exists a, b, v; rewrite F; auto|]).
    + cbn. apply compared_holds. exact E.
    + reflexivity.
  - subst x. cbn. eexists; split; [reflexivity|]. split; [|reflexivity]. exists v; auto.
Qed.

Lemma check_meaning a l t t' v :
  reads V 17 a l t -> reads V 17 None (behind_extractor V a l) t' -> value V apply t = Some v ->
  (unusable V t -> check t t' = None) /\
  (~ unusable V t ->
   exists c, check t t' = Some c /\ says V apply for_constants truth testable show t c /\ holds c = truth v).
Proof.
  intros R R' E.
  assert (t' = graft t).
  { eapply reads_unique; [exact R'|]. apply reads_graft; [exact R|lia]. }
  subst t'. clear R'.
  destruct (le_lt_dec (top V t) 15) as [T15|T15].
  { assert (R15 : reads V 15 a l t).
    { inversion R; subst; [constructor|apply Reads_left|apply Reads_right]; auto. }
    split.
    - intros U. destruct t as [|o tl tr]; [destruct U|]. destruct o; cbn in T15, U; try lia; destruct U.
    - intros _. destruct (elaborate_graft t v 15 a l R15 (le_n _) E) as [x [EX S]]. eapply said; eassumption. }
  destruct t as [|o tl tr]; [cbn in T15; lia|]. cbn [top] in T15.
  assert (G : graft (Node o tl tr) = Node o (graft tl) (lift tr)).
  { cbn [graft top]. destruct (Nat.leb_spec (level V o) 8); [lia|reflexivity]. }
  pose proof E as E'. cbn [value] in E'.
  destruct (value V apply tl) as [vl|] eqn:EL; [|discriminate].
  destruct (value V apply tr) as [vr|] eqn:ER; [|discriminate].
  assert (L16 : level V o = 16 -> exists l1, reads V 15 a l1 tl).
  { intros L. inversion R; subst; [exfalso; match goal with H : right_to_left V o = false |- _ => apply ltr_level in H end; auto|].
    rewrite L in *. eauto. }
  assert (CPX : top V (Node o tl tr) <=? 8 = false) by (cbn [top]; apply Nat.leb_gt; lia).
  destruct (level_range o) as [_ L17].
  destruct (Nat.eq_dec (level V o) 16) as [E16|N16].
  - destruct (L16 E16) as [l1 R1].
    destruct (elaborate_graft tl vl 15 a l1 R1 (le_n _) EL) as [x [EX S]].
    assert (XX : x = Invalid V \/ (exists c a b, x = Binary V c a b) \/ exists c, x = Unary V c).
    { destruct (shape_of V tl); [eauto|destruct S as [? [? [_ [_ ->]]]]; eauto 6|auto]. }
    split.
    + intros U. unfold check, check_expression. rewrite G. cbn [elaborate]. rewrite EX, elaborate_lift, ER. cbn [option_map].
      destruct o; try (destruct U; fail); cbn in E16; try discriminate.
      all: destruct XX as [->|[[? [? [? ->]]]|[? ->]]]; reflexivity.
    + intros U. apply (said _ _ (Invalid V) _ E).
      * rewrite G. cbn [elaborate]. rewrite EX, elaborate_lift, ER. cbn [option_map].
        destruct o; cbn in E16; try discriminate; try (destruct o; discriminate); try (exfalso; apply U; exact I);
          destruct XX as [->|[[? [? [? ->]]]|[? ->]]]; reflexivity.
      * unfold shape_of. rewrite CPX. destruct o; cbn in E16; try discriminate; try (destruct o; discriminate); reflexivity.
  - assert (o = Comma V) by (destruct o; cbn in *; try lia; try (destruct o; cbn in *; lia); reflexivity). subst o.
    (* the objects of the left side, whatever it is *)
    assert (LEFT : (shape_of V tl = Complex V /\
                     (exists x, elaborate V apply (graft tl) = Some x /\ (x = Invalid V \/ exists w, x = Value V w) \/
                      elaborate V apply (graft tl) = None)) \/
                   shape_of V tl <> Complex V /\ exists x, elaborate V apply (graft tl) = Some x /\
                     ((exists c a b, x = Binary V c a b) \/ exists c, x = Unary V c)).
    { clear - EL R.
      assert (RT : exists l1, reads V 17 a l1 tl).
      { inversion R; subst; [cbn in *; eauto|discriminate]. }
      destruct RT as [l1 RT]. clear R tr. revert vl l1 EL RT.
      induction tl as [c|o tl IH tr _]; intros vl l1 EL RT.
      { right. cbn. split; [discriminate|]. eexists; split; [reflexivity|]. eauto. }
      destruct (le_lt_dec (level V o) 15) as [L15|G15].
      { assert (R15 : reads V 15 a l1 (Node o tl tr)).
        { inversion RT; subst; [apply Reads_left|apply Reads_right]; auto. }
        destruct (elaborate_graft _ _ 15 a l1 R15 (le_n _) EL) as [x [EX S]].
        destruct (shape_of V (Node o tl tr)).
        - right. split; [discriminate|]. exists x. eauto.
        - right. split; [discriminate|]. destruct S as [? [? [_ [_ ->]]]]. eexists; split; [exact EX|]. eauto 6.
        - left. split; [reflexivity|]. subst x. eexists; left; split; [exact EX|]. auto. }
      left.
      assert (T8 : top V (Node o tl tr) <=? 8 = false) by (cbn [top]; apply Nat.leb_gt; lia).
      split.
      { unfold shape_of. rewrite T8. destruct o; cbn in G15; try lia; try (destruct o; cbn in *; lia); reflexivity. }
      assert (G : graft (Node o tl tr) = Node o (graft tl) (lift tr)).
      { cbn [graft]. rewrite T8. reflexivity. }
      rewrite G. cbn [elaborate]. rewrite elaborate_lift.
      cbn [value] in EL. destruct (value V apply tl) as [vl'|] eqn:EL'; [|discriminate].
      destruct (value V apply tr) as [vr'|] eqn:ER'; [|discriminate]. cbn [option_map].
      assert (RT' : exists l2, reads V 17 a l2 tl).
      { inversion RT; subst; eexists; (eapply reads_mono; [eassumption|]); destruct (level_range o); lia. }
      destruct RT' as [l2 RT'].
      destruct (IH _ _ eq_refl RT') as [[_ [x [[-> [ -> | [w ->]]]| -> ]]]|[_ [x [-> [[? [? [? ->]]]|[? ->]]]]]];
        destruct o; cbn in G15; try lia; try (destruct o; cbn in *; lia); cbn;
        try (eexists; left; split; [reflexivity|]; eauto; fail); try (exists (Invalid V); right; reflexivity).
      all: match goal with |- context [apply ?x ?y ?z] => destruct (apply x y z) end; cbn;
        first [ eexists; left; split; [reflexivity|]; eauto; fail | exists (Invalid V); right; reflexivity ]. }
    split.
    + intros U. cbn [unusable] in U. destruct LEFT as [[_ L]|[NC _]]; [|contradiction].
      unfold check, check_expression. rewrite G. cbn [elaborate]. rewrite elaborate_lift, ER. cbn [option_map].
      destruct L as [x [[-> [ -> | [w -> ]]] | -> ]]; cbn.
      * rewrite EL, ER, E'. reflexivity.
      * destruct (apply (Comma V) w vr); cbn; [|reflexivity]. rewrite EL, ER, E'. reflexivity.
      * reflexivity.
    + intros U. cbn [unusable] in U. destruct LEFT as [[C _]|[_ [x [EX XX]]]]; [contradiction|].
      apply (said _ _ (Invalid V) _ E).
      * rewrite G. cbn [elaborate]. rewrite EX, elaborate_lift, ER. cbn [option_map].
        destruct XX as [[? [? [? ->]]]|[? ->]]; reflexivity.
      * unfold shape_of. rewrite CPX. reflexivity.
Qed.
End Meaning.

(** ** As reported *)
From Verif.Model Require Import Macros Expression Vector StringUtil.
From Verif.Proofs Require Import MacroProofs.

Lemma expression_checked :
  forall (V : Type) (apply : op V -> V -> V -> option V) (for_constants : operator -> V -> V -> bool) (truth testable : V -> bool)
         (show : V -> option text) (first : V) (rest : list (op V * V)) (t : tree V V) (v : V),
  reads V 17 first rest t -> value V apply t = Some v -> ~ unusable V t ->
  exists t' c, reads V 17 None (behind_extractor V first rest) t' /\
    check_expression V apply for_constants truth testable show t t' = Some c /\
    says V apply for_constants truth testable show t c /\
    forall (max : nat) (all expected : bool) (macro source : text),
      exists x, Macros.to_expression max all macro expected source c = Ok x /\ (x_success x = true <-> truth v = expected) /\
        vcontent (x_actual x) = if negb (x_success x) || all then kept max (with_operands c) else [].
Proof.
  intros V apply fc truth testable show a l t v R E U.
  destruct (reads_exactly_one None (behind_extractor V a l)) as [t' [R' _]].
  destruct (check_meaning V apply fc truth testable show a l t t' v R R' E) as [_ H].
  destruct (H U) as [c [C [S HO]]]. exists t', c. split; [exact R'|]. split; [exact C|]. split; [exact S|].
  intros max all expected macro source.
  destruct (condition_built max all macro source expected c) as [x [EX [SX PX]]].
  exists x. split; [exact EX|]. split; [rewrite SX, HO; destruct (truth v), expected; cbn; intuition congruence|].
  unfold shown_condition in PX. injection PX as _ _ PX. rewrite PX, SX. reflexivity.
Qed.

Lemma expression_refused :
  forall (V : Type) (apply : op V -> V -> V -> option V) (for_constants : operator -> V -> V -> bool) (truth testable : V -> bool)
         (show : V -> option text) (first : V) (rest : list (op V * V)) (t : tree V V) (t' : tree V (option V)),
  reads V 17 first rest t -> reads V 17 None (behind_extractor V first rest) t' -> unusable V t ->
  check_expression V apply for_constants truth testable show t t' = None.
Proof.
  intros V apply fc truth testable show a l t t' R R' U.
  destruct (value V apply t) as [v|] eqn:E.
  - exact (proj1 (check_meaning V apply fc truth testable show a l t t' v R R' E) U).
  - unfold check_expression. rewrite E. destruct (elaborate V apply t'); reflexivity.
Qed.

(** Numbers, with 0 and 1 as truth values; assignments do not exist. *)
Definition of_bool (b : bool) : option nat := Some (if b then 1 else 0).
Definition on_numbers (o : op nat) (a b : nat) : option nat :=
  match o with
  | Plus _ => Some (a + b)
  | Times _ => Some (a * b)
  | Compare _ Less => of_bool (a <? b)
  | Compare _ Greater => of_bool (b <? a)
  | Compare _ LessEqual => of_bool (a <=? b)
  | Compare _ GreaterEqual => of_bool (b <=? a)
  | Compare _ Equal => of_bool (a =? b)
  | Compare _ NotEqual => of_bool (negb (a =? b))
  | And _ => of_bool (negb (a =? 0) && negb (b =? 0))
  | Or _ => of_bool (negb (a =? 0) || negb (b =? 0))
  | Conditional _ m => Some (if a =? 0 then b else m)
  | Comma _ => Some b
  | _ => None
  end.
Definition nonzero (n : nat) : bool := negb (n =? 0).
Definition always {A B C} (_ : A) (_ : B) (_ : C) : bool := true.
Definition any {A} (_ : A) : bool := true.
