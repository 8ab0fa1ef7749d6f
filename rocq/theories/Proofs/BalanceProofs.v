(** No section ends more often than it starts (C65). *)
From Verif.Spec Require Import TextSpec FilterSpec Events RunSpec VerdictSpec TreeSpec.
From Verif.Proofs Require Import Lists TreeProofs AbortProofs.
From Coq Require Import Arith Lia Bool String List.
Import ListNotations.
Local Open Scope list_scope.

Section Balance.
Variable f : section_id -> bool.
Definition weight (s : section_id) : nat := if f s then 1 else 0.

(** The number of open sections, [None] if it would be negative. *)
Fixpoint climb (k : nat) (l : list bracket) : option nat :=
  match l with
  | [] => Some k
  | Start s :: l' => climb (weight s + k) l'
  | End s :: l' => if weight s <=? k then climb (k - weight s) l' else None
  end.
Lemma climb_app a : forall b k, climb k (a ++ b) = match climb k a with Some k' => climb k' b | None => None end.
Proof. induction a as [|[s|s] a IH]; intros b k; cbn [climb app]; auto. destruct (_ <=? _); auto. Qed.
Lemma climb_more m l : forall k k', climb k l = Some k' -> climb (m + k) l = Some (m + k').
Proof.
  induction l as [|[s|s] l IH]; intros k k'; cbn [climb]; [congruence| |].
  - intros H. apply IH in H. rewrite <- H. f_equal. lia.
  - destruct (Nat.leb_spec (weight s) k); [|discriminate]. intros H0. apply IH in H0. destruct (Nat.leb_spec (weight s) (m + k)); [|lia].
    rewrite <- H0. f_equal. lia.
Qed.
Lemma climb_exact l : forall k k', climb k l = Some k' -> k + starts_in f l = k' + ends_in f l.
Proof.
  unfold starts_in, ends_in, weight. induction l as [|[s|s] l IH]; intros k k'; cbn [climb filter length]; [intros [= ->]; lia| |].
  - intros H. apply IH in H. unfold weight in H. destruct (f s); cbn [length]; lia.
  - destruct (Nat.leb_spec (weight s) k); [|discriminate]. intros H0. apply IH in H0. unfold weight in *. destruct (f s); cbn [length]; lia.
Qed.

(** The sections open before pass [j]: those that contain the leaves [j - 1] and [j]. *)
Fixpoint opened (j : nat) (p : prog) : nat :=
  match p with
  | Nil => 0
  | Act _ k | Throw _ _ k | Skip _ _ _ k | Check _ _ _ _ k => opened j k
  | InSection s b k =>
    let n := Nat.max 1 (leaves b) in
    if j <? n then if j =? 0 then 0 else weight s + opened j b else opened (j - n) k
  | Capture _ b k | Catch _ _ b k => if j <? leaves b then opened j b else opened (j - leaves b) k
  end.
Lemma opened_0 p : opened 0 p = 0.
Proof.
  induction p; cbn [opened]; auto.
  - destruct (Nat.ltb_spec 0 (Nat.max 1 (leaves p1))); [reflexivity|lia].
  - destruct (0 <? leaves p1); auto.
  - destruct (0 <? leaves p1); auto.
Qed.
Lemma opened_end p : regular p -> forall j, leaves p <= j -> opened j p = 0.
Proof.
  induction p as [|n k IHp|when y k IHp|line w abort e IHe k IHp|line message abort k IHp|sec b IHp1 k IHp2|texts b IHp1 k IHp2|accepts notify b IHp1 k IHp2];
    cbn [opened leaves regular]; intros R j H; auto.
  - destruct R as (_ & _ & ?). apply IHp; auto; lia.
  - destruct R. destruct (Nat.ltb_spec j (Nat.max 1 (leaves b))); [lia|]. apply IHp2; auto; lia.
  - destruct R. destruct (Nat.ltb_spec j (leaves b)); [lia|]. apply IHp2; auto; lia.
  - destruct R as (_ & _ & _ & R). destruct (Nat.ltb_spec j (leaves b)); [lia|]. apply IHp2; auto; lia.
Qed.

Section Behaviour.
Context {ID : Type}.
Variables (id : ID) (may should : bool) (mc mm : nat).
Notation B := (behave id may should mc mm).
Notation BP := (behave_passes id may should mc mm).

Lemma opened_behave p : regular p -> forall pass cx j s, j < leaves p ->
  let '(ev, _, x) := B pass cx (Some j) p s in
  match x with
  | Finished => climb (opened j p) (brackets ev) = Some (opened (S j) p)
  | Threw _ _ gone => exists k, climb (opened j p) (brackets ev ++ ends gone) = Some k
  end.
Proof.
  induction p as [|n k IHp|when y k IHp|line w abort e IHe k IHp|line message abort k IHp|sec b IHp1 k IHp2|texts b IHp1 k IHp2|accepts notify b IHp1 k IHp2];
    intros R pass cx j s J; cbn [behave leaves opened regular] in *; try lia.
  - cbn [after]. specialize (IHp R pass cx j s J). destruct (B pass cx (Some j) k s) as [[ev s'] x]. exact IHp.
  - destruct (when pass); [cbn; eauto|]. apply IHp; auto.
  - destruct R as (CA & _ & R). cbv zeta. rewrite (flat_leaves e CA) in J. cbn [plus] in J.
    pose proof (silent_behave id may should mc mm e pass (mkctx (enclosing cx) (captured cx) (mkloc line InCheck)) None s Logic.I) as IHe'.
    destruct (B pass _ None e s) as [[ev s1] x]. destruct IHe' as [X1 X2]. destruct (conclusion mm pass w x) as [[ok what]|] eqn:CO.
    2:{ destruct x; [destruct w; discriminate|]. cbn in X2. rewrite X1, X2. cbn; eauto. }
    cbn [after]. pose proof (assertion_brackets id may should (mkctx (enclosing cx) (captured cx) (mkloc line (precision pass e))) ok what s1) as A.
    destruct (assertion id may should _ ok what s1) as [[ea s2] xa]. destruct A as [A ->]. cbn [after].
    destruct (negb ok && abort).
    + rewrite !brackets_app, A, X1. cbn; eauto.
    + specialize (IHp R pass cx j s2 J). destruct (B pass cx (Some j) k s2) as [[ev' s'] x']. rewrite !brackets_app, A, X1. exact IHp.
  - cbv zeta. cbn [after]. destruct abort; [cbn; eauto|]. specialize (IHp R pass cx j (skip_state s) J).
    destruct (B pass cx (Some j) k (skip_state s)) as [[ev s'] x]. exact IHp.
  - destruct R as [R1 R2]. cbv zeta. destruct (Nat.ltb_spec j (Nat.max 1 (leaves b))) as [JN|JN].
    + set (inside := mkctx _ _ _).
      assert (X : let '(ev, _, x) := B pass inside (Some j) b s in
        match x with Finished => climb (opened j b) (brackets ev) = Some (opened (S j) b)
        | Threw _ _ gone => exists k, climb (opened j b) (brackets ev ++ ends gone) = Some k end).
      { destruct (Nat.ltb_spec j (leaves b)) as [JB|JB]; [apply IHp1; auto|].
        pose proof (silent_behave id may should mc mm b pass inside (Some j) s JB) as X. destruct (B pass inside (Some j) b s) as [[ev s'] x]. destruct X as [X1 X2].
        destruct x; cbn in X2; rewrite X1, ?X2; [|cbn; eauto]. rewrite !opened_end by (auto; lia). reflexivity. }
      assert (ST : forall l, climb (if j =? 0 then 0 else weight sec + opened j b) (brackets (ID := ID) (if j =? 0 then [SectionStarted sec] else []) ++ l) = climb (weight sec + opened j b) l).
      { intros l. destruct (Nat.eqb_spec j 0); [|reflexivity]. subst j. cbn [brackets flat_map app climb]. now rewrite opened_0. }
      destruct (B pass inside (Some j) b s) as [[ev s1] x]. destruct x as [|x from gone].
      * cbn [after]. pose proof (silent_behave id may should mc mm k pass cx None s1 Logic.I) as Y. destruct (B pass cx None k s1) as [[ev' s'] x']. destruct Y as [Y1 Y2].
        apply (climb_more (weight sec)) in X. rewrite !brackets_app, Y1, app_nil_r. 
        assert (Z : climb (if j =? 0 then 0 else weight sec + opened j b)
           (brackets (ID := ID) (if j =? 0 then [SectionStarted sec] else []) ++ brackets ev ++ brackets (ID := ID) (if S j =? Nat.max 1 (leaves b) then [SectionEnded sec (skipped s1) (tally ev)] else [])) =
           Some (if S j =? Nat.max 1 (leaves b) then opened (S j) b else weight sec + opened (S j) b)).
        { rewrite ST, climb_app, X. destruct (S j =? _); cbn [brackets flat_map app climb]; [|reflexivity]. destruct (Nat.leb_spec (weight sec) (weight sec + opened (S j) b)); [|lia]. f_equal. lia. }
        destruct x' as [|x' from' gone'].
        -- rewrite Z. f_equal. destruct (Nat.ltb_spec (S j) (Nat.max 1 (leaves b))) as [SJ|SJ].
           ++ destruct (Nat.eqb_spec (S j) (Nat.max 1 (leaves b))); [lia|reflexivity].
           ++ destruct (Nat.eqb_spec (S j) (Nat.max 1 (leaves b))); [|lia]. replace (S j - Nat.max 1 (leaves b)) with 0 by lia. rewrite opened_0. apply opened_end; auto. lia.
        -- cbn in Y2. rewrite Y2, app_nil_r, Z. eauto.
      * destruct X as (k' & X). apply (climb_more (weight sec)) in X. rewrite brackets_app, <- app_assoc. unfold ends. cbn [rev]. rewrite map_app, app_assoc. fold (ends gone). cbn [map fst].
        rewrite app_assoc, <- app_assoc, app_assoc, <- (app_assoc _ (brackets ev)), <- app_assoc, ST, climb_app, X. cbn [climb]. destruct (Nat.leb_spec (weight sec) (weight sec + k')); [eauto|lia].
    + destruct (Nat.ltb_spec (S j) (Nat.max 1 (leaves b))); [lia|]. replace (S j - Nat.max 1 (leaves b)) with (S (j - Nat.max 1 (leaves b))) by lia.
      apply IHp2; auto. lia.
  - destruct R as [R1 R2]. cbv zeta. set (inside := mkctx _ _ _). cbn [past]. destruct (Nat.ltb_spec j (leaves b)) as [JB|JB].
    + specialize (IHp1 R1 pass inside j s JB). destruct (B pass inside (Some j) b s) as [[ev s1] x]. destruct x as [|x from gone]; cbn [after].
      * pose proof (silent_behave id may should mc mm k pass cx None s1 Logic.I) as Y. destruct (B pass cx None k s1) as [[ev' s'] x']. destruct Y as [Y1 Y2].
        rewrite brackets_app, Y1, app_nil_r. destruct x' as [|x' from' gone'].
        -- rewrite IHp1. f_equal. destruct (Nat.ltb_spec (S j) (leaves b)); [reflexivity|].
           replace (S j - leaves b) with 0 by lia. rewrite opened_0. apply opened_end; auto.
        -- cbn in Y2. rewrite Y2, app_nil_r, IHp1. eauto.
      * exact IHp1.
    + pose proof (silent_behave id may should mc mm b pass inside (Some j) s JB) as X. destruct (B pass inside (Some j) b s) as [[ev s1] x]. destruct X as [X1 X2].
      destruct (Nat.ltb_spec (S j) (leaves b)); [lia|]. replace (S j - leaves b) with (S (j - leaves b)) by lia.
      destruct x as [|x from gone]; cbn [after]; [|cbn in X2; rewrite X1, X2; cbn; eauto].
      specialize (IHp2 R2 pass cx (j - leaves b) s1 ltac:(lia)). destruct (B pass cx (Some (j - leaves b)) k s1) as [[ev' s'] x'].
      rewrite brackets_app, X1. exact IHp2.
  - destruct R as (_ & FB & _ & R2). apply flat_leaves in FB. rewrite FB in J. cbn [plus past] in *. rewrite FB.
    pose proof (silent_behave id may should mc mm b pass cx (Some j) s ltac:(cbn; lia)) as X. destruct (B pass cx (Some j) b s) as [[ev s1] x]. destruct X as [X1 X2].
    cbn [Nat.ltb Nat.leb]. rewrite Nat.sub_0_r. change (S j - 0) with (S j).
    specialize (IHp2 R2 pass cx j s1 ltac:(lia)). destruct (B pass cx (Some j) k s1) as [[ev' s'] x'] eqn:E.
    destruct x as [|x from gone].
    + cbn [after]. rewrite E, brackets_app, X1. exact IHp2.
    + destruct (accepts x); [cbn [after]; rewrite E, brackets_app, X1; exact IHp2|]. cbn in X2. rewrite X1, X2. cbn; eauto.
Qed.

Lemma opened_passes cx p : regular p -> forall n j s,
  let '(ev, _, x) := BP cx p n j s in exists k, climb (opened j p) (brackets ev ++ closing x) = Some k.
Proof.
  intros R. induction n as [|n IH]; intros j s; cbn [behave_passes]; [cbn; eauto|].
  assert (X : let '(ev, _, x) := B j cx (Some j) p s in
     match x with Finished => climb (opened j p) (brackets ev) = Some (opened (S j) p) | Threw _ _ gone => exists k, climb (opened j p) (brackets ev ++ ends gone) = Some k end).
  { destruct (Nat.ltb_spec j (leaves p)); [apply opened_behave; auto|].
    pose proof (silent_behave id may should mc mm p j cx (Some j) s H) as X. destruct (B j cx (Some j) p s) as [[ev s1] x]. destruct X as [X1 X2].
    destruct x; cbn in X2; rewrite X1, ?X2; [|cbn; eauto]. rewrite !opened_end by (auto; lia). reflexivity. }
  destruct (B j cx (Some j) p s) as [[ev s1] x]. destruct x as [|x from gone]; cbn [after]; [|exact X].
  destruct (skipped s1).
  - cbn [closing]. rewrite !app_nil_r, X. eauto.
  - specialize (IH (S j) s1). destruct (BP cx p n (S j) s1) as [[ev' s'] x']. rewrite brackets_app, <- app_assoc, climb_app, X. exact IH.
Qed.

Lemma balanced_case line p : regular p -> exists body c s k,
  behave_case id may should mc mm line p = ([TestCaseStarted id line] ++ body ++ [TestCaseEnded id line c s], s) /\
  climb 0 (brackets body) = Some k.
Proof.
  intros R. destruct (case_brackets id may should mc mm line p) as (e1 & s1 & x & body & c & s & E1 & E2 & E3).
  pose proof (opened_passes (mkctx [] [] (mkloc line TestCaseScope)) p R (number_of_passes p) 0 Success) as X. rewrite E1, opened_0 in X. destruct X as (k & X).
  exists body, c, s, k. split; [exact E2|]. now rewrite E3.
Qed.
End Behaviour.
End Balance.

Lemma climbs_ends l : (forall f, exists k, climb f 0 l = Some k) -> ends_after_start l.
Proof.
  intros H f a b ->. destruct (H f) as (k & E). rewrite climb_app in E. destruct (climb f 0 a) as [k'|] eqn:A; [|discriminate].
  apply climb_exact in A. lia.
Qed.
