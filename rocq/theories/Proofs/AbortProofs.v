(** Section events of bodies that may be aborted or skipped (C24). *)
From Verif.Spec Require Import TextSpec FilterSpec Events RunSpec VerdictSpec TreeSpec.
From Verif.Proofs Require Import Lists TreeProofs.
From Coq Require Import Arith Lia Bool String List.
Import ListNotations.
Local Open Scope list_scope.

Lemma sub_refl {A} (a : list A) : subsequence a a.
Proof. induction a; constructor; auto. Qed.
Lemma sub_app {A} (a b c d : list A) : subsequence a b -> subsequence c d -> subsequence (a ++ c) (b ++ d).
Proof.
  intros H H'. induction H as [b|x a b H IH|x a b H IH]; cbn.
  - induction b; cbn; auto. now constructor.
  - constructor. exact IH.
  - constructor. exact IH.
Qed.
Lemma sub_left {A} (a b c : list A) : subsequence a c -> subsequence a (b ++ c).
Proof. intros H. apply (sub_app [] b a c); auto. constructor. Qed.
Lemma sub_right {A} (a b c : list A) : subsequence a b -> subsequence a (b ++ c).
Proof. intros H. rewrite <- (app_nil_r a). apply sub_app; auto. constructor. Qed.
Lemma sub_trans {A} (b c : list A) : subsequence b c -> forall a, subsequence a b -> subsequence a c.
Proof.
  induction 1 as [c|x b c H IH|x b c H IH]; intros a H'.
  - inversion H'. constructor.
  - inversion H'; subst; constructor; auto.
  - constructor; auto.
Qed.
Lemma nested_app a b : nested a -> nested b -> nested (a ++ b).
Proof.
  induction 1 as [|s a a' H1 IH1 H2 IH2]; intros H; auto. rewrite <- app_comm_cons, <- app_assoc. cbn [app]. constructor; auto.
Qed.

Lemma no_leaves_walk p : leaves p = 0 -> walk p = [].
Proof.
  induction p as [|n k IHp|when y k IHp|line w abort e IHe k IHp|line message abort k IHp|sec b IHp1 k IHp2|texts b IHp1 k IHp2|accepts notify b IHp1 k IHp2];
    cbn [leaves walk]; intros L; auto; try lia; rewrite ?IHe, ?IHp, ?IHp1, ?IHp2 by lia; reflexivity.
Qed.
Lemma flat_leaves p : flat p -> leaves p = 0.
Proof.
  induction p as [|n k IHp|when y k IHp|line w abort e IHe k IHp|line message abort k IHp|sec b IHp1 k IHp2|texts b IHp1 k IHp2|accepts notify b IHp1 k IHp2];
    cbn [leaves flat]; intros L; auto; try contradiction; destruct L; rewrite ?IHe, ?IHp, ?IHp1, ?IHp2 by assumption; reflexivity.
Qed.
Section Abort.
Context {ID : Type}.
Variables (id : ID) (may should : bool) (mc mm : nat).
Notation B := (behave id may should mc mm).

Definition ends (gone : list (section_id * counts)) : list bracket := map (fun sc => End (fst sc)) (rev gone).
Definition closing (x : ending) : list bracket := match x with Finished => [] | Threw _ _ gone => ends gone end.

Definition beyond (t : option nat) (n : nat) : Prop := match t with None => True | Some j => n <= j end.

Lemma past_beyond t p n : beyond t (leaves p + n) -> beyond (past t p) n.
Proof. destruct t as [j|]; cbn [beyond past]; auto. intros H. destruct (Nat.ltb_spec j (leaves p)); cbn [beyond]; auto. lia. Qed.

Lemma assertion_brackets cx ok what s : let '(e, _, x) := assertion id may should cx ok what s in brackets e = [] /\ x = Finished.
Proof. unfold assertion. destruct (skipped s); auto. destruct ok; auto. Qed.

(** No section is entered beyond the leaf of this pass. *)
Lemma silent_behave p : forall pass cx t s, beyond t (leaves p) ->
  let '(ev, _, x) := B pass cx t p s in brackets ev = [] /\ closing x = [].
Proof.
  induction p as [|n k IHp|when y k IHp|line w abort e IHe k IHp|line message abort k IHp|sec b IHp1 k IHp2|texts b IHp1 k IHp2|accepts notify b IHp1 k IHp2];
    intros pass cx t s BY; cbn [behave leaves] in *.
  - auto.
  - cbn [after]. specialize (IHp pass cx t s BY). destruct (B pass cx t k s) as [[ev s'] x]. auto.
  - destruct (when pass); [auto|]. apply IHp. exact BY.
  - cbv zeta. specialize (IHe pass (mkctx (enclosing cx) (captured cx) (mkloc line InCheck)) None s Logic.I).
    destruct (B pass _ None e s) as [[ev s1] x]. destruct (conclusion mm pass w x) as [[ok what]|]; [|exact IHe].
    cbn [after]. pose proof (assertion_brackets (mkctx (enclosing cx) (captured cx) (mkloc line (precision pass e))) ok what s1) as A.
    destruct (assertion id may should _ ok what s1) as [[ea s2] xa]. destruct A as [A ->]. cbn [after].
    destruct (negb ok && abort).
    + rewrite !brackets_app, A, app_nil_r. split; [apply IHe|reflexivity].
    + specialize (IHp pass cx t s2). destruct (B pass cx t k s2) as [[ev' s'] x']. rewrite !brackets_app, A.
      destruct IHe as [-> _]. apply IHp. destruct t; cbn in *; auto. lia.
  - cbv zeta. cbn [after]. destruct abort; [split; reflexivity|]. specialize (IHp pass cx t (skip_state s) BY).
    destruct (B pass cx t k (skip_state s)) as [[ev s'] x]. auto.
  - destruct t as [j|].
    + cbn [beyond] in BY. cbv zeta. destruct (Nat.ltb_spec j (Nat.max 1 (leaves b))); [lia|]. apply IHp2. cbn [beyond]. lia.
    + apply IHp2. exact Logic.I.
  - cbv zeta. set (inside := mkctx _ _ _). specialize (IHp1 pass inside t s ltac:(destruct t; cbn [beyond] in *; auto; lia)).
    destruct (B pass inside t b s) as [[ev s1] x]. destruct x as [|x from gone]; cbn [after]; [|exact IHp1].
    specialize (IHp2 pass cx (past t b) s1 (past_beyond _ _ _ BY)). destruct (B pass cx (past t b) k s1) as [[ev' s'] x']. rewrite brackets_app.
    destruct IHp1 as [-> _]. exact IHp2.
  - specialize (IHp1 pass cx t s ltac:(destruct t; cbn [beyond] in *; auto; lia)). destruct (B pass cx t b s) as [[ev s1] x].
    specialize (IHp2 pass cx (past t b) s1 (past_beyond _ _ _ BY)). destruct x as [|x from gone]; cbn [after].
    + destruct (B pass cx (past t b) k s1) as [[ev' s'] x']. rewrite brackets_app. destruct IHp1 as [-> _]. exact IHp2.
    + destruct (accepts x); [|exact IHp1]. destruct (B pass cx (past t b) k s1) as [[ev' s'] x']. rewrite brackets_app. destruct IHp1 as [-> _]. exact IHp2.
Qed.

(** What is left of the walk before the pass for leaf [j]. *)
Fixpoint rest (j : nat) (p : prog) : list bracket :=
  match p with
  | Nil => []
  | Act _ k | Throw _ _ k | Skip _ _ _ k | Check _ _ _ _ k | Catch _ _ _ k => rest j k
  | InSection s b k =>
    let n := Nat.max 1 (leaves b) in
    if j <? n then (if j =? 0 then [Start s] else []) ++ rest j b ++ End s :: walk k else rest (j - n) k
  | Capture _ b k => if j <? leaves b then rest j b ++ walk k else rest (j - leaves b) k
  end.

Lemma rest_start p : regular p -> rest 0 p = walk p.
Proof using.
  clear - p. induction p as [|n k IHp|when y k IHp|line w abort e IHe k IHp|line message abort k IHp|sec b IHp1 k IHp2|texts b IHp1 k IHp2|accepts notify b IHp1 k IHp2];
    cbn [regular rest walk]; intros R; auto.
  - destruct R as (? & _ & ?). rewrite (no_leaves_walk e) by (apply flat_leaves; auto). auto.
  - destruct R. cbv zeta. destruct (Nat.ltb_spec 0 (Nat.max 1 (leaves b))); [|lia]. cbn [Nat.eqb app]. rewrite IHp1 by auto. reflexivity.
  - destruct R. destruct (Nat.ltb_spec 0 (leaves b)).
    + rewrite IHp1; auto.
    + rewrite (no_leaves_walk b) by lia. rewrite Nat.sub_0_l. auto.
  - destruct R as (_ & F & _ & R). rewrite (no_leaves_walk b) by (apply flat_leaves; auto). auto.
Qed.

Lemma regular_behave p : regular p -> forall pass cx j s, j < leaves p ->
  let '(ev, _, x) := B pass cx (Some j) p s in
  match x with
  | Finished => subsequence (brackets ev ++ rest (S j) p) (rest j p)
  | Threw _ _ gone => subsequence (brackets ev ++ ends gone) (rest j p)
  end.
Proof.
  induction p as [|n k IHp|when y k IHp|line w abort e IHe k IHp|line message abort k IHp|sec b IHp1 k IHp2|texts b IHp1 k IHp2|accepts notify b IHp1 k IHp2];
    intros R pass cx j s J; cbn [behave leaves rest regular] in *; try lia.
  - cbn [after]. specialize (IHp R pass cx j s J). destruct (B pass cx (Some j) k s) as [[ev s'] x]. exact IHp.
  - destruct (when pass); [constructor|]. apply IHp; auto.
  - destruct R as (CA & _ & R). cbv zeta. rewrite (flat_leaves e CA) in J. cbn [plus] in J.
    pose proof (silent_behave e pass (mkctx (enclosing cx) (captured cx) (mkloc line InCheck)) None s Logic.I) as IHe'.
    destruct (B pass _ None e s) as [[ev s1] x]. destruct IHe' as [X1 X2]. destruct (conclusion mm pass w x) as [[ok what]|] eqn:CO.
    2:{ destruct x; [destruct w; discriminate|]. cbn in X2. rewrite X1, X2. constructor. }
    cbn [after]. pose proof (assertion_brackets (mkctx (enclosing cx) (captured cx) (mkloc line (precision pass e))) ok what s1) as A.
    destruct (assertion id may should _ ok what s1) as [[ea s2] xa]. destruct A as [A ->]. cbn [after].
    destruct (negb ok && abort).
    + rewrite !brackets_app, A, X1. constructor.
    + specialize (IHp R pass cx j s2 J). destruct (B pass cx (Some j) k s2) as [[ev' s'] x']. rewrite !brackets_app, A, X1. exact IHp.
  - cbv zeta. cbn [after]. destruct abort; [constructor|]. specialize (IHp R pass cx j (skip_state s) J).
    destruct (B pass cx (Some j) k (skip_state s)) as [[ev s'] x]. exact IHp.
  - destruct R as [R1 R2]. cbv zeta. destruct (Nat.ltb_spec j (Nat.max 1 (leaves b))) as [JN|JN].
    + set (inside := mkctx _ _ _).
      assert (X : let '(ev, _, x) := B pass inside (Some j) b s in
        match x with Finished => subsequence (brackets ev ++ (if S j <? Nat.max 1 (leaves b) then rest (S j) b else [])) (rest j b)
        | Threw _ _ gone => subsequence (brackets ev ++ ends gone) (rest j b) end).
      { destruct (Nat.ltb_spec j (leaves b)) as [JB|JB].
        - specialize (IHp1 R1 pass inside j s JB). destruct (B pass inside (Some j) b s) as [[ev s'] x]. destruct x; auto.
          destruct (S j <? _); auto. eapply sub_trans; [exact IHp1|]. apply sub_app; [apply sub_refl|constructor].
        - pose proof (silent_behave b pass inside (Some j) s JB) as X. destruct (B pass inside (Some j) b s) as [[ev s'] x]. destruct X as [X1 X2].
          destruct x; cbn in X2; rewrite X1, ?X2; [|constructor]. destruct (Nat.ltb_spec (S j) (Nat.max 1 (leaves b))); [lia|constructor]. }
      destruct (B pass inside (Some j) b s) as [[ev s1] x]. destruct x as [|x from gone].
      * cbn [after]. pose proof (silent_behave k pass cx None s1 Logic.I) as Y. destruct (B pass cx None k s1) as [[ev' s'] x']. destruct Y as [Y1 Y2].
        rewrite !brackets_app, Y1, app_nil_r.
        assert (Z : forall l, subsequence l (walk k) -> (S j = Nat.max 1 (leaves b) \/ l = []) ->
          subsequence ((brackets (ID := ID) (if j =? 0 then [SectionStarted sec] else []) ++ brackets ev ++ brackets (ID := ID) (if S j =? Nat.max 1 (leaves b) then [SectionEnded sec (skipped s1) (tally ev)] else [])) ++ l)
             ((if j =? 0 then [Start sec] else []) ++ rest j b ++ End sec :: walk k)).
        { intros l SL SJ. rewrite <- !app_assoc. apply sub_app; [destruct (j =? 0); apply sub_refl|].
          apply sub_app; [eapply sub_trans; [exact X|]; apply sub_right, sub_refl|].
          destruct (Nat.eqb_spec (S j) (Nat.max 1 (leaves b))); cbn [brackets flat_map app]; [constructor; exact SL|].
          destruct SJ as [SJ| ->]; [lia|constructor]. }
        destruct x' as [|x' from' gone']; [|cbn in Y2; rewrite Y2; apply Z; auto; constructor].
        destruct (Nat.ltb_spec (S j) (Nat.max 1 (leaves b))) as [SJ|SJ].
        -- change (S j =? 0) with false. cbn [app]. destruct (Nat.eqb_spec (S j) (Nat.max 1 (leaves b))); [lia|].
           change (brackets (@nil (event ID))) with (@nil bracket). rewrite app_nil_r, <- app_assoc.
           apply sub_app; [destruct (j =? 0); apply sub_refl|]. rewrite app_assoc. apply sub_app; [exact X|apply sub_refl].
        -- replace (S j - Nat.max 1 (leaves b)) with 0 by lia. rewrite rest_start by auto. apply Z; [apply sub_refl|]. left. lia.
      * rewrite brackets_app, <- app_assoc. apply sub_app; [destruct (j =? 0); apply sub_refl|].
        unfold ends. cbn [rev]. rewrite map_app, app_assoc. cbn [map fst]. apply sub_app; [exact X|]. repeat constructor.
    + destruct (Nat.ltb_spec (S j) (Nat.max 1 (leaves b))); [lia|]. replace (S j - Nat.max 1 (leaves b)) with (S (j - Nat.max 1 (leaves b))) by lia.
      apply IHp2; auto. lia.
  - destruct R as [R1 R2]. cbv zeta. set (inside := mkctx _ _ _). cbn [past]. destruct (Nat.ltb_spec j (leaves b)) as [JB|JB].
    + specialize (IHp1 R1 pass inside j s JB). destruct (B pass inside (Some j) b s) as [[ev s1] x]. destruct x as [|x from gone]; cbn [after].
      * pose proof (silent_behave k pass cx None s1 Logic.I) as Y. destruct (B pass cx None k s1) as [[ev' s'] x']. destruct Y as [Y1 Y2].
        rewrite brackets_app, Y1, app_nil_r. destruct x' as [|x' from' gone'].
        -- destruct (Nat.ltb_spec (S j) (leaves b)).
           ++ rewrite app_assoc. apply sub_app; auto using sub_refl.
           ++ replace (S j - leaves b) with 0 by lia. rewrite rest_start by auto. apply sub_app; [|apply sub_refl].
              eapply sub_trans; [exact IHp1|]. apply sub_right, sub_refl.
        -- cbn in Y2. rewrite Y2. apply sub_right. eapply sub_trans; [exact IHp1|]. apply sub_app; [apply sub_refl|constructor].
      * apply sub_right. exact IHp1.
    + pose proof (silent_behave b pass inside (Some j) s JB) as X. destruct (B pass inside (Some j) b s) as [[ev s1] x]. destruct X as [X1 X2].
      destruct (Nat.ltb_spec (S j) (leaves b)); [lia|]. replace (S j - leaves b) with (S (j - leaves b)) by lia.
      destruct x as [|x from gone]; cbn [after]; [|cbn in X2; rewrite X1, X2; constructor].
      specialize (IHp2 R2 pass cx (j - leaves b) s1 ltac:(lia)). destruct (B pass cx (Some (j - leaves b)) k s1) as [[ev' s'] x'].
      rewrite brackets_app, X1. exact IHp2.
  - destruct R as (_ & FB & _ & R2). apply flat_leaves in FB. rewrite FB in J. cbn [plus past] in *. rewrite FB.
    pose proof (silent_behave b pass cx (Some j) s ltac:(cbn; lia)) as X. destruct (B pass cx (Some j) b s) as [[ev s1] x]. destruct X as [X1 X2].
    cbn [Nat.ltb Nat.leb]. rewrite Nat.sub_0_r.
    specialize (IHp2 R2 pass cx j s1 ltac:(lia)). destruct (B pass cx (Some j) k s1) as [[ev' s'] x'] eqn:E.
    destruct x as [|x from gone].
    + cbn [after]. rewrite E, brackets_app, X1. exact IHp2.
    + destruct (accepts x); [cbn [after]; rewrite E, brackets_app, X1; exact IHp2|]. cbn in X2. rewrite X1, X2. constructor.
Qed.

(** Without sections side by side inside a section, the events of a pass are well nested. *)
Lemma narrow_behave p : regular p -> narrow p -> forall pass cx t s,
  let '(ev, _, x) := B pass cx t p s in nested (brackets ev ++ closing x).
Proof.
  induction p as [|n k IHp|when y k IHp|line w abort e IHe k IHp|line message abort k IHp|sec b IHp1 k IHp2|texts b IHp1 k IHp2|accepts notify b IHp1 k IHp2];
    intros R NA pass cx t s; cbn [behave regular narrow] in *.
  - constructor.
  - cbn [after]. specialize (IHp R NA pass cx t s). destruct (B pass cx t k s) as [[ev s'] x]. exact IHp.
  - destruct (when pass); [constructor|]. apply IHp; auto.
  - destruct R as (CA & _ & R), NA as [_ NA]. cbv zeta.
    pose proof (silent_behave e pass (mkctx (enclosing cx) (captured cx) (mkloc line InCheck)) None s Logic.I) as IHe'.
    destruct (B pass _ None e s) as [[ev s1] x]. destruct IHe' as [X1 X2]. destruct (conclusion mm pass w x) as [[ok what]|].
    2:{ rewrite X1, X2. constructor. }
    cbn [after]. pose proof (assertion_brackets (mkctx (enclosing cx) (captured cx) (mkloc line (precision pass e))) ok what s1) as A.
    destruct (assertion id may should _ ok what s1) as [[ea s2] xa]. destruct A as [A ->]. cbn [after].
    destruct (negb ok && abort).
    + rewrite !brackets_app, A, X1. constructor.
    + specialize (IHp R NA pass cx t s2). destruct (B pass cx t k s2) as [[ev' s'] x']. rewrite !brackets_app, A, X1. exact IHp.
  - cbv zeta. cbn [after]. destruct abort; [constructor|]. specialize (IHp R NA pass cx t (skip_state s)).
    destruct (B pass cx t k (skip_state s)) as [[ev s'] x]. exact IHp.
  - destruct R as [R1 R2], NA as (NL & N1 & N2). destruct t as [j|]; [|apply IHp2; auto]. cbv zeta.
    destruct (Nat.ltb_spec j (Nat.max 1 (leaves b))) as [JN|JN]; [|apply IHp2; auto].
    assert (j = 0) by lia. subst j. set (inside := mkctx _ _ _). specialize (IHp1 R1 N1 pass inside (Some 0) s).
    destruct (B pass inside (Some 0) b s) as [[ev s1] x]. destruct x as [|x from gone].
    + cbn [after]. specialize (IHp2 R2 N2 pass cx None s1). destruct (B pass cx None k s1) as [[ev' s'] x'].
      replace (1 =? Nat.max 1 (leaves b)) with true by (symmetry; apply Nat.eqb_eq; lia). cbn [Nat.eqb].
      rewrite !brackets_app, <- !app_assoc. cbn [brackets flat_map app]. cbn [closing] in IHp1. rewrite app_nil_r in IHp1.
      constructor; auto.
    + cbn [Nat.eqb closing] in *. unfold ends in *. rewrite brackets_app. cbn [brackets flat_map app rev]. rewrite map_app, app_assoc. cbn [map fst].
      constructor; auto. constructor.
  - destruct R as [R1 R2], NA as [N1 N2]. cbv zeta. set (inside := mkctx _ _ _). specialize (IHp1 R1 N1 pass inside t s).
    destruct (B pass inside t b s) as [[ev s1] x]. destruct x as [|x from gone]; cbn [after]; [|exact IHp1].
    specialize (IHp2 R2 N2 pass cx (past t b) s1). destruct (B pass cx (past t b) k s1) as [[ev' s'] x']. rewrite brackets_app, <- app_assoc.
    cbn [closing] in IHp1. rewrite app_nil_r in IHp1. apply nested_app; auto.
  - destruct R as (_ & FB & R1 & R2), NA as [N1 N2]. specialize (IHp2 R2 N2 pass cx (past t b)).
    pose proof (silent_behave b pass cx t s ltac:(rewrite (flat_leaves b FB); destruct t; cbn; auto; lia)) as X.
    destruct (B pass cx t b s) as [[ev s1] x]. destruct X as [X1 X2]. specialize (IHp2 s1).
    destruct (B pass cx (past t b) k s1) as [[ev' s'] x'] eqn:E. destruct x as [|x from gone].
    + cbn [after]. rewrite E, brackets_app, X1. exact IHp2.
    + destruct (accepts x); [cbn [after]; rewrite E, brackets_app, X1; exact IHp2|]. rewrite X1, X2. constructor.
Qed.

Notation BP := (behave_passes id may should mc mm).

Lemma regular_passes cx p : regular p -> forall n j s, leaves p <= j + n -> (n = 0 -> leaves p <= j) ->
  let '(ev, _, x) := BP cx p n j s in subsequence (brackets ev ++ closing x) (rest j p).
Proof.
  intros R. induction n as [|n IH]; intros j s L N; cbn [behave_passes]; [constructor|].
  assert (X : let '(ev, _, x) := B j cx (Some j) p s in
     match x with Finished => subsequence (brackets ev ++ if j <? leaves p then rest (S j) p else []) (rest j p) | Threw _ _ gone => subsequence (brackets ev ++ ends gone) (rest j p) end).
  { destruct (Nat.ltb_spec j (leaves p)); [apply regular_behave; auto|].
    pose proof (silent_behave p j cx (Some j) s H) as X. destruct (B j cx (Some j) p s) as [[ev s1] x]. destruct X as [X1 X2].
    destruct x; cbn in X2; rewrite X1, ?X2; constructor. }
  destruct (B j cx (Some j) p s) as [[ev s1] x]. destruct x as [|x from gone]; cbn [after]; [|exact X].
  assert (X' : subsequence (brackets ev) (rest j p)) by (eapply sub_trans; [exact X|]; apply sub_right, sub_refl).
  destruct (skipped s1).
  - cbn [closing]. rewrite !app_nil_r. exact X'.
  - destruct (Nat.ltb_spec j (leaves p)).
    + specialize (IH (S j) s1 ltac:(lia) ltac:(lia)). destruct (BP cx p n (S j) s1) as [[ev' s'] x'].
      rewrite brackets_app, <- app_assoc. eapply sub_trans; [exact X|]. apply sub_app; [apply sub_refl|exact IH].
    + assert (Y : forall n j s, leaves p <= j -> let '(ev, _, x) := BP cx p n j s in brackets ev = [] /\ closing x = []).
      { clear - R. induction n as [|n IH]; intros j s H; cbn [behave_passes]; [split; reflexivity|].
        pose proof (silent_behave p j cx (Some j) s H) as X. destruct (B j cx (Some j) p s) as [[ev s1] x]. destruct X as [X1 X2].
        destruct x; cbn [after]; auto. destruct (skipped s1); [rewrite app_nil_r; auto|]. specialize (IH (S j) s1 ltac:(lia)).
        destruct (BP cx p n (S j) s1) as [[ev' s'] x']. rewrite brackets_app, X1. exact IH. }
      specialize (Y n (S j) s1 ltac:(lia)). destruct (BP cx p n (S j) s1) as [[ev' s'] x']. destruct Y as [Y1 Y2].
      rewrite brackets_app, Y1, Y2, !app_nil_r. exact X'.
Qed.

Lemma narrow_passes cx p : regular p -> narrow p -> forall n j s,
  let '(ev, _, x) := BP cx p n j s in nested (brackets ev ++ closing x).
Proof.
  intros R NA. induction n as [|n IH]; intros j s; cbn [behave_passes]; [constructor|].
  pose proof (narrow_behave p R NA j cx (Some j) s) as X. destruct (B j cx (Some j) p s) as [[ev s1] x].
  destruct x as [|x from gone]; cbn [after]; [|exact X]. cbn [closing] in X. rewrite app_nil_r in X.
  destruct (skipped s1); [cbn [closing]; rewrite !app_nil_r; exact X|].
  specialize (IH (S j) s1). destruct (BP cx p n (S j) s1) as [[ev' s'] x']. rewrite brackets_app, <- app_assoc. apply nested_app; auto.
Qed.

Lemma escaped_brackets line x s : let '(ev, _, _) := escaped id may should mm line x s in brackets ev = closing x.
Proof.
  destruct x as [|y from gone]; cbn [escaped].
  - pose proof (assertion_brackets (mkctx [] [] (mkloc line Exact)) true (Message (quote "no exception caught")) s) as A.
    destruct (assertion _ _ _ _ _ _ _) as [[e1 s1] x1]. apply A.
  - assert (G : forall e s1, brackets e = [] ->
      brackets (e ++ map (fun sc => SectionEnded (ID := ID) (fst sc) (skipped s1) (fold_right tally1 (snd sc) e)) (rev gone)) = ends gone).
    { intros e s1 H. rewrite brackets_app, H. unfold ends. cbn [app]. generalize (rev gone). induction l; [reflexivity|].
      cbn [map brackets flat_map app]. f_equal. exact IHl. }
    destruct y; cbv zeta.
    + apply G. reflexivity.
    + pose proof (assertion_brackets from false (Message (fit mm (quote "unexpected std::exception caught; message: " ++ what))) s) as A.
      destruct (assertion _ _ _ _ _ _ _) as [[e1 s1] x1]. apply G, A.
    + pose proof (assertion_brackets from false (Message (quote "unexpected unknown exception caught")) s) as A.
      destruct (assertion _ _ _ _ _ _ _) as [[e1 s1] x1]. apply G, A.
Qed.

Lemma case_brackets line p : exists e1 s1 x body c s, 
  BP (mkctx [] [] (mkloc line TestCaseScope)) p (number_of_passes p) 0 Success = (e1, s1, x) /\
  behave_case id may should mc mm line p = ([TestCaseStarted id line] ++ body ++ [TestCaseEnded id line c s], s) /\
  brackets body = brackets e1 ++ closing x.
Proof.
  unfold behave_case. destruct (BP _ p _ 0 Success) as [[e1 s1] x] eqn:E1. pose proof (escaped_brackets line x s1) as E2.
  destruct (escaped id may should mm line x s1) as [[e2 s2] x2].
  destruct (if should then _ else _) as [[e3 s3] x3] eqn:E3.
  assert (B3 : brackets e3 = []).
  { destruct should; [|now injection E3 as <- _ _].
    unfold assertion in E3. destruct (skipped s2); [now injection E3 as <- _ _|]. destruct (match s2 with AllowedFail => true | _ => false end); now injection E3 as <- _ _. }
  exists e1, s1, x, (e1 ++ e2 ++ e3), (tally (e1 ++ e2 ++ e3)), s3. split; [reflexivity|]. split; [rewrite <- !app_assoc; reflexivity|].
  rewrite !brackets_app, E2, B3, app_nil_r. reflexivity.
Qed.
End Abort.
