(** Exactly which section events are reported for a body that may be aborted or skipped (C24). *)
From Verif.Spec Require Import TextSpec FilterSpec Events RunSpec VerdictSpec TreeSpec AbortSpec.
From Verif.Model Require Import Base Filter Run.
From Verif.Proofs Require Import Lists TreeProofs CaseProofs AbortProofs RunFacts.
From Coq Require Import Arith Lia Bool String List.
Import ListNotations.
Local Open Scope list_scope.

(** ** Stacks of sections, innermost first *)
Inductive stacked : list section_id -> list bracket -> list section_id -> Prop :=
| st_nil o : stacked o [] o
| st_start o s l o' : stacked (s :: o) l o' -> stacked o (Start s :: l) o'
| st_end o s l o' : stacked o l o' -> stacked (s :: o) (End s :: l) o'.
Lemma stacked_app o a o1 : stacked o a o1 -> forall b o2, stacked o1 b o2 -> stacked o (a ++ b) o2.
Proof. induction 1; cbn [app]; auto using stacked. Qed.
Lemma stacked_split a : forall o b o2, stacked o (a ++ b) o2 -> exists o1, stacked o a o1 /\ stacked o1 b o2.
Proof.
  induction a as [|x a IH]; intros o b o2 H; cbn [app] in H; [eauto using stacked|].
  inversion H; subst; destruct (IH _ _ _ H4) as (o1 & A & B) || destruct (IH _ _ _ H3) as (o1 & A & B); eauto using stacked.
Qed.
Lemma stacked_function o a o1 : stacked o a o1 -> forall o2, stacked o a o2 -> o1 = o2.
Proof. induction 1; intros o2 H'; inversion H'; subst; auto. Qed.
Lemma nested_stacked l : nested l -> forall o, stacked o l o.
Proof. induction 1 as [|s a b A IA B IB]; intros o; [constructor|]. constructor. eapply stacked_app; [apply IA|]. constructor. apply IB. Qed.
Fixpoint unstack (o : list section_id) (l : list bracket) : Prop :=
  match o with
  | [] => nested l
  | s :: o' => exists a b, l = a ++ End s :: b /\ nested a /\ unstack o' b
  end.
Lemma stacked_unstack o l o' : stacked o l o' -> o' = [] -> unstack o l.
Proof.
  induction 1 as [o|o s l o' H IH|o s l o' H IH]; intros E.
  - subst o. constructor.
  - destruct (IH E) as (a & b & -> & A & U). destruct o as [|s' o]; cbn [unstack] in *; [now constructor|].
    destruct U as (a' & b' & -> & A' & U). exists (Start s :: a ++ End s :: a'), b'. split; [cbn; now rewrite <- app_assoc|]. split; [now constructor|exact U].
  - exists [], l. split; [reflexivity|]. split; [constructor|auto].
Qed.
Lemma nested_iff l : nested l <-> stacked [] l [].
Proof. split; [intros N; now apply nested_stacked|intros S; now apply (stacked_unstack _ _ _ S)]. Qed.
Lemma stacked_open o l o' : stacked o l o' -> open_after (rev o) l = rev o'.
Proof. induction 1; cbn [open_after rev] in *; auto. now rewrite removelast_last. Qed.
Lemma stacked_ends left : forall o, stacked o (map End (rev left)) [] <-> o = rev left.
Proof.
  intros o. generalize (rev left). clear left. intros l. revert o. induction l as [|s l IH]; intros o; cbn [map].
  - split; [intros H; inversion H; auto|intros ->; constructor].
  - split; [intros H; inversion H; subst; f_equal; now apply IH|intros ->; constructor; now apply IH].
Qed.
Lemma nested_prefix p prefix later left : walk p = prefix ++ later ->
  (nested (prefix ++ map End (rev left)) <-> left = open_after [] prefix).
Proof.
  intros W. pose proof (nested_stacked _ (walk_nested p) []) as S. rewrite W in S. destruct (stacked_split _ _ _ _ S) as (o & A & _).
  pose proof (stacked_open _ _ _ A) as O. cbn [rev] in O. rewrite O, nested_iff. split.
  - intros N. destruct (stacked_split _ _ _ _ N) as (o1 & A1 & B1). rewrite (stacked_function _ _ _ A _ A1). apply stacked_ends in B1. subst o1. now rewrite rev_involutive.
  - intros ->. eapply stacked_app; [exact A|]. apply stacked_ends. now rewrite rev_involutive.
Qed.

Section Prefix.
Context {ID : Type}.
Variables (id : ID) (may should : bool) (mc mm : nat).
Notation B := (behave id may should mc mm).

(** Where the exception was thrown. *)
Definition source (pass : nat) (p : prog) (x : ending) : Prop :=
  match x with
  | Finished => True
  | Threw _ _ gone => exists q captures, stands mc pass p q (map fst gone) captures /\ can_abort pass q
  end.
Lemma source_sub pass p q x : (forall r s c, stands mc pass q r s c -> exists c', stands mc pass p r s c') -> source pass q x -> source pass p x.
Proof. destruct x as [|y from gone]; cbn [source]; auto. intros H (r & c & S & A). destruct (H _ _ _ S) as (c' & S'). eauto. Qed.

Lemma source_behave p : forall pass cx t s, let '(_, _, x) := B pass cx t p s in source pass p x.
Proof.
  induction p as [|n k IHp|when y k IHp|line w abort e IHe k IHp|line message abort k IHp|sec b IHp1 k IHp2|texts b IHp1 k IHp2|accepts notify b IHp1 k IHp2];
    intros pass cx t s; cbn [behave].
  - exact Logic.I.
  - cbn [after]. specialize (IHp pass cx t s). destruct (B pass cx t k s) as [[ev s'] x]. eapply source_sub; [|exact IHp]. eauto using @stands.
  - destruct (when pass) eqn:W; [exists (Throw when y k), []; split; [constructor|exact W]|].
    specialize (IHp pass cx t s). destruct (B pass cx t k s) as [[ev s'] x]. eapply source_sub; [|exact IHp]. eauto using @stands.
  - cbv zeta. specialize (IHe pass (mkctx (enclosing cx) (captured cx) (mkloc line InCheck)) None s).
    destruct (B pass _ None e s) as [[ev s1] x]. destruct (conclusion mm pass w x) as [[ok what]|].
    2:{ eapply source_sub; [|exact IHe]. eauto using @stands. }
    cbn [after]. pose proof (assertion_brackets id may should (mkctx (enclosing cx) (captured cx) (mkloc line (precision pass e))) ok what s1) as A.
    destruct (assertion id may should _ ok what s1) as [[ea s2] xa]. destruct A as [A ->]. cbn [after].
    destruct ok, abort; cbn [negb andb].
    2: { specialize (IHp pass cx t s2). destruct (B pass cx t k s2) as [[ev' s'] x']. eapply source_sub; [|exact IHp]. eauto using @stands. }
    3: { specialize (IHp pass cx t s2). destruct (B pass cx t k s2) as [[ev' s'] x']. eapply source_sub; [|exact IHp]. eauto using @stands. }
    1: { specialize (IHp pass cx t s2). destruct (B pass cx t k s2) as [[ev' s'] x']. eapply source_sub; [|exact IHp]. eauto using @stands. }
    exists (Check line w true e k), []. split; [constructor|reflexivity].
  - cbv zeta. cbn [after]. destruct abort; [exists (Skip line message true k), []; split; [constructor|reflexivity]|].
    specialize (IHp pass cx t (skip_state s)). destruct (B pass cx t k (skip_state s)) as [[ev s'] x]. eapply source_sub; [|exact IHp]. eauto using @stands.
  - assert (K : forall t s, let '(_, _, x) := B pass cx t k s in source pass (InSection sec b k) x).
    { clear s t. intros t s. specialize (IHp2 pass cx t s). destruct (B pass cx t k s) as [[ev s'] x]. eapply source_sub; [|exact IHp2]. eauto using @stands. }
    destruct t as [j|]; [|apply K]. cbv zeta. destruct (j <? Nat.max 1 (leaves b)); [|apply K].
    set (inside := mkctx _ _ _). specialize (IHp1 pass inside (Some j) s). destruct (B pass inside (Some j) b s) as [[ev s1] x]. destruct x as [|x from gone].
    + cbn [after]. specialize (K None s1). destruct (B pass cx None k s1) as [[ev' s'] x']. exact K.
    + destruct IHp1 as (q & c & S & A). exists q, c. split; [|exact A]. cbn [map fst]. now constructor.
  - assert (K : forall t s, let '(_, _, x) := B pass cx t k s in source pass (Capture texts b k) x).
    { clear s t. intros t s. specialize (IHp2 pass cx t s). destruct (B pass cx t k s) as [[ev s'] x]. eapply source_sub; [|exact IHp2]. eauto using @stands. }
    cbv zeta. set (inside := mkctx _ _ _). specialize (IHp1 pass inside t s). destruct (B pass inside t b s) as [[ev s1] x]. destruct x as [|x from gone]; cbn [after].
    + specialize (K (past t b) s1). destruct (B pass cx (past t b) k s1) as [[ev' s'] x']. exact K.
    + eapply source_sub; [|exact IHp1]. intros r s' c S. eexists. apply at_captured. exact S.
  - assert (K : forall t s, let '(_, _, x) := B pass cx t k s in source pass (Catch accepts notify b k) x).
    { clear s t. intros t s. specialize (IHp2 pass cx t s). destruct (B pass cx t k s) as [[ev s'] x]. eapply source_sub; [|exact IHp2]. eauto using @stands. }
    specialize (IHp1 pass cx t s). destruct (B pass cx t b s) as [[ev s1] x]. specialize (K (past t b) s1).
    destruct (B pass cx (past t b) k s1) as [[ev' s'] x'] eqn:E. destruct x as [|x from gone].
    + cbn [after]. rewrite E. exact K.
    + destruct (accepts x); [cbn [after]; rewrite E; exact K|]. eapply source_sub; [|exact IHp1]. eauto using @stands.
Qed.

Lemma rest_beyond q : forall m, leaves q <= m -> rest m q = [].
Proof using.
  clear. induction q as [|n k IHp|when y k IHp|line w abort e IHe k IHp|line message abort k IHp|sec b IHp1 k IHp2|texts b IHp1 k IHp2|accepts notify b IHp1 k IHp2];
    cbn [leaves rest]; intros m L; auto; try (apply IHp; lia); try (apply IHp2; lia).
  - cbv zeta. destruct (Nat.ltb_spec m (Nat.max 1 (leaves b))); [lia|]. apply IHp2. lia.
  - destruct (Nat.ltb_spec m (leaves b)); [lia|]. apply IHp2. lia.
Qed.

(** A pass that is not aborted reports exactly what comes next in the walk; one that is aborted, a beginning of it. *)
Lemma prefix_behave p : regular p -> forall pass cx j s, j < leaves p ->
  let '(ev, _, x) := B pass cx (Some j) p s in
  match x with
  | Finished => brackets ev ++ rest (S j) p = rest j p
  | Threw _ _ _ => exists more, brackets ev ++ more = rest j p
  end.
Proof.
  induction p as [|n k IHp|when y k IHp|line w abort e IHe k IHp|line message abort k IHp|sec b IHp1 k IHp2|texts b IHp1 k IHp2|accepts notify b IHp1 k IHp2];
    intros R pass cx j s J; cbn [behave leaves rest regular] in *; try lia.
  - cbn [after]. specialize (IHp R pass cx j s J). destruct (B pass cx (Some j) k s) as [[ev s'] x]. exact IHp.
  - destruct (when pass); [now eexists|]. apply IHp; auto.
  - destruct R as (CA & _ & R). cbv zeta. rewrite (flat_leaves e CA) in J. cbn [plus] in J.
    pose proof (silent_behave id may should mc mm e pass (mkctx (enclosing cx) (captured cx) (mkloc line InCheck)) None s Logic.I) as IHe'.
    destruct (B pass _ None e s) as [[ev s1] x]. destruct IHe' as [X1 X2]. destruct (conclusion mm pass w x) as [[ok what]|] eqn:CO.
    2:{ destruct x; [destruct w; discriminate|]. rewrite X1. now eexists. }
    cbn [after]. pose proof (assertion_brackets id may should (mkctx (enclosing cx) (captured cx) (mkloc line (precision pass e))) ok what s1) as A.
    destruct (assertion id may should _ ok what s1) as [[ea s2] xa]. destruct A as [A ->]. cbn [after].
    destruct (negb ok && abort).
    + rewrite !brackets_app, A, X1. now eexists.
    + specialize (IHp R pass cx j s2 J). destruct (B pass cx (Some j) k s2) as [[ev' s'] x']. rewrite !brackets_app, A, X1. exact IHp.
  - cbv zeta. cbn [after]. destruct abort; [now eexists|]. specialize (IHp R pass cx j (skip_state s) J).
    destruct (B pass cx (Some j) k (skip_state s)) as [[ev s'] x]. exact IHp.
  - destruct R as [R1 R2]. cbv zeta. destruct (Nat.ltb_spec j (Nat.max 1 (leaves b))) as [JN|JN].
    + set (inside := mkctx _ _ _).
      assert (X : let '(ev, _, x) := B pass inside (Some j) b s in
        match x with Finished => brackets ev ++ (if S j <? Nat.max 1 (leaves b) then rest (S j) b else []) = rest j b
        | Threw _ _ _ => exists more, brackets ev ++ more = rest j b end).
      { destruct (Nat.ltb_spec j (leaves b)) as [JB|JB].
        - specialize (IHp1 R1 pass inside j s JB). destruct (B pass inside (Some j) b s) as [[ev s'] x]. destruct x; auto.
          destruct (Nat.ltb_spec (S j) (Nat.max 1 (leaves b))); auto. rewrite rest_beyond in IHp1 by lia. exact IHp1.
        - pose proof (silent_behave id may should mc mm b pass inside (Some j) s JB) as X. destruct (B pass inside (Some j) b s) as [[ev s'] x]. destruct X as [X1 X2].
          rewrite (rest_beyond b j JB). destruct x; rewrite X1; [|now exists []]. destruct (Nat.ltb_spec (S j) (Nat.max 1 (leaves b))); [lia|reflexivity]. }
      destruct (B pass inside (Some j) b s) as [[ev s1] x]. destruct x as [|x from gone].
      * cbn [after]. pose proof (silent_behave id may should mc mm k pass cx None s1 Logic.I) as Y. destruct (B pass cx None k s1) as [[ev' s'] x']. destruct Y as [Y1 _].
        rewrite !brackets_app, Y1, app_nil_r.
        assert (E : (brackets (ID := ID) (if j =? 0 then [SectionStarted sec] else []) ++ brackets ev ++ brackets (ID := ID) (if S j =? Nat.max 1 (leaves b) then [SectionEnded sec (skipped s1) (tally ev)] else [])) ++
            (if S j <? Nat.max 1 (leaves b) then (if S j =? 0 then [Start sec] else []) ++ rest (S j) b ++ End sec :: walk k else rest (S j - Nat.max 1 (leaves b)) k) =
            (if j =? 0 then [Start sec] else []) ++ rest j b ++ End sec :: walk k).
        { rewrite <- X. clear X. destruct (Nat.ltb_spec (S j) (Nat.max 1 (leaves b))), (Nat.eqb_spec (S j) (Nat.max 1 (leaves b))); try lia.
          - change (S j =? 0) with false. destruct (j =? 0); cbn [brackets flat_map app]; rewrite ?app_nil_r, <- ?app_assoc; reflexivity.
          - replace (S j - Nat.max 1 (leaves b)) with 0 by lia. rewrite rest_start by auto.
            destruct (j =? 0); cbn [brackets flat_map app]; rewrite ?app_nil_r, <- ?app_assoc; reflexivity. }
        destruct x'; [exact E|]. eexists. exact E.
      * destruct X as (more & X). rewrite <- X. exists (more ++ End sec :: walk k). rewrite brackets_app. destruct (j =? 0); cbn [brackets flat_map app]; now rewrite <- !app_assoc.
    + destruct (Nat.ltb_spec (S j) (Nat.max 1 (leaves b))); [lia|]. replace (S j - Nat.max 1 (leaves b)) with (S (j - Nat.max 1 (leaves b))) by lia.
      apply IHp2; auto. lia.
  - destruct R as [R1 R2]. cbv zeta. set (inside := mkctx _ _ _). cbn [past]. destruct (Nat.ltb_spec j (leaves b)) as [JB|JB].
    + specialize (IHp1 R1 pass inside j s JB). destruct (B pass inside (Some j) b s) as [[ev s1] x]. destruct x as [|x from gone]; cbn [after].
      * pose proof (silent_behave id may should mc mm k pass cx None s1 Logic.I) as Y. destruct (B pass cx None k s1) as [[ev' s'] x']. destruct Y as [Y1 _].
        rewrite brackets_app, Y1, app_nil_r.
        assert (E : brackets ev ++ (if S j <? leaves b then rest (S j) b ++ walk k else rest (S j - leaves b) k) = rest j b ++ walk k).
        { rewrite <- IHp1. destruct (Nat.ltb_spec (S j) (leaves b)); [now rewrite app_assoc|].
          rewrite (rest_beyond b) by lia. rewrite app_nil_r. replace (S j - leaves b) with 0 by lia. now rewrite rest_start. }
        destruct x'; [exact E|]. eexists. exact E.
      * destruct IHp1 as (more & <-). exists (more ++ walk k). now rewrite app_assoc.
    + pose proof (silent_behave id may should mc mm b pass inside (Some j) s JB) as X. destruct (B pass inside (Some j) b s) as [[ev s1] x]. destruct X as [X1 X2].
      destruct (Nat.ltb_spec (S j) (leaves b)); [lia|]. replace (S j - leaves b) with (S (j - leaves b)) by lia.
      destruct x as [|x from gone]; cbn [after]; [|rewrite X1; now eexists].
      specialize (IHp2 R2 pass cx (j - leaves b) s1 ltac:(lia)). destruct (B pass cx (Some (j - leaves b)) k s1) as [[ev' s'] x'].
      rewrite brackets_app, X1. exact IHp2.
  - destruct R as (_ & FB & _ & R2). apply flat_leaves in FB. rewrite FB in J. cbn [plus past] in *. rewrite FB.
    pose proof (silent_behave id may should mc mm b pass cx (Some j) s ltac:(cbn; lia)) as X. destruct (B pass cx (Some j) b s) as [[ev s1] x]. destruct X as [X1 X2].
    cbn [Nat.ltb Nat.leb]. rewrite Nat.sub_0_r.
    specialize (IHp2 R2 pass cx j s1 ltac:(lia)). destruct (B pass cx (Some j) k s1) as [[ev' s'] x'] eqn:E.
    destruct x as [|x from gone].
    + cbn [after]. rewrite E, brackets_app, X1. exact IHp2.
    + destruct (accepts x); [cbn [after]; rewrite E, brackets_app, X1; exact IHp2|]. rewrite X1. now eexists.
Qed.

Notation BP := (behave_passes id may should mc mm).
Lemma prefix_passes cx p : regular p -> forall n j s, leaves p <= j + n -> 
  let '(ev, s1, x) := BP cx p n j s in exists later, brackets ev ++ later = rest j p /\
    match x with
    | Finished => later = [] \/ s1 = Skipped
    | Threw _ _ gone => exists pass, pass < j + n /\ source pass p x
    end.
Proof.
  intros R. induction n as [|n IH]; intros j s L; cbn [behave_passes].
  { exists []. rewrite (rest_beyond p j) by lia. auto. }
  assert (X : let '(ev, _, x) := B j cx (Some j) p s in
     match x with Finished => brackets ev ++ rest (S j) p = rest j p | Threw _ _ gone => exists more, brackets ev ++ more = rest j p end).
  { destruct (Nat.ltb_spec j (leaves p)); [apply prefix_behave; auto|].
    pose proof (silent_behave id may should mc mm p j cx (Some j) s H) as X. destruct (B j cx (Some j) p s) as [[ev s1] x]. destruct X as [X1 X2].
    rewrite !rest_beyond by lia. rewrite X1. destruct x; eauto. }
  pose proof (source_behave p j cx (Some j) s) as Y. destruct (B j cx (Some j) p s) as [[ev s1] x]. destruct x as [|x from gone]; cbn [after].
  - destruct (skipped s1) eqn:SK.
    + exists (rest (S j) p). rewrite app_nil_r. split; [exact X|]. right. now destruct s1.
    + specialize (IH (S j) s1 ltac:(lia)). destruct (BP cx p n (S j) s1) as [[ev' s'] x']. destruct IH as (later & E & H).
      exists later. rewrite brackets_app, <- app_assoc, E. split; [exact X|]. destruct x'; auto. destruct H as (pass & LT & H). exists pass. split; [lia|exact H].
  - destruct X as (more & X). exists more. split; [exact X|]. exists j. split; [lia|exact Y].
Qed.
Lemma skipped_case line p e1 : BP (mkctx [] [] (mkloc line TestCaseScope)) p (number_of_passes p) 0 Success = (e1, Skipped, Finished) ->
  snd (behave_case id may should mc mm line p) = Skipped.
Proof. unfold behave_case. intros ->. cbn. destruct should; reflexivity. Qed.
End Prefix.

Theorem exact_events cf fuel id line p before tags may should :
  cf_verbosity cf = Full -> id_tags id = tag_string tags -> well_formed (cf_max_tag_length cf) tags -> tagged tags may should ->
  regular p -> nesting p <= cf_max_nested cf -> scopes p <= S (cf_max_nested cf) -> capturing p <= cf_max_captures cf -> Nat.max 1 (leaves p) <= fuel ->
  exists st body c s reported later left,
    run cf fuel (mktest id line p) before = Ok st /\
    trace st = before ++ [TestCaseStarted id line] ++ body ++ [TestCaseEnded id line c s] /\
    walk p = reported ++ later /\ brackets body = reported ++ map End (rev left) /\
    (left = [] /\ (later = [] \/ s = Skipped) \/
     exists pass q captures, pass < Nat.max 1 (leaves p) /\ stands (cf_max_capture_length cf) pass p q left captures /\ can_abort pass q) /\
    (nested (brackets body) <-> left = open_after [] reported).
Proof.
  intros V E W T P NE SC CA FU. pose proof (flags_of _ _ _ _ _ E W T) as FF.
  assert (R := run_eq cf V id may should line p fuel before (id_tags id) eq_refl FF P NE SC CA FU).
  destruct (case_brackets id may should (cf_max_capture_length cf) (cf_max_message_length cf) line p) as (e1 & s1 & x & body & c & s & E1 & E2 & E3).
  pose proof (prefix_passes id may should (cf_max_capture_length cf) (cf_max_message_length cf) (mkctx [] [] (mkloc line TestCaseScope)) p P (number_of_passes p) 0 Success) as X.
  pose proof (skipped_case id may should (cf_max_capture_length cf) (cf_max_message_length cf) line p e1) as SK.
  rewrite E1 in X, SK. destruct X as (later & X1 & X2); [unfold number_of_passes; lia|]. rewrite rest_start in X1 by auto.
  rewrite E2 in R, SK. cbn [snd] in SK. destruct R as (st & R1 & R2 & _).
  set (left := match x with Finished => [] | Threw _ _ gone => map fst gone end).
  assert (B : brackets body = brackets e1 ++ map End (rev left)).
  { rewrite E3. f_equal. unfold closing, left. destruct x as [|y from gone]; [reflexivity|]. unfold ends. rewrite <- map_rev, map_map. reflexivity. }
  exists st, body, c, s, (brackets e1), later, left. split; [exact R1|]. split; [exact R2|]. split; [auto|]. split; [exact B|]. split.
  - unfold left. destruct x as [|y from gone].
    + left. split; [reflexivity|]. destruct X2 as [->| ->]; [left; reflexivity|right; apply SK; reflexivity].
    + right. destruct X2 as (pass & LT & q & cs & S1 & A). exists pass, q, cs. auto.
  - rewrite B. eapply nested_prefix. symmetry. exact X1.
Qed.
