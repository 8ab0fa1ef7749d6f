(** The theorems of Properties/Run.v, from the lemmas on passes and test bodies. *)
From Verif.Spec Require Import TextSpec FilterSpec Events RunSpec VerdictSpec TreeSpec.
From Verif.Model Require Import Base Vector StringUtil Filter Run.
From Verif.Proofs Require Import Lists FilterProofs LevelProofs RunProofs CaseProofs VerbosityProofs InvariantProofs ScopeProofs
  TreeProofs SafetyProofs LimitProofs DepthProofs MarkProofs AbortProofs.

Lemma flags_of mt id tags may should : id_tags id = tag_string tags -> well_formed mt tags -> tagged tags may should ->
  fail_flags mt (id_tags id) = Ok (may, should).
Proof.
  intros E W [T1 T2]. destruct (for_each_tag_spec mt tags W) as (l & F & _ & _ & M & S). unfold fail_flags. rewrite E, F. cbn [bind].
  do 3 f_equal; apply Bool.eq_iff_eq_true; tauto.
Qed.

Lemma tally_length {ID} (l : list (Events.event ID)) :
  n_all (tally l) = length (filter is_assertion l) /\ n_failed (tally l) + n_allowed (tally l) = length (filter is_failure l).
Proof.
  induction l as [|e l [I1 I2]]; [split; reflexivity|]. destruct e; cbn [tally fold_right tally1 filter is_assertion is_failure] in *; auto.
  - fold (tally l). destruct (expected || allowed); cbn [n_all n_failed n_allowed length]; lia.
  - fold (tally l). cbn [n_all n_failed n_allowed length]. lia.
Qed.
Lemma failure_assertion {ID} (l : list (Events.event ID)) : length (filter is_failure l) <= length (filter is_assertion l).
Proof. induction l as [|e l IH]; [auto|]. destruct e; cbn; lia. Qed.

Lemma tally_body {ID} id may should (l : list (Events.event ID)) : Forall (of_body id may should) l ->
  (may || should = false -> n_allowed (tally l) = 0) /\ (may || should = true -> n_failed (tally l) = 0).
Proof.
  induction 1 as [|e l E _ [I1 I2]]; [split; reflexivity|].
  destruct e; cbn [of_body] in E; try contradiction; cbn [tally fold_right tally1]; fold (tally l); auto.
  destruct E as (_ & -> & ->). rewrite (Bool.orb_comm should may). destruct (may || should); cbn; split; auto; discriminate.
Qed.

(** Counters (C19), for every body. *)
Lemma counters cf fuel t tr0 st tags may should :
  cf_verbosity cf = Full -> id_tags (t_id t) = tag_string tags -> well_formed (cf_max_tag_length cf) tags -> tagged tags may should ->
  run cf fuel t tr0 = Ok st ->
  exists body c s,
    trace st = tr0 ++ [TestCaseStarted (t_id t) (t_line t)] ++ body ++ [TestCaseEnded (t_id t) (t_line t) c s] /\
    n_all c = length (filter is_assertion body) /\
    n_failed c + n_allowed c = length (filter is_failure body) /\
    n_failed c + n_allowed c <= n_all c /\
    (may = false -> should = false -> n_allowed c = 0) /\
    (may = true -> n_failed c = 0) /\
    (may = false -> should = true -> n_failed c <= 1).
Proof.
  intros V E W T R. destruct (run_shape cf V fuel t tr0 st may should (flags_of _ _ _ _ _ E W T) R) as (body & last & X).
  cbv zeta in X. destruct X as (X1 & X2 & X3 & X4 & X5 & X6).
  exists (body ++ last), (tally (body ++ last)), (VerdictSpec.verdict (body ++ last)).
  destruct (tally_length (body ++ last)) as [L1 L2]. pose proof (failure_assertion (body ++ last)).
  split; [rewrite X1, <- !app_assoc; reflexivity|]. split; [exact L1|]. split; [exact L2|]. split; [lia|].
  destruct (tally_body _ _ _ _ X4) as [B1 B2]. rewrite tally_app. cbn [plus_counts n_failed n_allowed].
  rewrite X6. destruct (VerdictSpec.verdict body) eqn:VB; destruct should, may; cbn in *; repeat split; intros; try discriminate; lia.
Qed.

(** Final state (C20), for every body. *)
Lemma verdict_from {ID} (l : list (Events.event ID)) s : fold_left (fun s e => worst s (says e)) l s = worst s (VerdictSpec.verdict l).
Proof.
  unfold VerdictSpec.verdict. revert s. induction l as [|e l IH]; intros s; cbn [fold_left]; [now rewrite worst_success|].
  rewrite IH, (IH (worst Success (says e))). destruct s, (says e), (fold_left _ l Success); reflexivity.
Qed.
Lemma verdict_cons {ID} (e : Events.event ID) l : VerdictSpec.verdict (e :: l) = worst (says e) (VerdictSpec.verdict l).
Proof. unfold VerdictSpec.verdict at 1. cbn [fold_left]. rewrite verdict_from. destruct (says e), (VerdictSpec.verdict l); reflexivity. Qed.
Lemma verdict_concat {ID} (a b : list (Events.event ID)) : VerdictSpec.verdict (a ++ b) = worst (VerdictSpec.verdict a) (VerdictSpec.verdict b).
Proof. unfold VerdictSpec.verdict at 1. rewrite fold_left_app. apply verdict_from. Qed.

Lemma verdict_body {ID} id may should (l : list (Events.event ID)) : Forall (of_body id may should) l ->
  (fails l -> VerdictSpec.verdict l = if may || should then AllowedFail else Failed) /\
  (~ fails l -> skips l -> VerdictSpec.verdict l = Skipped) /\
  (~ fails l -> ~ skips l -> VerdictSpec.verdict l = Success).
Proof.
  unfold fails, skips. induction 1 as [|e l E F (I1 & I2 & I3)].
  - split; [inversion 1|]. split; [inversion 2|reflexivity].
  - rewrite verdict_cons, !Exists_cons.
    assert (D : Exists (fun e => is_failure e = true) l \/ ~ Exists (fun e => is_failure e = true) l).
    { destruct (Exists_dec (fun e => is_failure e = true) l); auto. intros x. destruct (is_failure x); auto. }
    assert (D' : Exists (fun e => is_skip e = true) l \/ ~ Exists (fun e => is_skip e = true) l).
    { destruct (Exists_dec (fun e => is_skip e = true) l); auto. intros x. destruct (is_skip x); auto. }
    assert (V : VerdictSpec.verdict l = (if may || should then AllowedFail else Failed) \/ VerdictSpec.verdict l = Skipped \/ VerdictSpec.verdict l = Success) by tauto.
    destruct e; cbn [of_body] in E; try contradiction; cbn [says is_failure is_skip].
    3:{ destruct E as (_ & -> & ->). rewrite (Bool.orb_comm should may). split; [|tauto]. intros _.
        destruct (may || should); destruct V as [->|[->| ->]]; reflexivity. }
    all: try (replace (worst Success (VerdictSpec.verdict l)) with (VerdictSpec.verdict l) by (destruct (VerdictSpec.verdict l); reflexivity);
      split; [|split]; intros; [apply I1|apply I2|apply I3]; intuition congruence).
    split; [|split]; intros.
    + rewrite I1 by intuition congruence. destruct (may || should); reflexivity.
    + destruct D' as [D'|D']; [rewrite I2|rewrite I3]; intuition congruence.
    + intuition congruence.
Qed.

Lemma final_state cf fuel t tr0 st tags may should :
  cf_verbosity cf = Full -> id_tags (t_id t) = tag_string tags -> well_formed (cf_max_tag_length cf) tags -> tagged tags may should ->
  run cf fuel t tr0 = Ok st ->
  exists body last c s,
    trace st = tr0 ++ [TestCaseStarted (t_id t) (t_line t)] ++ body ++ last ++ [TestCaseEnded (t_id t) (t_line t) c s] /\
    (last = [] \/ exists e, last = [e] /\ should = true /\
      let l := mkloc (t_line t) Exact in let m := Message (quote "expected test to fail") in
      (e = AssertionSucceeded (t_id t) [] [] l m \/ e = AssertionFailed (t_id t) [] [] l m false may)) /\
    (~ skips body ->
      (should = true -> last <> []) /\
      (may = false -> should = false -> (fails body -> s = Failed) /\ (~ fails body -> s = Success)) /\
      (may = true -> should = false -> (fails body -> s = AllowedFail) /\ (~ fails body -> s = Success)) /\
      (may = false -> should = true -> (fails body -> s = AllowedFail) /\ (~ fails body -> s = Failed)) /\
      (may = true -> should = true -> s = AllowedFail)).
Proof.
  intros V E W T R. destruct (run_shape cf V fuel t tr0 st may should (flags_of _ _ _ _ _ E W T) R) as (body & last & X).
  cbv zeta in X. destruct X as (X1 & X2 & X3 & X4 & X5 & X6).
  exists body, last, (tally (body ++ last)), (VerdictSpec.verdict (body ++ last)).
  split; [exact X1|]. destruct (verdict_body _ _ _ _ X4) as (V1 & V2 & V3). rewrite X6. split.
  - destruct should; cbn [andb]; [|left; auto].
    destruct (VerdictSpec.verdict body); cbn [negb]; (try (left; reflexivity)); right; eexists; (split; [reflexivity|]); cbv zeta; auto.
  - intros NS. rewrite verdict_concat.
    assert (D : fails body \/ ~ fails body).
    { unfold fails. destruct (Exists_dec (fun e => is_failure e = true) body); auto. intros x. destruct (is_failure x); auto. }
    destruct D as [D|D]; [specialize (V1 D); rewrite V1|specialize (V3 D NS); rewrite V3]; destruct may, should; cbn; repeat split; intros; try discriminate; try tauto; auto.
Qed.

(** Skipping (C21), for every body. *)
Lemma skip_silent (l before : list event) e after : silent_once_skipped l ->
  l = before ++ e :: after -> is_skip e = true -> ~ fails before ->
  Forall (fun e => is_assertion e = false) after /\ VerdictSpec.verdict l = Skipped.
Proof.
  intros X5 EB SK NF.
  assert (VB : forall l : list event, ~ fails l -> VerdictSpec.verdict l = Success \/ VerdictSpec.verdict l = Skipped).
  { clear. unfold fails. induction l as [|e l IH]; intros N; [left; reflexivity|]. rewrite Exists_cons in N. rewrite verdict_cons.
    destruct (IH ltac:(tauto)) as [-> | ->]; destruct e; cbn [says is_failure] in *; (try tauto); cbn; auto. }
  assert (SE : says e = Skipped) by (destruct e; try discriminate; reflexivity).
  assert (VE : VerdictSpec.verdict (before ++ [e]) = Skipped).
  { rewrite verdict_app, SE. destruct (VB before NF) as [-> | ->]; reflexivity. }
  assert (AF : forall l1 l2, after = l1 ++ l2 -> Forall (fun e => is_assertion e = false) l1 /\ VerdictSpec.verdict (before ++ e :: l1) = Skipped).
  { induction l1 as [|x l1 IH] using rev_ind; intros l2 EL.
    - split; [constructor|exact VE].
    - destruct (IH (x :: l2)) as [I1 I2]; [rewrite EL, <- app_assoc; reflexivity|].
      assert (A : is_assertion x = false).
      { apply (X5 (before ++ e :: l1) x l2); auto. rewrite EB, EL. rewrite <- !app_assoc. reflexivity. }
      split; [rewrite Forall_app; auto|].
      change (before ++ e :: l1 ++ [x]) with (before ++ (e :: l1) ++ [x]). rewrite app_assoc, verdict_app, I2. destruct x; cbn in A |- *; try discriminate; reflexivity. }
  rewrite EB. apply (AF after []). now rewrite app_nil_r.
Qed.

Lemma skip_state_facts cf fuel t tr0 st tags may should :
  cf_verbosity cf = Full -> id_tags (t_id t) = tag_string tags -> well_formed (cf_max_tag_length cf) tags -> tagged tags may should ->
  run cf fuel t tr0 = Ok st ->
  exists body c s,
    trace st = tr0 ++ [TestCaseStarted (t_id t) (t_line t)] ++ body ++ [TestCaseEnded (t_id t) (t_line t) c s] /\
    forall before e after, body = before ++ e :: after -> is_skip e = true -> ~ fails before ->
      s = Skipped /\ n_all c = length (filter is_assertion before) /\ Forall (fun e => is_assertion e = false) after.
Proof.
  intros V E W T R. destruct (run_shape cf V fuel t tr0 st may should (flags_of _ _ _ _ _ E W T) R) as (own & last & X).
  cbv zeta in X. destruct X as (X1 & X2 & X3 & X4 & X5 & X6).
  exists (own ++ last), (tally (own ++ last)), (VerdictSpec.verdict (own ++ last)).
  split; [rewrite X1, <- !app_assoc; reflexivity|].
  intros before e after EB SK NF. destruct (skip_silent _ _ _ _ X5 EB SK NF) as [A1 A2]. split; [exact A2|]. split; [|exact A1].
  rewrite EB. destruct (tally_length (before ++ e :: after)) as [-> _]. rewrite filter_app. cbn [filter].
  assert (is_assertion e = false) as -> by (destruct e; try discriminate; reflexivity).
  rewrite app_length. replace (filter is_assertion after) with (@nil event); [cbn; lia|].
  clear - A1. induction A1 as [|x l X A IH]; [reflexivity|]. cbn. rewrite X. exact IH.
Qed.

(** No further pass is made after a skip. *)
Definition no_mark_after (m : nat) (ev : list event) : Prop :=
  forall before e after, ev = before ++ e :: after -> is_skip e = true -> ~ fails before -> ~ In (User m) after.

Lemma no_mark_app m a b : no_mark_after m a -> ~ In (User m) b -> no_mark_after m (a ++ b).
Proof.
  intros H N before e after E SK NF I. apply app_eq_app in E. destruct E as (l & [[E1 E2]|[E1 E2]]).
  - destruct l as [|x l]; cbn [app] in E2.
    + subst b. apply N. right. exact I.
    + injection E2 as <- ->. apply (H before e l E1 SK NF). apply in_app_iff in I. destruct I; [assumption|contradiction].
  - apply N. rewrite E2. apply in_app_iff. right. right. exact I.
Qed.

Lemma mark_passes cf (V : cf_verbosity cf = Full) id may should tr m p : unmarked m p -> forall fuel pass st r ev,
  inv id may should tr st -> trace st = tr ++ ev -> is_skipped (status st) = false -> no_mark_after m ev ->
  passes cf id (Act m p) fuel pass st = Ok r ->
  exists ev', trace (fst r) = tr ++ ev' /\ no_mark_after m ev'.
Proof.
  intros U. induction fuel as [|fuel IH]; intros pass st r ev I E SK NM H; cbn [passes] in H; [discriminate|].
  bstep H as [st2 x] EX.
  assert (I2 : inv id may should tr (fst (st2, x))) by (eapply inv_exec; [exact V| |exact EX]; exact I). cbn [fst] in I2.
  cbn [exec] in EX. apply (grows_exec cf id m) in EX; [|exact U]. destruct EX as (e2 & E2 & N2). cbn [fst] in E2.
  rewrite (report_full _ V) in E2. cbn [trace set_inf] in E2. rewrite E in E2.
  assert (NM2 : no_mark_after m (ev ++ [User m] ++ e2)).
  { rewrite app_assoc. apply no_mark_app; auto. intros before e after EQ SKE NF.
    destruct I as (ev0 & X1 & _ & X3 & _ & X5 & _). rewrite E in X1. apply app_inv_head in X1. subst ev0.
    destruct after as [|z after] using rev_ind.
    - apply app_inj_tail in EQ. destruct EQ as [_ <-]. discriminate.
    - exfalso. clear IHafter. change (before ++ e :: after ++ [z]) with (before ++ (e :: after) ++ [z]) in EQ. rewrite app_assoc in EQ. apply app_inj_tail in EQ. destruct EQ as [EQ _].
      destruct (skip_silent _ _ _ _ X5 EQ SKE NF) as [_ VV]. rewrite X3, VV in SK. discriminate. }
  rewrite <- !app_assoc in E2.
  destruct x as [x|]; [injection H as <-; cbn [fst]; eauto|].
  cbv zeta in H. destruct (_ && _) eqn:C; [|injection H as <-; cbn [fst trace set_inf]; eauto].
  apply andb_prop in C. destruct C as [_ C]. apply negb_true_iff in C.
  eapply (IH _ (set_inf st2 _)); [|exact E2|exact C|exact NM2|exact H]. exact I2.
Qed.

Lemma skip_no_pass cf fuel id line m p tr0 st tags may should :
  cf_verbosity cf = Full -> id_tags id = tag_string tags -> well_formed (cf_max_tag_length cf) tags -> tagged tags may should ->
  unmarked m p -> run cf fuel (mktest id line (Act m p)) tr0 = Ok st ->
  exists body, trace st = tr0 ++ body /\ no_mark_after m body.
Proof.
  intros V E W T U R. pose proof (flags_of _ _ _ _ _ E W T) as FF.
  unfold run in R. cbn [t_id t_line t_body] in R. rewrite FF in R. cbn [bind] in R. rewrite (report_full _ V) in R.
  cbn [trace app] in R. bstep R as st1 E1. bstep R as [st2 x] E2.
  set (tr := tr0 ++ [TestCaseStarted id line]) in *.
  assert (I1 : inv id may should tr st1).
  { eapply inv_push; [|exact E1]. exists []. cbn. rewrite app_nil_r. repeat split; auto. intros a e b Q. now destruct a. }
  assert (T1 : trace st1 = tr ++ [] /\ is_skipped (status st1) = false).
  { unfold push_location in E1. bstep E1 as ls L. injection E1 as <-. rewrite app_nil_r. split; reflexivity. }
  destruct T1 as [T1 SK].
  destruct (mark_passes cf V id may should tr m p U fuel 0 st1 (st2, x) [] I1 T1 SK) as (ev & E3 & NM); auto.
  { intros a e b Q. now destruct a. }
  cbn [fst] in E3.
  enough (G : grows m st2 st).
  { destruct G as (e4 & G1 & G2). exists ([TestCaseStarted id line] ++ ev ++ e4). rewrite G1, E3. unfold tr. rewrite <- !app_assoc. split; [reflexivity|].
    intros before e after Q SKE NF. destruct before as [|b before]; cbn [app] in Q; injection Q as <- Q; [discriminate|].
    apply (no_mark_app m ev e4 NM G2 before e after Q SKE). intros F. apply NF. right. exact F. }
  bstep R as st3 E4.
  assert (G3 : grows m st2 st3).
  { destruct x as [[|what|]|].
    - injection E4 as <-. now apply grows_same.
    - apply (grows_assertion2 cf id m) in E4. exact E4.
    - apply (grows_assertion cf id m) in E4. exact E4.
    - bstep E4 as y E5. injection E4 as <-. apply (grows_assertion cf id m) in E5. exact E5. }
  eapply grows_trans; [exact G3|]. set (st4 := if unhandled st3 then _ else _) in *.
  assert (G4 : grows m st3 st4) by (unfold st4; destruct (unhandled st3); [apply grows_notify|now apply grows_same]).
  eapply grows_trans; [exact G4|]. bstep R as st6 E6. bstep R as s E7. injection R as <-.
  eapply grows_trans; [|apply grows_report; discriminate].
  destruct (should_fail (set_unhandled st4 false)); [|injection E6 as <-; now apply grows_same].
  bstep E6 as y E8. injection E6 as <-. apply (grows_assertion cf id m) in E8. exact E8.
Qed.

(** ** Bodies that run to their end (C19, C22, C23) *)
Lemma walk_pass_flat p : plain p -> leaves p = 0 -> walk p = [] /\ forall t, walk_pass t p = [].
Proof.
  induction p as [|n k IHp|when y k IHp|line w abort e IHe k IHp|line message abort k IHp|sec b IHp1 k IHp2|texts b IHp1 k IHp2|accepts notify b IHp1 k IHp2];
    cbn [plain leaves walk walk_pass]; intros P L; try contradiction; auto; try lia.
  - destruct (plain_code line w abort e k P) as [PE PK]. apply code_flat in PE.
    destruct (IHp PK ltac:(lia)) as [-> H]. split; auto. rewrite app_nil_r. apply flat_walk, PE.
  - destruct P as [P1 P2]. destruct (IHp1 P1 ltac:(lia)) as [-> H1]. destruct (IHp2 P2 ltac:(lia)) as [-> H2]. split; auto.
    intros [j|]; auto. rewrite H1, H2. now destruct (_ <? _).
Qed.

Lemma walk_all p : plain p -> flat_map (fun j => walk_pass (Some j) p) (seq 0 (Nat.max 1 (leaves p))) = walk p.
Proof.
  intros P. destruct (leaves p) as [|n] eqn:L.
  - destruct (walk_pass_flat p P L) as [-> H]. cbn. now rewrite H.
  - rewrite <- L, Nat.max_r by lia. now apply walk_passes.
Qed.

Lemma plain_case cf fuel id line p tr0 tags may should :
  cf_verbosity cf = Full -> id_tags id = tag_string tags -> well_formed (cf_max_tag_length cf) tags -> tagged tags may should ->
  plain p -> nesting p <= cf_max_nested cf -> scopes p <= S (cf_max_nested cf) -> capturing p <= cf_max_captures cf -> Nat.max 1 (leaves p) <= fuel ->
  exists st body c s,
    run cf fuel (mktest id line p) tr0 = Ok st /\
    trace st = tr0 ++ [TestCaseStarted id line] ++ body ++ [TestCaseEnded id line c s] /\
    steps body = flat_map (fun j => visit [] (Some j) p) (seq 0 (Nat.max 1 (leaves p))) ++
                 Checked [] line :: (if should then [Checked [] line] else []) /\
    brackets body = walk p /\
    n_all c = length (filter (fun x => match x with Checked _ _ => true | Did _ => false end) (steps body)).
Proof.
  intros V E W T P NE SC CA FU. pose proof (flags_of _ _ _ _ _ E W T) as FF.
  assert (R := run_eq cf V id may should line p fuel tr0 (id_tags id) eq_refl FF (plain_regular p P) NE SC CA FU).
  unfold behave_case in R. unfold number_of_passes in R.
  destruct (plain_passes id may should (cf_max_capture_length cf) (cf_max_message_length cf) p P line (Nat.max 1 (leaves p)) 0 Success eq_refl)
    as (e1 & s1 & E1 & NS & ST & BR).
  rewrite E1 in R. cbn [escaped] in R. unfold assertion at 1 in R. rewrite NS in R. cbv iota zeta in R. cbn [enclosing captured where_] in R.
  destruct (if should then _ else _) as [[e3 s3] x3] eqn:E3.
  destruct R as (st & R1 & R2 & R3 & R4). 
  set (e2 := [AssertionSucceeded id [] [] (mkloc line Exact) (Message (quote "no exception caught"))] : list event) in *.
  exists st, (e1 ++ e2 ++ e3), (tally (e1 ++ e2 ++ e3)), s3. split; [exact R1|]. split; [rewrite R2, <- !app_assoc; reflexivity|].
  rewrite !steps_app, !brackets_app, ST, BR, walk_all by auto.
  assert (X : steps e3 = (if should then [Checked [] line] else []) /\ brackets e3 = []).
  { destruct should; [|injection E3 as <- _ _; split; reflexivity]. unfold assertion in E3. cbn [worsen] in E3.
    rewrite NS in E3. destruct s1; injection E3 as <- _ _; split; reflexivity. }
  destruct X as [X1 X2]. split; [rewrite X1; cbn [steps flat_map app]; reflexivity|]. split; [rewrite X2; cbn; now rewrite app_nil_r|].
  rewrite <- ST, <- !steps_app. destruct (tally_length (e1 ++ e2 ++ e3)) as [-> _]. generalize (e1 ++ e2 ++ e3).
  intros l. clear. induction l as [|e l IH]; [reflexivity|]. replace (steps (e :: l)) with (steps [e] ++ steps l) by (destruct e; reflexivity). rewrite filter_app, app_length, <- IH.
  destruct e; reflexivity.
Qed.

(** ** Bodies that may be aborted (C24, C26, C27, C56) *)
Lemma abort_case cf fuel id line p tr0 tags may should :
  cf_verbosity cf = Full -> id_tags id = tag_string tags -> well_formed (cf_max_tag_length cf) tags -> tagged tags may should ->
  regular p -> nesting p <= cf_max_nested cf -> scopes p <= S (cf_max_nested cf) -> capturing p <= cf_max_captures cf -> Nat.max 1 (leaves p) <= fuel ->
  exists st body c s,
    run cf fuel (mktest id line p) tr0 = Ok st /\
    trace st = tr0 ++ [TestCaseStarted id line] ++ body ++ [TestCaseEnded id line c s] /\
    subsequence (brackets body) (walk p) /\ (narrow p -> nested (brackets body)).
Proof.
  intros V E W T P NE SC CA FU. pose proof (flags_of _ _ _ _ _ E W T) as FF.
  assert (R := run_eq cf V id may should line p fuel tr0 (id_tags id) eq_refl FF P NE SC CA FU).
  destruct (case_brackets id may should (cf_max_capture_length cf) (cf_max_message_length cf) line p) as (e1 & s1 & x & body & c & s & E1 & E2 & E3).
  rewrite E2 in R. destruct R as (st & R1 & R2 & _). exists st, body, c, s. split; [exact R1|]. split; [exact R2|]. rewrite E3.
  pose proof (regular_passes id may should (cf_max_capture_length cf) (cf_max_message_length cf) (mkctx [] [] (mkloc line TestCaseScope)) p P (number_of_passes p) 0 Success) as X.
  pose proof (fun N => narrow_passes id may should (cf_max_capture_length cf) (cf_max_message_length cf) (mkctx [] [] (mkloc line TestCaseScope)) p P N (number_of_passes p) 0 Success) as Y.
  rewrite E1 in X, Y. rewrite rest_start in X by auto. split; [|exact Y]. apply X; unfold number_of_passes; lia.
Qed.

(** ** Limits (C25, C28) *)
Definition roomier (cf : config) (p : prog) : config :=
  mkconfig (cf_verbosity cf) (Nat.max (cf_max_nested cf) (Nat.max (nesting p) (scopes p))) (Nat.max (cf_max_captures cf) (capturing p))
           (cf_max_capture_length cf) (cf_max_message_length cf) (cf_max_tag_length cf).
Lemma roomier_looser cf p : looser cf (roomier cf p).
Proof. constructor; cbn; auto; lia. Qed.

Lemma exceeds_full cf fuel id line p may should : cf_verbosity cf = Full ->
  fail_flags (cf_max_tag_length cf) (id_tags id) = Ok (may, should) ->
  plain p -> Nat.max 1 (leaves p) <= fuel ->
  cf_max_nested cf < nesting p \/ S (cf_max_nested cf) < scopes p \/ cf_max_captures cf < own_captures p ->
  run cf fuel (mktest id line p) [] = Err Assert.
Proof.
  intros V FF P FU EX. set (cf' := roomier cf p). pose proof (roomier_looser cf p) as LO. fold cf' in LO.
  assert (R := run_eq cf' V id may should line p fuel [] (id_tags id) eq_refl FF (plain_regular p P) ltac:(cbn; lia) ltac:(cbn; lia) ltac:(cbn; lia) FU).
  destruct (room_run cf cf' LO id fuel (mktest id line p) [] may should eq_refl FF) as [[H _]|[[_ H]|(st & H & _)]]; auto; exfalso.
  - destruct (behave_case _ _ _ _ _ line p) as [ev s]. destruct R as (st & R & _). congruence.
  - clear R. unfold run in H. cbn [t_id t_line t_body] in H. rewrite FF in H. cbn [bind] in H. rewrite (report_full _ V) in H.
    cbn [trace app] in H. unfold push_location in H. cbn [inf set_status locations] in H.
    rewrite push_back_ok in H by (cbn; lia). cbn [bind app] in H.
    unfold set_inf in H. cbn [inf set_status with_locations current_section levels depth leaf_executed captures locations held asserts
      may_fail should_fail in_check unhandled status trace] in H.
    bstep H as r PA. clear H.
    assert (D := deep_passes cf cf' LO V id may should p P ltac:(cbn; lia) ltac:(cbn; lia) ltac:(cbn; lia) (Nat.max 1 (leaves p) - 1) 0 fuel
      (base may should line [TestCaseStarted id line]) (top_ctx line) Success r (base_normal may should line [TestCaseStarted id line]) eq_refl eq_refl eq_refl eq_refl
      ltac:(unfold number_of_passes; lia) ltac:(left; auto)).
    assert (O : outermost cf (base may should line [TestCaseStarted id line])).
    { unfold outermost, room, safe, held_safe. cbn. repeat split; auto; try lia; try discriminate. }
    specialize (D O PA).
    assert (D' : forall i, i < Nat.max 1 (leaves p) -> reach (Some i) p <= cf_max_nested cf /\ capreach (Some i) p <= cf_max_captures cf /\ screach (Some i) p <= S (cf_max_nested cf)) by (intros; apply D; lia).
    assert (N1 := reach_all p P (cf_max_nested cf) (fun i Hi => proj1 (D' i Hi))).
    assert (N2 := capreach_all p P (cf_max_captures cf) (fun i Hi => proj1 (proj2 (D' i Hi)))).
    assert (N3 := screach_all p P (S (cf_max_nested cf)) (fun i Hi => proj2 (proj2 (D' i Hi)))). lia.
Qed.

Lemma same_verbosity cf : with_verbosity cf (cf_verbosity cf) = cf.
Proof. now destruct cf. Qed.

Lemma exceeds cf fuel id line p tr0 tags may should :
  id_tags id = tag_string tags -> well_formed (cf_max_tag_length cf) tags -> tagged tags may should ->
  plain p -> Nat.max 1 (leaves p) <= fuel ->
  cf_max_nested cf < nesting p \/ S (cf_max_nested cf) < scopes p \/ cf_max_captures cf < own_captures p ->
  run cf fuel (mktest id line p) tr0 = Err Assert.
Proof.
  intros E W T P FU EX. pose proof (flags_of _ _ _ _ _ E W T) as FF.
  assert (H := run_F cf (cf_verbosity cf) tr0 fuel (mktest id line p) []). rewrite same_verbosity in H. cbn [filter] in H. rewrite app_nil_r in H.
  rewrite H, (exceeds_full (with_verbosity cf Full) fuel id line p may should); auto.
Qed.

Lemma limits cf fuel t tr0 tags may should :
  id_tags (t_id t) = tag_string tags -> well_formed (cf_max_tag_length cf) tags -> tagged tags may should ->
  nesting (t_body t) <= cf_max_nested cf -> scopes (t_body t) <= S (cf_max_nested cf) -> capturing (t_body t) <= cf_max_captures cf ->
  run cf fuel t tr0 = Err Fuel \/ exists st, run cf fuel t tr0 = Ok st.
Proof.
  intros E W T H1 H2 H3. pose proof (flags_of _ _ _ _ _ E W T) as FF.
  assert (LO : looser cf cf) by (constructor; auto).
  destruct (room_run cf cf LO (t_id t) fuel t tr0 may should eq_refl FF) as [[_ H]|[[H _]|(st & H & _)]]; eauto.
  destruct H. unfold LimitProofs.within. auto.
Qed.

Lemma only_assert cf fuel t tr0 tags may should :
  id_tags (t_id t) = tag_string tags -> well_formed (cf_max_tag_length cf) tags -> tagged tags may should ->
  run cf fuel t tr0 = Err Fuel \/ run cf fuel t tr0 = Err Assert \/ exists st, run cf fuel t tr0 = Ok st.
Proof.
  intros E W T. pose proof (flags_of _ _ _ _ _ E W T) as FF.
  assert (LO : looser cf cf) by (constructor; auto).
  destruct (room_run cf cf LO (t_id t) fuel t tr0 may should eq_refl FF) as [[H _]|[[H _]|(st & H & _)]]; eauto.
Qed.

(** ** Context of reports (C26, C27) *)
Definition top_context (line : nat) : context := mkctx [] [] (mkloc line TestCaseScope).

Lemma located_case cf fuel id line p tr0 tags may should :
  cf_verbosity cf = Full -> id_tags id = tag_string tags -> well_formed (cf_max_tag_length cf) tags -> tagged tags may should ->
  regular p -> nesting p <= cf_max_nested cf -> scopes p <= S (cf_max_nested cf) -> capturing p <= cf_max_captures cf -> Nat.max 1 (leaves p) <= fuel ->
  exists st body last c s,
    run cf fuel (mktest id line p) tr0 = Ok st /\
    trace st = tr0 ++ [TestCaseStarted id line] ++ body ++ last ++ [TestCaseEnded id line c s] /\
    Forall (fun e => exists pass, pass < Nat.max 1 (leaves p) /\ report_of (cf_max_capture_length cf) p pass e) body /\
    Forall (concluding (cf_max_capture_length cf) p line should) last /\
    length (filter is_assertion last) <= 1 + (if should then 1 else 0).
Proof.
  intros V E W T P NE SC CA FU. pose proof (flags_of _ _ _ _ _ E W T) as FF.
  assert (R := run_eq cf V id may should line p fuel tr0 (id_tags id) eq_refl FF P NE SC CA FU).
  unfold behave_case in R. unfold number_of_passes in R.
  pose proof (passes_located id may should (cf_max_capture_length cf) (cf_max_message_length cf) p line (Nat.max 1 (leaves p)) 0 Success) as L.
  unfold TreeProofs.top in L.
  destruct (behave_passes id may should _ _ _ p _ 0 Success) as [[e1 s1] x]. destruct L as [L1 L2].
  set (Q := concluding (ID := test_id) (cf_max_capture_length cf) p line should).
  assert (E2 : let '(e2, _, _) := escaped id may should (cf_max_message_length cf) line x s1 in Forall Q e2 /\ length (filter is_assertion e2) <= 1).
  { unfold escaped.
    assert (EN : forall (l : list (section_id * counts)) b f, Forall Q (map (fun sc => SectionEnded (fst sc) b (f (snd sc))) l) /\
       filter is_assertion (map (fun sc => SectionEnded (fst sc) b (f (snd sc))) l : list event) = []).
    { induction l as [|a l IH]; intros; [split; constructor|]. destruct (IH b f). split; [constructor; [exact Logic.I|assumption]|cbn; assumption]. }
    destruct x as [|y from gone].
    - unfold assertion. destruct (skipped s1); [split; [constructor|cbn; lia]|]. split; [|cbn; lia]. constructor; [|constructor]. cbn. auto.
    - destruct y as [|what|].
      + destruct (EN (rev gone) (skipped s1) (fun c => fold_right tally1 c (@nil event))) as [X1 X2]. split; [exact X1|].
        cbn [app] in *. rewrite X2. cbn. lia.
      + unfold assertion. destruct (skipped s1) eqn:SK.
        * destruct (EN (rev gone) (skipped s1) (fun c => fold_right tally1 c (@nil event))) as [X1 X2]. split; [exact X1|]. cbn [app] in *. rewrite X2. cbn. lia.
        * split.
          -- constructor; [|apply (EN (rev gone) _ (fun c => fold_right tally1 c _))].
             right. destruct L2 as (i & I1 & I2). exists i, (StdExn what). repeat split; try lia; [discriminate|exact I2].
          -- cbn [app filter is_assertion length]. rewrite (proj2 (EN (rev gone) _ (fun c => fold_right tally1 c _))). auto.
      + unfold assertion. destruct (skipped s1) eqn:SK.
        * destruct (EN (rev gone) (skipped s1) (fun c => fold_right tally1 c (@nil event))) as [X1 X2]. split; [exact X1|]. cbn [app] in *. rewrite X2. cbn. lia.
        * split.
          -- constructor; [|apply (EN (rev gone) _ (fun c => fold_right tally1 c _))].
             right. destruct L2 as (i & I1 & I2). exists i, OtherExn. repeat split; try lia; [discriminate|exact I2].
          -- cbn [app filter is_assertion length]. rewrite (proj2 (EN (rev gone) _ (fun c => fold_right tally1 c _))). auto. }
  destruct (escaped id may should _ line x s1) as [[e2 s2] x2].
  destruct (if should then _ else _) as [[e3 s3] x3] eqn:E3.
  assert (X3 : Forall Q e3 /\ length (filter is_assertion e3) <= if should then 1 else 0).
  { destruct should; [|injection E3 as <- _ _; split; [constructor|cbn; lia]].
    unfold assertion in E3. destruct (skipped s2); [injection E3 as <- _ _; split; [constructor|cbn; lia]|].
    injection E3 as <- _ _. split; [|destruct (match s2 with AllowedFail => true | _ => false end); cbn; lia]. constructor; [|constructor].
    destruct (match s2 with AllowedFail => true | _ => false end); [cbn; auto|left; repeat split]. }
  destruct R as (st & R1 & R2 & _). exists st, e1, (e2 ++ e3), (tally (e1 ++ e2 ++ e3)), s3. split; [exact R1|]. split; [rewrite R2, <- !app_assoc; reflexivity|].
  split. { eapply Forall_impl; [|exact L1]. intros e (i & I1 & I2). exists i. split; [lia|exact I2]. }
  destruct E2 as [Y1 Y2], X3 as [Z1 Z2]. split; [apply Forall_app; auto|]. rewrite filter_app, app_length. destruct should; lia.
Qed.

Lemma escape_case cf fuel id line p tr0 tags may should e1 s1 x from gone :
  cf_verbosity cf = Full -> id_tags id = tag_string tags -> well_formed (cf_max_tag_length cf) tags -> tagged tags may should ->
  regular p -> nesting p <= cf_max_nested cf -> scopes p <= S (cf_max_nested cf) -> capturing p <= cf_max_captures cf -> Nat.max 1 (leaves p) <= fuel ->
  behave_passes id may should (cf_max_capture_length cf) (cf_max_message_length cf) (mkctx [] [] (mkloc line TestCaseScope)) p
    (Nat.max 1 (leaves p)) 0 Success = (e1, s1, Threw x from gone) ->
  x <> AbortExn -> s1 <> Skipped ->
  exists st what last c s pass,
    run cf fuel (mktest id line p) tr0 = Ok st /\
    trace st = tr0 ++ [TestCaseStarted id line] ++
               e1 ++ [AssertionFailed id (enclosing from) (captured from) (where_ from) what should may] ++ last ++
               [TestCaseEnded id line c s] /\
    pass < Nat.max 1 (leaves p) /\ thrown_at (cf_max_capture_length cf) p pass x (enclosing from) (captured from) /\
    Forall (fun e => match e with
                     | SectionEnded _ _ _ => True
                     | AssertionSucceeded _ _ _ _ m | AssertionFailed _ _ _ _ m _ _ =>
                       should = true /\ m = Message (quote "expected test to fail")
                     | _ => False
                     end) last.
Proof.
  intros V E W T P NE SC CA FU BP NA NS. pose proof (flags_of _ _ _ _ _ E W T) as FF.
  assert (R := run_eq cf V id may should line p fuel tr0 (id_tags id) eq_refl FF P NE SC CA FU).
  unfold behave_case in R. unfold number_of_passes in R. rewrite BP in R.
  pose proof (passes_located id may should (cf_max_capture_length cf) (cf_max_message_length cf) p line (Nat.max 1 (leaves p)) 0 Success) as L.
  unfold TreeProofs.top in L. rewrite BP in L. destruct L as [_ L2].
  assert (SK : skipped s1 = false) by (destruct s1; auto; congruence).
  assert (E2 : exists what ends s2, escaped id may should (cf_max_message_length cf) line (Threw x from gone) s1 =
    ([AssertionFailed id (enclosing from) (captured from) (where_ from) what should may] ++ ends, s2, Finished) /\
     Forall (fun e => match e with SectionEnded _ _ _ => True | _ => False end) ends).
  { assert (EN : forall (l : list (section_id * counts)) b f, Forall (fun e : event => match e with SectionEnded _ _ _ => True | _ => False end) (map (fun sc => SectionEnded (fst sc) b (f (snd sc))) l)).
    { induction l as [|a l IH]; intros; constructor; [exact Logic.I|apply IH]. }
    unfold escaped, assertion. rewrite SK. destruct x as [|what|]; [congruence| |]; cbv iota beta zeta; do 3 eexists; (split; [reflexivity|]);
      apply (EN (rev gone) _ (fun c => fold_right tally1 c _)). }
  destruct E2 as (what & ends & s2 & E2 & EN). rewrite E2 in R.
  destruct (if should then _ else _) as [[e3 s3] x3] eqn:E3.
  assert (X3 : Forall (fun e : event => match e with
                     | SectionEnded _ _ _ => True
                     | AssertionSucceeded _ _ _ _ m | AssertionFailed _ _ _ _ m _ _ =>
                       should = true /\ m = Message (quote "expected test to fail")
                     | _ => False
                     end) e3).
  { destruct should; [|injection E3 as <- _ _; constructor].
    unfold assertion in E3. destruct (skipped s2); [injection E3 as <- _ _; constructor|].
    injection E3 as <- _ _. constructor; [|constructor].
    destruct (match s2 with AllowedFail => true | _ => false end); auto. }
  destruct R as (st & R1 & R2 & _).
  assert (L3 : exists i, i < Nat.max 1 (leaves p) /\ thrown_at (cf_max_capture_length cf) p i x (enclosing from) (captured from)).
  { destruct x; [congruence| |]; destruct L2 as (i & I1 & I2); exists i; split; auto; lia. }
  destruct L3 as (i & I1 & I2).
  eexists st, what, (ends ++ e3), _, s3, i. split; [exact R1|]. split; [rewrite R2, <- !app_assoc; reflexivity|]. split; [exact I1|]. split; [exact I2|].
  apply Forall_app. split; [|exact X3]. eapply Forall_impl; [|exact EN]. intros []; tauto.
Qed.

(** ** Verbosity (C30) *)
Lemma verbosity_filters cf fuel t v before :
  match run (with_verbosity cf Full) fuel t [] with
  | Ok st => exists st', run (with_verbosity cf v) fuel t before = Ok st' /\
      trace st' = before ++ filter (Events.visible v) (trace st) /\ asserts st' = asserts st /\ status st' = status st
  | Err e => run (with_verbosity cf v) fuel t before = Err e
  end.
Proof.
  assert (H := run_F cf v before fuel t []). cbn [filter] in H. rewrite app_nil_r in H.
  rewrite H. destruct (run (with_verbosity cf Full) fuel t []) as [st|e]; cbn [rmap]; [|reflexivity].
  exists (F v before st). repeat split; reflexivity.
Qed.

(** ** Counter-examples *)
Definition sec (name : string) (line : nat) : section_id := mksec (quote name) [] line.
Definition small : config := mkconfig Full 3 2 10 60 20.
Definition plain_id : test_id := mkid (quote "t") [] [] [].

(** A failure, then a skip (C21). *)
Definition failed_then_skipped : prog :=
  Check 1 (IsTrue (fun _ => Message []) (fun _ => false)) false Nil (Skip 2 (fun _ => quote "why") true Nil).

Definition shown (r : res state) : option (list event * istate) :=
  match r with Ok st => Some (trace st, status st) | Err _ => None end.

Lemma skip_refuted :
  exists (p : prog) (body : list event) (c : counts),
    Exists (fun e => is_skip e = true) body /\
    shown (run small 1 (mktest plain_id 0 p) []) =
      Some ([TestCaseStarted plain_id 0] ++ body ++ [TestCaseEnded plain_id 0 c Failed], IFailed).
Proof.
  exists failed_then_skipped,
    [AssertionFailed plain_id [] [] (mkloc 1 Exact) (Message []) false false; TestCaseSkipped plain_id [] [] (mkloc 2 Exact) (quote "why")],
    (mkcounts 1 1 0).
  split; [right; left; reflexivity|]. vm_compute. reflexivity.
Qed.

(** An aborted test leaves a section without end; another one ends sections out of order (C24). *)
Definition unended : prog :=
  InSection (sec "A" 1) (InSection (sec "B" 2) Nil (InSection (sec "C" 3) Nil Nil))
    (Check 4 (IsTrue (fun _ => Message []) (fun _ => false)) true Nil Nil).
Definition crossed : prog :=
  InSection (sec "A" 1)
    (Check 2 (IsTrue (fun _ => Message []) (fun pass => pass =? 0)) true Nil
      (InSection (sec "B" 3) (InSection (sec "C" 4) Nil (InSection (sec "D" 5) Nil Nil)) Nil)) Nil.

Definition shown_brackets (r : res state) : option (list bracket) :=
  match r with Ok st => Some (brackets (trace st)) | Err _ => None end.

Lemma unended_brackets :
  shown_brackets (run small 5 (mktest plain_id 0 unended) []) =
    Some [Start (sec "A" 1); Start (sec "B" 2); End (sec "B" 2)] /\
  shown_brackets (run small 5 (mktest plain_id 0 crossed) []) =
    Some [Start (sec "A" 1); Start (sec "B" 3); Start (sec "C" 4); End (sec "C" 4); End (sec "A" 1)].
Proof. split; vm_compute; reflexivity. Qed.

Lemma nested_count l : nested l ->
  length (filter (fun b => match b with Start _ => true | End _ => false end) l) =
  length (filter (fun b => match b with Start _ => false | End _ => true end) l).
Proof.
  induction 1 as [|s a b _ IH1 _ IH2]; [reflexivity|]. cbn [filter]. rewrite !filter_app. cbn [filter]. cbn [length].
  rewrite !app_length. cbn [length]. lia.
Qed.

Lemma abort_refuted : exists p st, regular p /\ run small 5 (mktest plain_id 0 p) [] = Ok st /\ ~ nested (brackets (trace st)).
Proof.
  exists unended. destruct (run small 5 (mktest plain_id 0 unended) []) as [st|] eqn:E.
  - exists st. split; [cbn; tauto|]. split; [reflexivity|]. intros N. apply nested_count in N.
    pose proof (proj1 unended_brackets) as B. rewrite E in B. cbn [shown_brackets] in B. injection B as B. rewrite B in N. discriminate.
  - pose proof (proj1 unended_brackets) as B. rewrite E in B. discriminate.
Qed.

(** A test that never ends: the second section is not reached in the second pass (C56). *)
Definition endless : prog :=
  Catch (fun _ => true) true
    (Throw (fun pass => 1 <=? pass) OtherExn (InSection (sec "A" 1) Nil (InSection (sec "B" 2) Nil Nil))) Nil.

Lemma endless_passes cf id : forall fuel pass st, (exists c, levels (inf st) = [mklevel c 1 2]) -> held st = None ->
  is_skipped (status st) = false -> passes cf id endless fuel (S pass) st = Err Fuel.
Proof.
  induction fuel as [|fuel IH]; intros pass st [c L] H SK; [reflexivity|].
  cbn [passes endless exec]. change (1 <=? S pass) with true. cbn iota. cbn [bind]. unfold notify_exception_handled. cbn [held set_inf]. rewrite H.
  cbn [inf set_inf levels with_levels]. rewrite L. cbn [map reset_level prev_id max_id]. unfold after_pass. cbn [levels prev_id max_id Nat.eqb].
  cbn [length inf set_inf levels status Nat.eqb negb andb]. rewrite SK. cbn [negb andb]. apply IH; [exists 0; reflexivity|exact H|exact SK].
Qed.

Definition looks_endless (r : res (state * option exn)) : bool :=
  match r with
  | Ok (st, None) =>
    match levels (inf st), held st with
    | [l], None => (prev_id l =? 1) && (max_id l =? 2) && negb (is_skipped (status st))
    | _, _ => false
    end
  | _ => false
  end.

Lemma endless_exec cf id loc a may should tr : 1 <= cf_max_nested cf ->
  looks_endless (exec cf id 0 endless (mkstate (mkinfo [] [] 0 false [] [loc]) None a may should false false ISuccess tr)) = true.
Proof.
  intros M. destruct cf as [v [|[|m]] mc mcl mml mtl]; cbn [cf_max_nested] in M; [lia| |]; destruct v; vm_compute; reflexivity.
Qed.

Lemma endless_first cf id fuel loc a may should tr : 1 <= cf_max_nested cf ->
  passes cf id endless fuel 0 (mkstate (mkinfo [] [] 0 false [] [loc]) None a may should false false ISuccess tr) = Err Fuel.
Proof.
  intros M. destruct fuel as [|fuel]; [reflexivity|]. cbn [passes]. unfold set_inf at 1, with_levels, with_leaf_executed.
  cbn [inf levels map held asserts may_fail should_fail in_check unhandled status trace current_section depth captures locations leaf_executed].
  pose proof (endless_exec cf id loc a may should tr M) as E.
  destruct (exec cf id 0 endless _) as [[st [x|]]|]; try discriminate E. cbn [bind]. cbn [looks_endless] in E.
  destruct (levels (inf st)) as [|l [|l' ls]] eqn:L; try discriminate E. destruct (held st) eqn:H; try discriminate E.
  destruct l as [c p m]. cbn [prev_id max_id] in E. rewrite !andb_true_iff, !Nat.eqb_eq in E. destruct E as [[-> ->] SK].
  unfold after_pass. rewrite L. cbn [prev_id max_id Nat.eqb inf set_inf status]. rewrite L, SK. cbn [length Nat.eqb negb andb].
  apply endless_passes; cbn [inf set_inf held status]; [exists c; exact L|exact H|]. destruct (is_skipped (status st)); [discriminate SK|reflexivity].
Qed.

Lemma endless_run cf id line may should :
  fail_flags (cf_max_tag_length cf) (id_tags id) = Ok (may, should) -> 1 <= cf_max_nested cf ->
  forall fuel tr0, run cf fuel (mktest id line endless) tr0 = Err Fuel.
Proof.
  intros FF M fuel tr0. unfold run. cbn [t_id t_line t_body]. rewrite FF. cbn [bind].
  unfold push_location, push_back.
  match goal with |- context [report cf High ?st ?e] => assert (R : exists tr, report cf High st e =
    mkstate (mkinfo [] [] 0 false [] []) None (mkcounts 0 0 0) may should false false INotRun tr) end.
  { unfold report. destruct (vlevel High <=? vlevel (cf_verbosity cf)); eexists; reflexivity. }
  destruct R as [tr R]. rewrite R. cbn [set_status inf locations length].
  replace (0 =? cf_max_nested cf + 2) with false by (symmetry; apply Nat.eqb_neq; lia). cbn [bind app].
  match goal with |- context [passes _ _ endless _ _ ?s] => change s with (mkstate (mkinfo [] [] 0 false [] [mkloc line TestCaseScope]) None (mkcounts 0 0 0) may should false false ISuccess tr) end.
  rewrite endless_first by exact M. reflexivity.
Qed.

(** ** The whole behaviour, and termination (C22, C56) *)
Lemma follows_specification cf fuel id line p tr0 tags may should :
  cf_verbosity cf = Full -> id_tags id = tag_string tags -> well_formed (cf_max_tag_length cf) tags -> tagged tags may should ->
  regular p -> nesting p <= cf_max_nested cf -> scopes p <= S (cf_max_nested cf) -> capturing p <= cf_max_captures cf -> Nat.max 1 (leaves p) <= fuel ->
  exists st, run cf fuel (mktest id line p) tr0 = Ok st /\
    trace st = tr0 ++ fst (behave_case id may should (cf_max_capture_length cf) (cf_max_message_length cf) line p).
Proof.
  intros V E W T P NE SC CA FU. pose proof (flags_of _ _ _ _ _ E W T) as FF.
  assert (R := run_eq cf V id may should line p fuel tr0 (id_tags id) eq_refl FF P NE SC CA FU).
  destruct (behave_case _ _ _ _ _ line p) as [ev s]. destruct R as (st & R1 & R2 & _). exists st. auto.
Qed.

Lemma terminates cf fuel id line p tr0 tags may should :
  id_tags id = tag_string tags -> well_formed (cf_max_tag_length cf) tags -> tagged tags may should ->
  regular p -> nesting p <= cf_max_nested cf -> scopes p <= S (cf_max_nested cf) -> capturing p <= cf_max_captures cf -> Nat.max 1 (leaves p) <= fuel ->
  exists st, run cf fuel (mktest id line p) tr0 = Ok st.
Proof.
  intros E W T P NE SC CA FU.
  destruct (follows_specification (with_verbosity cf Full) fuel id line p [] tags may should) as (st & R & _); auto.
  pose proof (verbosity_filters cf fuel (mktest id line p) (cf_verbosity cf) tr0) as H. rewrite R, same_verbosity in H.
  destruct H as (st' & H & _). eauto.
Qed.

(** ** Captures (C28) *)
Lemma captures_kept cf id pass p st st' x : exec cf id pass p st = Ok (st', x) -> captures (inf st') = captures (inf st).
Proof. intros H. apply scope_exec in H. unfold scope in H. injection H. auto. Qed.

Lemma captures_added cf l st st' : add_captures cf l st = Ok st' ->
  captures (inf st') = captures (inf st) ++ map (fun pieces => fit (cf_max_capture_length cf) (concat pieces)) l.
Proof. intros H. apply scope_add_captures in H. unfold scope in H. injection H. auto. Qed.

Lemma captures_full cf l st : cf_max_captures cf < length (captures (inf st)) + length l -> length (captures (inf st)) <= cf_max_captures cf ->
  add_captures cf l st = Err Assert.
Proof.
  revert st. induction l as [|c l IH]; intros st H1 H2; cbn [length add_captures] in *; [lia|].
  destruct (add_capture cf c st) as [st'|e] eqn:E; cbn [bind].
  - assert (A : add_captures cf [c] st = Ok st') by (cbn [add_captures]; rewrite E; reflexivity).
    apply captures_added in A. apply IH; rewrite A, app_length; cbn [map length]; [lia|].
    unfold add_capture in E. destruct (Nat.eqb_spec (length (captures (inf st))) (cf_max_captures cf)) as [Q|Q]; [discriminate|]. unfold str, text in *; lia.
  - unfold add_capture in E. destruct (Nat.eqb_spec (length (captures (inf st))) (cf_max_captures cf)) as [Q|Q]; [congruence|].
    destruct (AppendProofs.append_or_truncate_spec (new_string (cf_max_capture_length cf)) c (AppendProofs.wf_new _)) as (m & E1 & _).
    rewrite E1 in E. discriminate.
Qed.

(** ** Variants, and examples, for the properties *)
Lemma passes_of_plain cf fuel id line p tr0 tags may should :
  cf_verbosity cf = Full -> id_tags id = tag_string tags -> well_formed (cf_max_tag_length cf) tags -> tagged tags may should ->
  plain p -> nesting p <= cf_max_nested cf -> scopes p <= S (cf_max_nested cf) -> capturing p <= cf_max_captures cf -> Nat.max 1 (leaves p) <= fuel ->
  exists st body c s,
    run cf fuel (mktest id line p) tr0 = Ok st /\
    trace st = tr0 ++ [TestCaseStarted id line] ++ body ++ [TestCaseEnded id line c s] /\
    steps body = flat_map (fun j => visit [] (Some j) p) (seq 0 (Nat.max 1 (leaves p))) ++
                 Checked [] line :: (if should then [Checked [] line] else []).
Proof.
  intros V E W T P NE SC CA FU. destruct (plain_case cf fuel id line p tr0 tags may should V E W T P NE SC CA FU) as (st & body & c & s & X1 & X2 & X3 & _).
  exists st, body, c, s. auto.
Qed.

Lemma brackets_of_plain cf fuel id line p tr0 tags may should :
  cf_verbosity cf = Full -> id_tags id = tag_string tags -> well_formed (cf_max_tag_length cf) tags -> tagged tags may should ->
  plain p -> nesting p <= cf_max_nested cf -> scopes p <= S (cf_max_nested cf) -> capturing p <= cf_max_captures cf -> Nat.max 1 (leaves p) <= fuel ->
  exists st body c s,
    run cf fuel (mktest id line p) tr0 = Ok st /\
    trace st = tr0 ++ [TestCaseStarted id line] ++ body ++ [TestCaseEnded id line c s] /\
    brackets body = walk p /\ nested (brackets body).
Proof.
  intros V E W T P NE SC CA FU. destruct (plain_case cf fuel id line p tr0 tags may should V E W T P NE SC CA FU) as (st & body & c & s & X1 & X2 & _ & X3 & _).
  exists st, body, c, s. repeat split; auto. rewrite X3. apply walk_nested.
Qed.

Lemma number_of_checks cf fuel id line p tr0 tags may should :
  cf_verbosity cf = Full -> id_tags id = tag_string tags -> well_formed (cf_max_tag_length cf) tags -> tagged tags may should ->
  plain p -> nesting p <= cf_max_nested cf -> scopes p <= S (cf_max_nested cf) -> capturing p <= cf_max_captures cf -> Nat.max 1 (leaves p) <= fuel ->
  exists st body c s,
    run cf fuel (mktest id line p) tr0 = Ok st /\
    trace st = tr0 ++ [TestCaseStarted id line] ++ body ++ [TestCaseEnded id line c s] /\
    n_all c = length (filter (fun x => match x with Checked _ _ => true | Did _ => false end)
                             (flat_map (fun j => visit [] (Some j) p) (seq 0 (Nat.max 1 (leaves p))))) +
              1 + (if should then 1 else 0).
Proof.
  intros V E W T P NE SC CA FU. destruct (plain_case cf fuel id line p tr0 tags may should V E W T P NE SC CA FU) as (st & body & c & s & X1 & X2 & X3 & _ & X4).
  exists st, body, c, s. split; [exact X1|]. split; [exact X2|]. rewrite X4, X3, filter_app, app_length. cbn [filter length].
  destruct should; cbn [filter length]; lia.
Qed.

Definition shown_steps (r : res state) : option (list step) :=
  match r with Ok st => Some (steps (trace st)) | Err _ => None end.
Definition shown_reports (r : res state) : option (list (list section_id * list text * location * bool)) :=
  match r with
  | Ok st => Some (flat_map (fun e : event => match e with
                                    | AssertionFailed _ s c l _ _ _ => [(s, c, l, false)]
                                    | AssertionSucceeded _ s c l _ => [(s, c, l, true)]
                                    | _ => []
                                    end) (trace st))
  | Err _ => None
  end.
Definition shown_counts (r : res state) : option (counts * istate) :=
  match r with Ok st => Some (asserts st, status st) | Err _ => None end.
