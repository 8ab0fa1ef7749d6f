(** Test bodies with destructors (C80): scopes, counters, inlining, fixtures, places. *)
From Verif.Spec Require Import TextSpec FilterSpec Events RunSpec VerdictSpec TreeSpec UnwindingSpec.
From Verif.Model Require Import Base Vector StringUtil Filter Run Unwinding.
From Verif.Proofs Require Import Lists LevelProofs RunProofs InvariantProofs ScopeProofs MarkProofs RunFacts UnwindingProofs.

(** ** Scopes *)
Section Scope.
Variable cf : config.
Variable id : test_id.

Lemma inf_unless u st : inf (notify_unless u cf st) = inf st.
Proof. destruct u; [reflexivity|apply inf_notify]. Qed.
Lemma scope_unwinding_report u ok data st st' : unwinding_report u cf id ok data st = Ok st' -> scope st' = scope st.
Proof.
  destruct u; [rewrite report_true|rewrite report_false; apply scope_assertion]. intros H. bstep H as x E. injection H as <-. apply scope_assertion in E. exact E.
Qed.
Lemma scope_unwinding_report2 u ok a b st st' : unwinding_report2 u cf id ok a b st = Ok st' -> scope st' = scope st.
Proof. unfold unwinding_report2. destruct (is_skipped _); [now intros [= <-]|]. intros H. bstep H as [m ?] E. eapply scope_unwinding_report; eauto. Qed.
Lemma scope_unwinding_conclude u pass w abort x st r : unwinding_conclude u cf id pass w abort x st = Ok r -> scope (fst r) = scope st.
Proof.
  intros H. unfold unwinding_conclude in H.
  destruct w as [what outcome|type accepts|type accepts matches describe|source]; destruct x as [e|];
    repeat match type of H with
    | Ok _ = Ok _ => injection H as <-; cbn [fst]
    | (if ?c then _ else _) = Ok _ => destruct c
    | bind (match ?e with AbortExn => _ | StdExn _ => _ | OtherExn => _ end) _ = _ => destruct e
    | bind _ _ = Ok _ => step H
    end;
    repeat match goal with
    | E : unwinding_report _ _ _ _ _ _ = Ok _ |- _ => apply scope_unwinding_report in E
    | E : unwinding_report2 _ _ _ _ _ _ _ = Ok _ |- _ => apply scope_unwinding_report2 in E
    end; auto; rewrite (scope_inf _ _ (inf_notify _ _)); auto.
Qed.
Lemma scope_unwinding_check_begin u line st st' : unwinding_check_begin u cf line st = Ok st' ->
  scope st' = (names st, captures (inf st), locs st ++ [mkloc line InCheck], depth (inf st)).
Proof.
  unfold unwinding_check_begin. intros H. bstep H as x E. injection H as <-. apply scope_push in E. unfold scope in *. cbn [inf set_in_check]. rewrite E.
  unfold names, locs. now rewrite inf_unless.
Qed.
Lemma scope_unwinding_enter u s st st' entered : unwinding_section_enter u cf s st = Ok (st', entered) ->
  scope st' = if entered then (names st ++ [s], captures (inf st), locs st ++ [mkloc (sec_line s) SectionScope], S (depth (inf st)))
              else (names st, captures (inf st), locs st, S (depth (inf st))).
Proof.
  destruct u; [|apply scope_section_enter]. intros H. apply section_enter_true in H. destruct H as ([st1 e1] & H & E1 & E2). cbn [fst snd] in *. subst e1 st'.
  apply scope_section_enter in H. exact H.
Qed.
Lemma scope_unwinding_captures u l : forall st st', unwinding_add_captures u cf l st = Ok st' ->
  exists added, length added = length l /\ scope st' = (names st, captures (inf st) ++ added, locs st, depth (inf st)).
Proof.
  induction l as [|c l IH]; intros st st' H; cbn [unwinding_add_captures] in H.
  - injection H as <-. exists []. split; [reflexivity|]. rewrite app_nil_r. reflexivity.
  - bstep H as x E. apply IH in H. destruct H as (a & L & H). unfold unwinding_add_capture in E. destruct (_ =? _); [discriminate|]. bstep E as [c' ?] C. injection E as <-.
    exists (vcontent c' :: a). split; [cbn; lia|]. rewrite H. unfold names, locs. cbn. rewrite inf_unless, <- app_assoc. reflexivity.
Qed.

Lemma scope_unwinding_exec pass p : forall u st st' x, unwinding_exec u cf id pass p st = Ok (st', x) -> scope st' = scope st.
Proof.
  induction p as [|n k IHp|when y k IHp|line w abort e IHe k IHp|line message abort k IHp|sec b IHp1 k IHp2|texts b IHp1 k IHp2|accepts notify b IHp1 k IHp2|d IHd b IHb k IHk];
    intros u st st' x' H; cbn [unwinding_exec] in H.
  - now injection H as <- <-.
  - apply IHp in H. now rewrite H, scope_report.
  - destruct (when pass); [now injection H as <- <-|eauto].
  - bstep H as st1 E1. apply scope_unwinding_check_begin in E1. bstep H as [st2 x] E2. apply IHe in E2.
    bstep H as [st3 z] E3. apply scope_unwinding_conclude in E3. cbn [fst] in *. bstep H as st4 E4.
    eapply scope_check_end in E4; [|rewrite E3, E2, E1; reflexivity].
    destruct z; [injection H as <- <-; exact E4|]. apply IHp in H. now rewrite H, E4.
  - bstep H as st1 E1. apply scope_unwinding_check_begin in E1. bstep H as st2 E2. apply scope_skipped in E2.
    bstep H as st3 E3. eapply scope_check_end in E3; [|rewrite E2, E1; reflexivity].
    destruct abort; [injection H as <- <-; exact E3|]. apply IHp in H. now rewrite H, E3.
  - bstep H as [st1 entered] E1. apply scope_unwinding_enter in E1. destruct entered.
    + bstep H as [st2 x] E2. apply IHp1 in E2. bstep H as st3 E3. eapply (scope_section_exit _ true) in E3; [|rewrite E2; exact E1].
      destruct x; [injection H as <- <-; exact E3|]. apply IHp2 in H. now rewrite H, E3.
    + bstep H as st3 E3. apply (scope_section_exit _ false u _ _ _ sec _ _ (mkloc 0 Exact) _) with (1 := E3) in E1. clear E3. rename E1 into E3. apply IHp2 in H. now rewrite H, E3.
  - bstep H as st1 E1. apply scope_unwinding_captures in E1. destruct E1 as (added & L & E1). bstep H as [st2 x] E2. apply IHp1 in E2.
    bstep H as st3 E3. eapply scope_capture_end in E3; [|rewrite E2; exact E1|rewrite L, map_length; reflexivity].
    destruct x; [injection H as <- <-; exact E3|]. apply IHp2 in H. now rewrite H, E3.
  - bstep H as [st1 x] E1. apply IHp1 in E1. destruct x as [e|]; [|apply IHp2 in H; congruence].
    destruct (accepts e); [|injection H as <- <-; exact E1]. apply IHp2 in H. rewrite H, <- E1. destruct notify; auto.
    apply scope_inf, inf_notify.
  - bstep H as [st1 x] E1. apply IHb in E1. bstep H as [st2 y] E2. apply IHd in E2. destruct y; [discriminate|]. destruct x; [injection H as <- <-; congruence|].
    apply IHk in H. congruence.
Qed.

Lemma scope_unwinding_passes p : forall fuel pass st st' x, names st = [] -> unwinding_passes cf id p fuel pass st = Ok (st', x) -> scope st' = scope st.
Proof.
  induction fuel as [|fuel IH]; intros pass st st' x N H; cbn [unwinding_passes] in H; [discriminate|].
  bstep H as [st2 y] E. apply scope_unwinding_exec in E. change (scope (set_inf st _)) with (scope st) in E.
  destruct y; [injection H as <- <-; exact E|].
  assert (A : scope (set_inf st2 (after_pass (inf st2))) = scope st).
  { rewrite <- E. unfold after_pass. destruct (levels (inf st2)) as [|c [|]]; auto. destruct (prev_id c =? max_id c); auto.
    unfold scope in *. cbn. injection E as E1 E2 E3 E4. unfold names in N.
    congruence. }
  destruct (_ && _); [|injection H as <- <-; exact A]. apply IH in H; [congruence|].
  apply scope_eq in A. destruct A as [-> _]. exact N.
Qed.
End Scope.

(** ** Counters and final state *)
Lemma without_nil p : without [] p.
Proof. induction p; cbn; tauto. Qed.
Lemma inv_unwinding_exec cf (verbose : cf_verbosity cf = Full) id may should tr u pass p st r :
  inv id may should tr st -> unwinding_exec u cf id pass p st = Ok r -> inv id may should tr (fst r).
Proof.
  intros I H. refine (rel_exec cf id [] (fun a b => inv id may should tr a -> inv id may should tr b) _ _ _ _ _ _ _ _ pass p (without_nil p) u st r H I); auto.
  - intros a b E1 E2 E3 E4 E5. now apply inv_same.
  - intros a n _ X. apply inv_neutral; auto. exact Logic.I.
  - intros a ok data b E X. eapply inv_assertion; eauto.
  - intros a m b E X. eapply inv_skipped; eauto.
  - intros a s X. apply inv_neutral; auto. exact Logic.I.
  - intros a s X. apply inv_ended; auto.
Qed.
Lemma inv_unwinding_passes cf (verbose : cf_verbosity cf = Full) id may should tr p : forall fuel pass st r,
  inv id may should tr st -> unwinding_passes cf id p fuel pass st = Ok r -> inv id may should tr (fst r).
Proof.
  induction fuel as [|fuel IH]; intros pass st r I H; cbn [unwinding_passes] in H; [discriminate|].
  bstep H as [st2 y] E.
  match type of E with unwinding_exec _ _ _ _ _ ?s = _ => assert (I1 : inv id may should tr s) by (revert I; now apply inv_same) end.
  apply (inv_unwinding_exec _ verbose _ _ _ _ _ _ _ _ _ I1) in E. cbn [fst] in E.
  destruct y; [injection H as <-; exact E|].
  assert (A : inv id may should tr (set_inf st2 (after_pass (inf st2)))) by (revert E; now apply inv_same).
  destruct (_ && _); [eauto|]. injection H as <-. exact A.
Qed.

Lemma unwinding_shape cf (verbose : cf_verbosity cf = Full) fuel id line p tr0 st may should :
  fail_flags (cf_max_tag_length cf) (id_tags id) = Ok (may, should) ->
  unwinding_run cf fuel id line p tr0 = Ok st ->
  exists body last, let s := VerdictSpec.verdict (body ++ last) in
    trace st = tr0 ++ [TestCaseStarted id line] ++ body ++ last ++ [TestCaseEnded id line (tally (body ++ last)) s] /\
    status st = intern s /\ asserts st = tally (body ++ last) /\
    Forall (of_body id may should) body /\ silent_once_skipped (body ++ last) /\
    last = if should && negb (match VerdictSpec.verdict body with Skipped => true | _ => false end) then
             [let l := mkloc line Exact in let m := Message (quote "expected test to fail") in
              match VerdictSpec.verdict body with
              | AllowedFail => AssertionSucceeded id [] [] l m
              | _ => AssertionFailed id [] [] l m false may
              end]
           else [].
Proof.
  intros FF H. unfold unwinding_run in H. rewrite FF in H. cbn [bind] in H. rewrite (report_full _ verbose) in H.
  cbn [trace app] in H. bstep H as st1 E1. bstep H as [st2 x] E2.
  set (tr := tr0 ++ [TestCaseStarted id line]) in *.
  assert (I1 : inv id may should tr st1).
  { eapply inv_push; [|exact E1]. exists []. cbn. rewrite app_nil_r. repeat split; auto.
    intros a e b Q. now destruct a. }
  apply scope_push in E1. unfold names, locs in E1. cbn in E1.
  pose proof (inv_unwinding_passes _ verbose _ _ _ _ _ _ _ _ _ I1 E2) as I2. cbn [fst] in I2.
  apply scope_unwinding_passes in E2; [|injection E1; auto].
  rewrite E1 in E2. bstep H as st3 E3.
  assert (I3 : inv id may should tr st3 /\ scope st3 = scope st2 /\ (unhandled st3 = false -> True)).
  { destruct x as [[|what|]|].
    - injection E3 as <-. repeat split; auto.
    - pose proof E3 as E4. apply (inv_assertion2 _ verbose id may should tr) in E4; [|exact I2]. apply scope_assertion2 in E3. auto.
    - pose proof E3 as E4. apply (inv_assertion _ verbose id may should tr) in E4; [|exact I2]. apply scope_assertion in E3. auto.
    - bstep E3 as y E. injection E3 as <-. pose proof E as E4.
      apply (inv_assertion _ verbose id may should tr) in E4; [|exact I2]. apply scope_assertion in E. auto. }
  destruct I3 as (I3 & S3 & _). set (st4 := if unhandled st3 then _ else _) in *.
  assert (I4 : inv id may should tr (set_unhandled st4 false) /\ scope (set_unhandled st4 false) = scope st2 /\
    unhandled (set_unhandled st4 false) = false).
  { rewrite <- S3. unfold st4. destruct (unhandled st3) eqn:U; repeat split.
    - pose proof (inv_notify _ verbose _ _ _ _ _ I3) as X. exact X.
    - apply (scope_inf st3). apply (inf_notify cf).
    - exact I3. }
  clearbody st4. revert H I4. generalize (set_unhandled st4 false) as st5. clear - verbose E2. intros st5 H (I & SC & U).
  rewrite E2 in SC. destruct I as (ev & X1 & X2 & X3 & X4 & X5 & X6 & X7). rewrite X7 in H.
  pose proof (compat _ _ _ _ X4) as CO. exists ev.
  destruct should; cbn [andb] in *.
  - bstep H as st6 F. bstep F as st' A. injection F as <-. rewrite X3 in A.
    destruct (match VerdictSpec.verdict ev with Skipped => true | _ => false end) eqn:SK.
    + assert (V : VerdictSpec.verdict ev = Skipped) by (now destruct (VerdictSpec.verdict ev)). exists []. rewrite V in A, X3.
      unfold report_assertion in A. cbn [status set_in_check set_should_fail] in A. rewrite X3 in A. cbn in A. injection A as <-.
      cbn [status set_in_check set_should_fail asserts] in H. rewrite X3 in H. cbn [intern convert_to_public_state bind] in H.
      injection H as <-. rewrite (report_full _ verbose). cbn [trace status asserts set_in_check set_should_fail].
      rewrite app_nil_r, X1, X2, V, X3. unfold tr. rewrite <- !app_assoc. auto 10.
    + eapply assertion_top in A; [|exact verbose|cbn [status set_in_check set_should_fail]; rewrite X3; now destruct (VerdictSpec.verdict ev)
        |exact U|reflexivity|exact SC]. cbn [trace asserts status may_fail should_fail set_in_check set_should_fail] in A.
      destruct A as (A1 & A2 & A3). rewrite X6, X3, orb_false_r in *. cbn [status set_in_check set_should_fail asserts] in H. rewrite A3 in H.
      assert (NS : VerdictSpec.verdict ev <> Skipped) by (intros Q; rewrite Q in SK; discriminate).
      exists [match VerdictSpec.verdict ev with
              | AllowedFail => AssertionSucceeded id [] [] (mkloc line Exact) (Message (quote "expected test to fail"))
              | _ => AssertionFailed id [] [] (mkloc line Exact) (Message (quote "expected test to fail")) false may
              end].
      cbv zeta. split; [|split; [|split; [|split; [|split; [|reflexivity]]]]].
      * bstep H as s E. injection H as <-. rewrite (report_full _ verbose). cbn [trace status asserts set_in_check set_should_fail].
        rewrite A1, A2, X1, X2, tally_app, verdict_app. unfold tr. rewrite orb_true_r in CO.
        destruct (VerdictSpec.verdict ev); try congruence; destruct may; cbn in E; injection E as <-; rewrite <- !app_assoc; reflexivity.
      * bstep H as s E. injection H as <-. rewrite (report_full _ verbose). cbn [trace status asserts set_in_check set_should_fail].
        rewrite A3, verdict_app. rewrite orb_true_r in CO. destruct (VerdictSpec.verdict ev); try congruence; destruct may; reflexivity.
      * bstep H as s E. injection H as <-. rewrite (report_full _ verbose). cbn [trace status asserts set_in_check set_should_fail].
        rewrite A2, X2, tally_app. destruct (VerdictSpec.verdict ev); try congruence; reflexivity.
      * exact X4.
      * apply silent_app; auto. congruence.
  - exists []. cbn [bind] in H. rewrite X3 in H. bstep H as s E. injection H as <-. rewrite (report_full _ verbose).
    cbn [trace status asserts]. rewrite app_nil_r, X1, X2, X3. unfold tr. rewrite <- !app_assoc.
    assert (s = VerdictSpec.verdict ev) by (destruct (VerdictSpec.verdict ev); now injection E). subst s. auto 10.
Qed.

Lemma unwinding_counters cf fuel id line p tr0 st tags may should :
  cf_verbosity cf = Full -> id_tags id = tag_string tags -> well_formed (cf_max_tag_length cf) tags -> tagged tags may should ->
  unwinding_run cf fuel id line p tr0 = Ok st ->
  exists body c s,
    trace st = tr0 ++ [TestCaseStarted id line] ++ body ++ [TestCaseEnded id line c s] /\
    n_all c = length (filter is_assertion body) /\
    n_failed c + n_allowed c = length (filter is_failure body) /\
    n_failed c + n_allowed c <= n_all c /\
    (may = false -> should = false -> n_allowed c = 0) /\
    (may = true -> n_failed c = 0) /\
    (may = false -> should = true -> n_failed c <= 1).
Proof.
  intros V E W T R. destruct (unwinding_shape cf V fuel id line p tr0 st may should (flags_of _ _ _ _ _ E W T) R) as (body & last & X).
  cbv zeta in X. destruct X as (X1 & X2 & X3 & X4 & X5 & X6).
  exists (body ++ last), (tally (body ++ last)), (VerdictSpec.verdict (body ++ last)).
  destruct (tally_length (body ++ last)) as [L1 L2]. pose proof (failure_assertion (body ++ last)).
  split; [rewrite X1, <- !app_assoc; reflexivity|]. split; [exact L1|]. split; [exact L2|]. split; [lia|].
  destruct (tally_body _ _ _ _ X4) as [B1 B2]. rewrite tally_app. cbn [plus_counts n_failed n_allowed].
  rewrite X6. destruct (VerdictSpec.verdict body) eqn:VB; destruct should, may; cbn in *; repeat split; intros; try discriminate; lia.
Qed.

Lemma unwinding_final_state cf fuel id line p tr0 st tags may should :
  cf_verbosity cf = Full -> id_tags id = tag_string tags -> well_formed (cf_max_tag_length cf) tags -> tagged tags may should ->
  unwinding_run cf fuel id line p tr0 = Ok st ->
  exists body last c s,
    trace st = tr0 ++ [TestCaseStarted id line] ++ body ++ last ++ [TestCaseEnded id line c s] /\
    (last = [] \/ exists e, last = [e] /\ should = true /\
      let l := mkloc line Exact in let m := Message (quote "expected test to fail") in
      (e = AssertionSucceeded id [] [] l m \/ e = AssertionFailed id [] [] l m false may)) /\
    (~ skips body ->
      (should = true -> last <> []) /\
      (may = false -> should = false -> (fails body -> s = Failed) /\ (~ fails body -> s = Success)) /\
      (may = true -> should = false -> (fails body -> s = AllowedFail) /\ (~ fails body -> s = Success)) /\
      (may = false -> should = true -> (fails body -> s = AllowedFail) /\ (~ fails body -> s = Failed)) /\
      (may = true -> should = true -> s = AllowedFail)).
Proof.
  intros V E W T R. destruct (unwinding_shape cf V fuel id line p tr0 st may should (flags_of _ _ _ _ _ E W T) R) as (body & last & X).
  cbv zeta in X. destruct X as (X1 & X2 & X3 & X4 & X5 & X6).
  exists body, last, (tally (body ++ last)), (VerdictSpec.verdict (body ++ last)).
  split; [exact X1|]. destruct (verdict_body _ _ _ _ X4) as (V1 & V2 & V3). rewrite X6. split.
  - destruct should; cbn [andb]; [|left; auto].
    destruct (VerdictSpec.verdict body); cbn [negb]; (try (left; reflexivity)); right; eexists; (split; [reflexivity|]); cbv zeta; auto.
  - intros NS. rewrite verdict_concat.
    assert (D : fails body \/ ~ fails body).
    { unfold fails. destruct (Exists_dec (fun e => is_failure e = true) body); auto. intros x. destruct (is_failure x); auto. }
    destruct D as [D|D]; [specialize (V1 D); rewrite V1|specialize (V3 D NS); rewrite V3]; destruct may, should; cbn; repeat split; intros; try discriminate; try tauto; auto.
Qed.

Lemma unwinding_skip cf fuel id line p tr0 st tags may should :
  cf_verbosity cf = Full -> id_tags id = tag_string tags -> well_formed (cf_max_tag_length cf) tags -> tagged tags may should ->
  unwinding_run cf fuel id line p tr0 = Ok st ->
  exists body c s,
    trace st = tr0 ++ [TestCaseStarted id line] ++ body ++ [TestCaseEnded id line c s] /\
    forall before e after, body = before ++ e :: after -> is_skip e = true -> ~ fails before ->
      s = Skipped /\ n_all c = length (filter is_assertion before) /\ Forall (fun e => is_assertion e = false) after.
Proof.
  intros V E W T R. destruct (unwinding_shape cf V fuel id line p tr0 st may should (flags_of _ _ _ _ _ E W T) R) as (own & last & X).
  cbv zeta in X. destruct X as (X1 & X2 & X3 & X4 & X5 & X6).
  exists (own ++ last), (tally (own ++ last)), (VerdictSpec.verdict (own ++ last)).
  split; [rewrite X1, <- !app_assoc; reflexivity|].
  intros before e after EB SK NF. destruct (skip_silent _ _ _ _ X5 EB SK NF) as [A1 A2]. split; [exact A2|]. split; [|exact A1].
  rewrite EB. destruct (tally_length (before ++ e :: after)) as [-> _]. rewrite filter_app. cbn [filter].
  assert (is_assertion e = false) as -> by (destruct e; try discriminate; reflexivity).
  rewrite app_length. replace (filter is_assertion after) with (@nil event); [cbn; lia|].
  clear - A1. induction A1 as [|x l X A IH]; [reflexivity|]. cbn. rewrite X. exact IH.
Qed.


(** ** Bodies whose objects are destroyed without an exception *)
Lemma exec_followed cf id pass p q : forall st,
  exec cf id pass (followed p q) st = bind (exec cf id pass p st) (fun r => match snd r with Some _ => Ok r | None => exec cf id pass q (fst r) end).
Proof.
  induction p as [|n k IHp|when y k IHp|line w abort e IHe k IHp|line message abort k IHp|sec b IHp1 k IHp2|texts b IHp1 k IHp2|accepts notify b IHp1 k IHp2];
    intros st; cbn [followed exec].
  - reflexivity.
  - apply IHp.
  - destruct (when pass); [reflexivity|apply IHp].
  - destruct (check_begin cf line st) as [st1|]; [|reflexivity]. cbn [bind]. destruct (exec cf id pass e st1) as [[st2 x]|]; [|reflexivity]. cbn [bind].
    destruct (conclude cf id pass w abort x st2) as [[st3 y]|]; [|reflexivity]. cbn [bind]. destruct (check_end (is_some y) st3) as [st4|]; [|reflexivity]. cbn [bind].
    destruct y; [reflexivity|apply IHp].
  - destruct (check_begin cf line st) as [st1|]; [|reflexivity]. cbn [bind]. destruct (report_skipped cf id (message pass) st1) as [st2|]; [|reflexivity]. cbn [bind].
    destruct (check_end abort st2) as [st3|]; [|reflexivity]. cbn [bind]. destruct abort; [reflexivity|apply IHp].
  - destruct (section_enter cf sec st) as [[st1 entered]|]; [|reflexivity]. cbn [bind]. destruct entered.
    + destruct (exec cf id pass b st1) as [[st2 x]|]; [|reflexivity]. cbn [bind]. destruct (section_exit cf true (is_some x) st2) as [st3|]; [|reflexivity]. cbn [bind].
      destruct x; [reflexivity|apply IHp2].
    + destruct (section_exit cf false false st1) as [st3|]; [|reflexivity]. cbn [bind]. apply IHp2.
  - destruct (add_captures cf (map (fun l => l pass) texts) st) as [st1|]; [|reflexivity]. cbn [bind]. destruct (exec cf id pass b st1) as [[st2 x]|]; [|reflexivity]. cbn [bind].
    destruct (capture_end (is_some x) (length texts) st2) as [st3|]; [|reflexivity]. cbn [bind]. destruct x; [reflexivity|apply IHp2].
  - destruct (exec cf id pass b st) as [[st1 x]|]; [|reflexivity]. cbn [bind]. destruct x as [e|]; [|apply IHp2]. destruct (accepts e); [apply IHp2|reflexivity].
Qed.

Lemma never_throws_none cf id pass p : never_throws p -> forall u st st' x, unwinding_exec u cf id pass p st = Ok (st', x) -> x = None.
Proof.
  induction p as [|n k IHp|when y k IHp|line w abort e IHe k IHp|line message abort k IHp|sec b IHp1 k IHp2|texts b IHp1 k IHp2|accepts notify b IHp1 k IHp2|d IHd b IHb k IHk];
    cbn [never_throws]; intros N u st st' x H; cbn [unwinding_exec] in H.
  - now injection H.
  - eauto.
  - destruct N.
  - destruct N as (-> & N1 & N2). bstep H as st1 E1. bstep H as [st2 y] E2. bstep H as [st3 z] E3. bstep H as st4 E4.
    assert (z = None); [|subst z; eauto]. clear H E4. unfold unwinding_conclude, maybe_abort in E3.
    destruct w as [what outcome|type accepts|type accepts matches describe|source].
    + apply IHe in E2; auto. subst y. bstep E3 as q E. injection E3 as _ <-. now destruct (outcome pass).
    + destruct y as [e1|]; repeat match type of E3 with
      | Ok _ = Ok _ => injection E3 as <- <-
      | (if ?c then _ else _) = Ok _ => destruct c
      | bind _ _ = Ok _ => step E3
      end; reflexivity.
    + destruct y as [e1|]; repeat match type of E3 with
      | Ok _ = Ok _ => injection E3 as <- <-
      | (if ?c then _ else _) = Ok _ => destruct c
      | bind _ _ = Ok _ => step E3
      end; reflexivity.
    + destruct y as [e1|]; repeat match type of E3 with
      | Ok _ = Ok _ => injection E3 as <- <-
      | (if ?c then _ else _) = Ok _ => destruct c
      | bind _ _ = Ok _ => step E3
      end; reflexivity.
  - destruct N as (-> & N). bstep H as st1 E1. bstep H as st2 E2. bstep H as st3 E3. eauto.
  - destruct N as (N1 & N2). bstep H as [st1 entered] E1. destruct entered.
    + bstep H as [st2 y] E2. bstep H as st3 E3. apply IHp1 in E2; auto. subst y. eauto.
    + bstep H as st3 E3. eauto.
  - destruct N as (N1 & N2). bstep H as st1 E1. bstep H as [st2 y] E2. bstep H as st3 E3. apply IHp1 in E2; auto. subst y. eauto.
  - destruct N as (N1 & N2). bstep H as [st1 y] E1. destruct y as [e|]; [|eauto]. destruct N1 as [N1|N1]; [rewrite N1 in H; eauto|]. apply IHp1 in E1; auto. discriminate.
  - destruct N as (N1 & N2). bstep H as [st1 y] E1. apply IHb in E1; auto. subst y. bstep H as [st2 z] E2. destruct z; [discriminate|]. eauto.
Qed.

Lemma exec_inlined cf id pass p : undisturbed p -> forall st, unwinding_exec false cf id pass p st = exec cf id pass (inlined p) st.
Proof.
  induction p as [|n k IHp|when y k IHp|line w abort e IHe k IHp|line message abort k IHp|sec b IHp1 k IHp2|texts b IHp1 k IHp2|accepts notify b IHp1 k IHp2|d IHd b IHb k IHk];
    cbn [undisturbed]; intros N st; cbn [inlined unwinding_exec exec orb].
  - reflexivity.
  - apply IHp, N.
  - destruct (when pass); [reflexivity|apply IHp, N].
  - destruct N as [N1 N2]. rewrite check_begin_false. destruct (check_begin cf line st) as [st1|]; [|reflexivity]. cbn [bind]. rewrite IHe by auto.
    destruct (exec cf id pass (inlined e) st1) as [[st2 x]|]; [|reflexivity]. cbn [bind]. rewrite conclude_false.
    destruct (conclude cf id pass w abort x st2) as [[st3 y]|]; [|reflexivity]. cbn [bind]. destruct (check_end (is_some y) st3) as [st4|]; [|reflexivity]. cbn [bind].
    destruct y; [reflexivity|now apply IHp].
  - rewrite check_begin_false. destruct (check_begin cf line st) as [st1|]; [|reflexivity]. cbn [bind]. destruct (report_skipped cf id (message pass) st1) as [st2|]; [|reflexivity]. cbn [bind].
    destruct (check_end abort st2) as [st3|]; [|reflexivity]. cbn [bind]. destruct abort; [reflexivity|now apply IHp].
  - destruct N as [N1 N2]. rewrite section_enter_false. destruct (section_enter cf sec st) as [[st1 entered]|]; [|reflexivity]. cbn [bind]. destruct entered.
    + rewrite IHp1 by auto. destruct (exec cf id pass (inlined b) st1) as [[st2 x]|]; [|reflexivity]. cbn [bind]. destruct (section_exit cf true (is_some x) st2) as [st3|]; [|reflexivity]. cbn [bind].
      destruct x; [reflexivity|now apply IHp2].
    + destruct (section_exit cf false false st1) as [st3|]; [|reflexivity]. cbn [bind]. now apply IHp2.
  - destruct N as [N1 N2]. rewrite add_captures_false. destruct (add_captures cf (map (fun l => l pass) texts) st) as [st1|]; [|reflexivity]. cbn [bind]. rewrite IHp1 by auto.
    destruct (exec cf id pass (inlined b) st1) as [[st2 x]|]; [|reflexivity]. cbn [bind].
    destruct (capture_end (is_some x) (length texts) st2) as [st3|]; [|reflexivity]. cbn [bind]. destruct x; [reflexivity|now apply IHp2].
  - destruct N as [N1 N2]. rewrite IHp1 by auto. destruct (exec cf id pass (inlined b) st) as [[st1 x]|]; [|reflexivity]. cbn [bind]. destruct x as [e|]; [|now apply IHp2]. destruct (accepts e); [now apply IHp2|reflexivity].
  - destruct N as (N1 & N2 & N3 & N4 & N5). rewrite exec_followed, <- IHb by auto.
    destruct (unwinding_exec false cf id pass b st) as [[st1 x]|] eqn:E1; [|reflexivity]. cbn [bind fst snd]. apply never_throws_none in E1; auto. subst x. cbn [is_some].
    rewrite exec_followed, <- IHd by auto. destruct (unwinding_exec false cf id pass d st1) as [[st2 y]|] eqn:E2; [|reflexivity]. cbn [bind fst snd].
    apply never_throws_none in E2; auto. subst y. now apply IHk.
Qed.
Lemma passes_inlined cf id p : undisturbed p -> forall fuel pass st, unwinding_passes cf id p fuel pass st = passes cf id (inlined p) fuel pass st.
Proof.
  intros N. induction fuel as [|fuel IH]; intros pass st; cbn [unwinding_passes passes]; [reflexivity|]. rewrite exec_inlined by auto.
  destruct (exec cf id pass (inlined p) _) as [[st2 x]|]; [|reflexivity]. cbn [bind]. destruct x; [reflexivity|]. destruct (_ && _); [apply IH|reflexivity].
Qed.
Lemma run_inlined cf fuel id line p tr0 : undisturbed p -> unwinding_run cf fuel id line p tr0 = run cf fuel (mktest id line (inlined p)) tr0.
Proof.
  intros N. unfold unwinding_run, run. cbn [t_id t_line t_body]. destruct (fail_flags _ _) as [[may should]|]; [|reflexivity]. cbn [bind].
  destruct (push_location _ _ _) as [st1|]; [|reflexivity]. cbn [bind]. now rewrite passes_inlined.
Qed.
