(** Sections, captures and locations in scope are restored by every piece of a test body, however it ends (C26, C28). *)
From Verif.Spec Require Import TextSpec FilterSpec Events RunSpec VerdictSpec.
From Verif.Model Require Import Base Vector StringUtil Filter Run.
From Verif.Proofs Require Import Lists AppendProofs LevelProofs RunProofs InvariantProofs.

Definition scope (st : state) := (map sd_id (current_section (inf st)), captures (inf st), locations (inf st), depth (inf st)).

Section Scope.
Variable cf : config.
Variable id : test_id.

Lemma scope_report v st e : scope (report cf v st e) = scope st.
Proof. unfold report. now destruct (_ <=? _). Qed.

Lemma inf_report v st e : inf (report cf v st e) = inf st.
Proof. unfold report. now destruct (_ <=? _). Qed.

Lemma inf_close l n : forall st, inf (close_sections cf l n st) = inf st.
Proof. induction l as [|s l IH]; intros st; cbn [close_sections]; auto. destruct (_ <? _); auto. rewrite IH. apply inf_report. Qed.
Lemma inf_notify st : inf (notify_exception_handled cf st) = inf st.
Proof. unfold notify_exception_handled. destruct (held st); auto. apply inf_close. Qed.
Lemma inf_hold u st : inf (hold u st) = inf st.
Proof. unfold hold. destruct (held st); auto. now destruct u. Qed.
Lemma inf_raise st s : inf (raise_state st s) = inf st.
Proof. unfold raise_state. now destruct (_ <? _). Qed.

Lemma map_count v l : map sd_id (map (count_section v) l) = map sd_id l.
Proof. rewrite map_map. now apply map_ext. Qed.

Lemma scope_inf st st' : inf st' = inf st -> scope st' = scope st.
Proof. unfold scope. now intros ->. Qed.

Lemma scope_register ok st : scope (register_assertion ok st) = scope st.
Proof.
  unfold register_assertion. cbn [held set_inf set_asserts].
  assert (X : forall v h, scope (set_held (set_inf (set_asserts st (count v (asserts st))) (count_info v (inf st))) h) = scope st)
    by (intros; unfold scope; cbn; now rewrite map_count).
  assert (Y : forall v, scope (set_inf (set_asserts st (count v (asserts st))) (count_info v (inf st))) = scope st)
    by (intros; unfold scope; cbn; now rewrite map_count).
  destruct ok; [|destruct (_ || _)]; cbn [count]; destruct (held st); rewrite ?(scope_inf _ _ (inf_raise _ _)); auto; apply X || apply Y.
Qed.

Lemma scope_assertion ok data st st' : report_assertion cf id ok data st = Ok st' -> scope st' = scope st.
Proof.
  unfold report_assertion. intros H. destruct (is_skipped _); [now injection H as <-|]. bstep H as l E. injection H as <-.
  rewrite <- (scope_register ok st). destruct ok; apply scope_report.
Qed.
Lemma scope_assertion2 ok a b st st' : report_assertion2 cf id ok a b st = Ok st' -> scope st' = scope st.
Proof. rewrite report_assertion2_eq. apply scope_assertion. Qed.
Lemma scope_skipped m st st' : report_skipped cf id m st = Ok st' -> scope st' = scope st.
Proof. unfold report_skipped. intros H. bstep H as l E. injection H as <-. rewrite scope_report. apply scope_inf, inf_raise. Qed.

Lemma scope_conclude pass w abort x st r : conclude cf id pass w abort x st = Ok r -> scope (fst r) = scope st.
Proof.
  intros H. unfold conclude in H.
  destruct w as [what outcome|type accepts|type accepts matches describe|source]; destruct x as [e|];
    repeat match type of H with
    | Ok _ = Ok _ => injection H as <-; cbn [fst]
    | (if ?c then _ else _) = Ok _ => destruct c
    | bind (match ?e with AbortExn => _ | StdExn _ => _ | OtherExn => _ end) _ = _ => destruct e
    | bind _ _ = Ok _ => step H
    end;
    repeat match goal with
    | E : report_assertion _ _ _ _ _ = Ok _ |- _ => apply scope_assertion in E
    | E : report_assertion2 _ _ _ _ _ _ = Ok _ |- _ => apply scope_assertion2 in E
    end; rewrite ?(scope_inf _ _ (inf_notify _)); auto.
Qed.

Lemma pop_back_app {A} (l : list A) r : pop_back l = Ok r -> exists x, l = r ++ [x].
Proof.
  unfold pop_back. destruct l as [|a l] using rev_ind; [discriminate|]. intros H.
  assert (r = l). { destruct (l ++ [a]) eqn:E; [now destruct l|]. rewrite <- E, removelast_last in H. now injection H as <-. }
  subst. eauto.
Qed.
Lemma push_back_app {A} n (l : list A) x r : push_back n l x = Ok r -> r = l ++ [x].
Proof. unfold push_back. destruct (_ =? _); [discriminate|]. now intros [= <-]. Qed.

Definition names (st : state) := map sd_id (current_section (inf st)).
Definition locs (st : state) := locations (inf st).

Lemma scope_eq st st' : scope st' = scope st ->
  names st' = names st /\ captures (inf st') = captures (inf st) /\ locs st' = locs st /\ depth (inf st') = depth (inf st).
Proof. unfold scope, names, locs. intros [= -> -> -> ->]. auto. Qed.

Lemma scope_push l st st' : push_location cf st l = Ok st' ->
  scope st' = (names st, captures (inf st), locs st ++ [l], depth (inf st)).
Proof. unfold push_location. intros H. bstep H as ls E. injection H as <-. apply push_back_app in E. subst. reflexivity. Qed.
Lemma scope_pop st st' n c ls l d : pop_location st = Ok st' -> scope st = (n, c, ls ++ [l], d) -> scope st' = (n, c, ls, d).
Proof.
  unfold pop_location. intros H E. bstep H as ls' P. injection H as <-. apply pop_back_app in P. destruct P as [x P].
  unfold scope in *. rewrite P in E. injection E as <- <- E <-. apply app_inj_tail in E. destruct E as [<- <-]. reflexivity.
Qed.

Lemma scope_check_begin line st st' : check_begin cf line st = Ok st' ->
  scope st' = (names st, captures (inf st), locs st ++ [mkloc line InCheck], depth (inf st)).
Proof.
  unfold check_begin. intros H. bstep H as x E. injection H as <-. apply scope_push in E.
  unfold names, locs in *. rewrite inf_notify in E. exact E.
Qed.
Lemma scope_check_end u st st' n c ls l d : check_end u st = Ok st' -> scope st = (n, c, ls ++ [l], d) -> scope st' = (n, c, ls, d).
Proof. unfold check_end. intros H E. eapply scope_pop; [exact H|]. unfold scope in *. rewrite inf_hold. exact E. Qed.

Lemma scope_add_captures l : forall st st', add_captures cf l st = Ok st' ->
  scope st' = (names st, captures (inf st) ++ map (fun c => fit (cf_max_capture_length cf) (List.concat c)) l, locs st, depth (inf st)).
Proof.
  induction l as [|c l IH]; intros st st' H; cbn [add_captures] in H.
  - injection H as <-. cbn [map]. now rewrite app_nil_r.
  - bstep H as x E. apply IH in H. rewrite H. unfold add_capture in E. destruct (_ =? _); [discriminate|].
    destruct (append_or_truncate_spec (new_string (cf_max_capture_length cf)) c (wf_new _)) as (m & E1 & _ & _ & C).
    rewrite E1 in E. cbn [bind] in E. injection E as <-. unfold names, locs. cbn. rewrite inf_notify.
    rewrite C, vcontent_new, vcap_new. cbn [app]. now rewrite <- app_assoc.
Qed.

Lemma scope_capture_end u k st st' n c c' ls d : capture_end u k st = Ok st' -> scope st = (n, c ++ c', ls, d) -> length c' = k ->
  scope st' = (n, c, ls, d).
Proof.
  unfold capture_end. intros H E L. cbv zeta in H. rewrite inf_hold in H. bstep H as sz P. injection H as <-.
  unfold scope in E. injection E as E1 E2 E3 E4. rewrite E2 in *. unfold csub in P. destruct (_ <=? _) eqn:L1; [|discriminate]. injection P as P. rewrite app_length in P.
  unfold scope. cbn [inf set_inf with_captures captures current_section locations depth]. rewrite E1, E3, E4. replace sz with (length c) by (unfold text, str in *; lia).
  now rewrite firstn_app, firstn_all, Nat.sub_diag, firstn_O, app_nil_r.
Qed.

Lemma scope_section_enter s st st' entered : section_enter cf s st = Ok (st', entered) ->
  scope st' = if entered then (names st ++ [s], captures (inf st), locs st ++ [mkloc (sec_line s) SectionScope], S (depth (inf st)))
              else (names st, captures (inf st), locs st, S (depth (inf st))).
Proof.
  unfold section_enter. rewrite inf_notify. intros H. bstep H as lv E1. bstep H as lev E2. bstep H as lv1 E3.
  assert (N : scope (set_inf (notify_exception_handled cf st) (with_depth (with_levels (inf st) lv1) (S (depth (inf st))))) =
     (names st, captures (inf st), locs st, S (depth (inf st)))) by reflexivity.
  destruct (leaf_executed _); [injection H as <- <-; apply N|].
  destruct (_ && _); [injection H as <- <-; apply N|]. bstep H as lv2 E4. bstep H as cs E5. bstep H as x E6. injection H as <- <-.
  apply push_back_app in E5. apply scope_push in E6. subst cs.
  unfold report_section_started. destruct (_ =? _); [rewrite scope_report|]; rewrite E6; unfold names, locs; cbn; now rewrite map_app.
Qed.

Lemma scope_section_exit e u st st' n s c ls l d : section_exit cf e u st = Ok st' ->
  scope st = (if e then (n ++ [s], c, ls ++ [l], S d) else (n, c, ls, S d)) -> scope st' = (n, c, ls, d).
Proof.
  unfold section_exit. intros H E. bstep H as st1 P. bstep H as d' D. injection H as <-.
  enough (scope st1 = (n, c, ls, S d)) as X.
  { unfold scope in *. injection X as X1 X2 X3 X4. cbn. rewrite X4 in D. injection D as <-. rewrite X1, X2, X3. f_equal. lia. }
  clear D. destruct e; [|injection P as <-; exact E].
  bstep P as st2 P2. eapply scope_pop in P2; [|unfold scope in *; rewrite inf_hold; exact E].
  bstep P as [i2 last] Q. bstep P as st3 P3. bstep P as cs C. injection P as <-.
  assert (I2 : scope (set_inf st2 i2) = scope st2).
  { destruct (_ =? _); [injection Q as <- <-; reflexivity|]. destruct (forallb _ _); [|injection Q as <- <-; reflexivity].
    bstep Q as lv L. injection Q as <- <-. reflexivity. }
  assert (I3 : scope st3 = scope st2).
  { rewrite <- I2. destruct (last && negb u); [|injection P3 as <-; reflexivity]. bstep P3 as sc B. injection P3 as <-. apply scope_report. }
  rewrite P2 in I3. apply pop_back_app in C. destruct C as [y C]. unfold scope in *. rewrite C, map_app in I3.
  injection I3 as I3 I4 I5 I6. apply app_inj_tail in I3. destruct I3 as [I3 _]. cbn. congruence.
Qed.

Lemma scope_exec pass p : forall st st' x, exec cf id pass p st = Ok (st', x) -> scope st' = scope st.
Proof.
  induction p as [|n k IHp|when y k IHp|line w abort e IHe k IHp|line message abort k IHp|sec b IHp1 k IHp2|texts b IHp1 k IHp2|accepts notify b IHp1 k IHp2];
    intros st st' x' H; cbn [exec] in H.
  - now injection H as <- <-.
  - apply IHp in H. now rewrite H, scope_report.
  - destruct (when pass); [now injection H as <- <-|eauto].
  - bstep H as st1 E1. apply scope_check_begin in E1. bstep H as [st2 x] E2. apply IHe in E2.
    bstep H as [st3 z] E3. apply scope_conclude in E3. cbn [fst] in *. bstep H as st4 E4.
    eapply scope_check_end in E4; [|rewrite E3, E2, E1; reflexivity].
    destruct z; [injection H as <- <-; exact E4|]. apply IHp in H. now rewrite H, E4.
  - bstep H as st1 E1. apply scope_check_begin in E1. bstep H as st2 E2. apply scope_skipped in E2.
    bstep H as st3 E3. eapply scope_check_end in E3; [|rewrite E2, E1; reflexivity].
    destruct abort; [injection H as <- <-; exact E3|]. apply IHp in H. now rewrite H, E3.
  - bstep H as [st1 entered] E1. apply scope_section_enter in E1. destruct entered.
    + bstep H as [st2 x] E2. apply IHp1 in E2. bstep H as st3 E3. eapply (scope_section_exit true) in E3; [|rewrite E2; exact E1].
      destruct x; [injection H as <- <-; exact E3|]. apply IHp2 in H. now rewrite H, E3.
    + bstep H as st3 E3. apply (scope_section_exit false false _ _ _ sec _ _ (mkloc 0 Exact) _) with (1 := E3) in E1. clear E3. rename E1 into E3. apply IHp2 in H. now rewrite H, E3.
  - bstep H as st1 E1. apply scope_add_captures in E1. bstep H as [st2 x] E2. apply IHp1 in E2.
    bstep H as st3 E3. eapply scope_capture_end in E3; [|rewrite E2; exact E1|rewrite !map_length; reflexivity].
    destruct x; [injection H as <- <-; exact E3|]. apply IHp2 in H. now rewrite H, E3.
  - bstep H as [st1 x] E1. apply IHp1 in E1. destruct x as [e|]; [|apply IHp2 in H; congruence].
    destruct (accepts e); [|injection H as <- <-; exact E1]. apply IHp2 in H. rewrite H, <- E1. destruct notify; auto.
    apply scope_inf, inf_notify.
Qed.

Lemma scope_passes p : forall fuel pass st st' x, names st = [] -> passes cf id p fuel pass st = Ok (st', x) -> scope st' = scope st.
Proof.
  induction fuel as [|fuel IH]; intros pass st st' x N H; cbn [passes] in H; [discriminate|].
  bstep H as [st2 y] E. apply scope_exec in E. change (scope (set_inf st _)) with (scope st) in E.
  destruct y; [injection H as <- <-; exact E|].
  assert (A : scope (set_inf st2 (after_pass (inf st2))) = scope st).
  { rewrite <- E. unfold after_pass. destruct (levels (inf st2)) as [|c [|]]; auto. destruct (prev_id c =? max_id c); auto.
    unfold scope in *. cbn. injection E as E1 E2 E3 E4. unfold names in N.
    congruence. }
  destruct (_ && _); [|injection H as <- <-; exact A]. apply IH in H; [congruence|].
  apply scope_eq in A. destruct A as [-> _]. exact N.
Qed.
End Scope.
Lemma register_fields (ok : bool) (y : state) :
  let v := if ok then Passed else if may_fail y || should_fail y then AllowedFailure else Failure in
  let z := register_assertion ok y in
  trace z = trace y /\ asserts z = count v (asserts y) /\ may_fail z = may_fail y /\ should_fail z = should_fail y /\
  in_check z = in_check y /\ unhandled z = unhandled y /\
  status z = if ok then status y else
    let s := if may_fail y || should_fail y then IAllowedFail else IFailed in
    if irank (status y) <? irank s then s else status y.
Proof.
  unfold register_assertion. cbn [held set_inf set_asserts].
  destruct ok; [|destruct (may_fail y || should_fail y)]; cbn [count];
    destruct (held y); unfold raise_state, set_status, set_held, set_inf, set_asserts;
    cbn [trace asserts status may_fail should_fail in_check unhandled]; destruct (status y); cbn; auto 10.
Qed.

Lemma assertion_top cf (verbose : cf_verbosity cf = Full) id (ok : bool) data y st' n c l ty d :
  is_skipped (status y) = false -> unhandled y = false -> in_check y = true -> scope y = (n, c, [mkloc l ty], d) ->
  report_assertion cf id ok data y = Ok st' ->
  let e := if ok then AssertionSucceeded id n c (mkloc l Exact) data
           else AssertionFailed id n c (mkloc l Exact) data (should_fail y) (may_fail y) in
  trace st' = trace y ++ [e] /\ asserts st' = plus_counts (asserts y) (tally [e]) /\
  status st' = if ok then status y else
    let s := if may_fail y || should_fail y then IAllowedFail else IFailed in
    if irank (status y) <? irank s then s else status y.
Proof.
  intros SK U C SC H. unfold report_assertion in H. rewrite SK in H.
  destruct (register_fields ok y) as (R1 & R2 & R3 & R4 & R5 & R6 & R7).
  pose proof (scope_register ok y) as SC'. rewrite SC in SC'. revert H SC' R1 R2 R3 R4 R5 R6 R7.
  generalize (register_assertion ok y) as z. intros z H SC' R1 R2 R3 R4 R5 R6 R7. cbv zeta in *.
  rewrite R6, U, R5, C in H. replace (match held z with Some _ => inf z | None => inf z end) with (inf z) in H by now destruct (held z).
  unfold scope in SC'. injection SC' as S1 S2 S3 S4. rewrite S1, S2, S3 in H. cbn [back rev app bind loc_line] in H.
  injection H as <-. destruct ok; rewrite (report_full _ verbose); cbn [trace asserts status]; rewrite R1, R2, R7.
  - split; [reflexivity|]. split; [apply counts_eq; cbn; lia|reflexivity].
  - rewrite R3, R4. split; [reflexivity|]. split; [|reflexivity]. cbn [tally fold_right tally1]. rewrite (orb_comm (should_fail y)).
    destruct (_ || _); apply counts_eq; cbn; lia.
Qed.

(** The events of a whole test case. [body] excludes the final check of tests that should fail. *)
Lemma run_shape cf (verbose : cf_verbosity cf = Full) fuel t tr0 st may should :
  fail_flags (cf_max_tag_length cf) (id_tags (t_id t)) = Ok (may, should) ->
  run cf fuel t tr0 = Ok st ->
  exists body last, let s := VerdictSpec.verdict (body ++ last) in
    trace st = tr0 ++ [TestCaseStarted (t_id t) (t_line t)] ++ body ++ last ++ [TestCaseEnded (t_id t) (t_line t) (tally (body ++ last)) s] /\
    status st = intern s /\ asserts st = tally (body ++ last) /\
    Forall (of_body (t_id t) may should) body /\ silent_once_skipped (body ++ last) /\
    last = if should && negb (match VerdictSpec.verdict body with Skipped => true | _ => false end) then
             [let l := mkloc (t_line t) Exact in let m := Message (quote "expected test to fail") in
              match VerdictSpec.verdict body with
              | AllowedFail => AssertionSucceeded (t_id t) [] [] l m
              | _ => AssertionFailed (t_id t) [] [] l m false may
              end]
           else [].
Proof.
  intros FF H. unfold run in H. rewrite FF in H. cbn [bind] in H. rewrite (report_full _ verbose) in H.
  cbn [trace app] in H. bstep H as st1 E1. bstep H as [st2 x] E2.
  set (tr := tr0 ++ [TestCaseStarted (t_id t) (t_line t)]) in *.
  assert (I1 : inv (t_id t) may should tr st1).
  { eapply inv_push; [|exact E1]. exists []. cbn. rewrite app_nil_r. repeat split; auto.
    intros a e b Q. now destruct a. }
  apply scope_push in E1. unfold names, locs in E1. cbn in E1.
  pose proof (inv_passes _ verbose _ _ _ _ _ _ _ _ _ I1 E2) as I2. cbn [fst] in I2.
  apply scope_passes in E2; [|injection E1; auto].
  rewrite E1 in E2. bstep H as st3 E3.
  assert (I3 : inv (t_id t) may should tr st3 /\ scope st3 = scope st2 /\ (unhandled st3 = false -> True)).
  { destruct x as [[|what|]|].
    - injection E3 as <-. repeat split; auto.
    - pose proof E3 as E4. apply (inv_assertion2 _ verbose (t_id t) may should tr) in E4; [|exact I2]. apply scope_assertion2 in E3. auto.
    - pose proof E3 as E4. apply (inv_assertion _ verbose (t_id t) may should tr) in E4; [|exact I2]. apply scope_assertion in E3. auto.
    - bstep E3 as y E. injection E3 as <-. pose proof E as E4.
      apply (inv_assertion _ verbose (t_id t) may should tr) in E4; [|exact I2]. apply scope_assertion in E. auto. }
  destruct I3 as (I3 & S3 & _). set (st4 := if unhandled st3 then _ else _) in *.
  assert (I4 : inv (t_id t) may should tr (set_unhandled st4 false) /\ scope (set_unhandled st4 false) = scope st2 /\
    unhandled (set_unhandled st4 false) = false).
  { rewrite <- S3. unfold st4. destruct (unhandled st3) eqn:U; repeat split.
    - pose proof (inv_notify _ verbose _ _ _ _ _ I3) as X. exact X.
    - apply (scope_inf st3). apply (inf_notify cf).
    - exact I3. }
  clearbody st4. revert H I4. generalize (set_unhandled st4 false) as st5. clear - verbose E2. intros st5 H (I & SC & U).
  rewrite E2 in SC. destruct I as (ev & X1 & X2 & X3 & X4 & X5 & X6 & X7). rewrite X7 in H.
  pose proof (compat _ _ _ _ X4) as CO. exists ev.
  destruct should; cbn [andb] in *.
  - bstep H as st6 F. bstep F as st' A. injection F as <-. rewrite X3 in A.
    destruct (match VerdictSpec.verdict ev with Skipped => true | _ => false end) eqn:SK.
    + assert (V : VerdictSpec.verdict ev = Skipped) by (now destruct (VerdictSpec.verdict ev)). exists []. rewrite V in A, X3.
      unfold report_assertion in A. cbn [status set_in_check set_should_fail] in A. rewrite X3 in A. cbn in A. injection A as <-.
      cbn [status set_in_check set_should_fail asserts] in H. rewrite X3 in H. cbn [intern convert_to_public_state bind] in H.
      injection H as <-. rewrite (report_full _ verbose). cbn [trace status asserts set_in_check set_should_fail].
      rewrite app_nil_r, X1, X2, V, X3. unfold tr. rewrite <- !app_assoc. auto 10.
    + eapply assertion_top in A; [|exact verbose|cbn [status set_in_check set_should_fail]; rewrite X3; now destruct (VerdictSpec.verdict ev)
        |exact U|reflexivity|exact SC]. cbn [trace asserts status may_fail should_fail set_in_check set_should_fail] in A.
      destruct A as (A1 & A2 & A3). rewrite X6, X3, orb_false_r in *. cbn [status set_in_check set_should_fail asserts] in H. rewrite A3 in H.
      assert (NS : VerdictSpec.verdict ev <> Skipped) by (intros Q; rewrite Q in SK; discriminate).
      exists [match VerdictSpec.verdict ev with
              | AllowedFail => AssertionSucceeded (t_id t) [] [] (mkloc (t_line t) Exact) (Message (quote "expected test to fail"))
              | _ => AssertionFailed (t_id t) [] [] (mkloc (t_line t) Exact) (Message (quote "expected test to fail")) false may
              end].
      cbv zeta. split; [|split; [|split; [|split; [|split; [|reflexivity]]]]].
      * bstep H as s E. injection H as <-. rewrite (report_full _ verbose). cbn [trace status asserts set_in_check set_should_fail].
        rewrite A1, A2, X1, X2, tally_app, verdict_app. unfold tr. rewrite orb_true_r in CO.
        destruct (VerdictSpec.verdict ev); try congruence; destruct may; cbn in E; injection E as <-; rewrite <- !app_assoc; reflexivity.
      * bstep H as s E. injection H as <-. rewrite (report_full _ verbose). cbn [trace status asserts set_in_check set_should_fail].
        rewrite A3, verdict_app. rewrite orb_true_r in CO. destruct (VerdictSpec.verdict ev); try congruence; destruct may; reflexivity.
      * bstep H as s E. injection H as <-. rewrite (report_full _ verbose). cbn [trace status asserts set_in_check set_should_fail].
        rewrite A2, X2, tally_app. destruct (VerdictSpec.verdict ev); try congruence; reflexivity.
      * exact X4.
      * apply silent_app; auto. congruence.
  - exists []. cbn [bind] in H. rewrite X3 in H. bstep H as s E. injection H as <-. rewrite (report_full _ verbose).
    cbn [trace status asserts]. rewrite app_nil_r, X1, X2, X3. unfold tr. rewrite <- !app_assoc.
    assert (s = VerdictSpec.verdict ev) by (destruct (VerdictSpec.verdict ev); now injection E). subst s. auto 10.
Qed.
