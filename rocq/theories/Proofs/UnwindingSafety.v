(** Within the limits, no assertion of the framework fails, whatever the test body and its destructors (C80). *)
From Verif.Spec Require Import TextSpec FilterSpec Events RunSpec VerdictSpec TreeSpec UnwindingSpec.
From Verif.Model Require Import Base Vector StringUtil Filter Run Unwinding.
From Verif.Proofs Require Import Lists AppendProofs LevelProofs RunProofs InvariantProofs ScopeProofs SafetyProofs RunFacts UnwindingProofs UnwindingFacts UnwindingLife.

Lemma nesting_followed p q : nesting (followed p q) = Nat.max (nesting p) (nesting q).
Proof. induction p; cbn [followed nesting]; rewrite ?IHp, ?IHp1, ?IHp2; lia. Qed.
Lemma scopes_followed p q : scopes (followed p q) = Nat.max (scopes p) (scopes q).
Proof. induction p; cbn [followed scopes]; rewrite ?IHp, ?IHp1, ?IHp2; lia. Qed.
Lemma capturing_followed p q : capturing (followed p q) = Nat.max (capturing p) (capturing q).
Proof. induction p; cbn [followed capturing]; rewrite ?IHp, ?IHp1, ?IHp2; lia. Qed.

Lemma section_enter_true_eq cf s st : unwinding_section_enter true cf s st =
  bind (section_enter cf s (set_held st None)) (fun r => Ok (set_held (fst r) (held st), snd r)).
Proof.
  unfold unwinding_section_enter, section_enter, notify_unless. replace (notify_exception_handled cf (set_held st None)) with (set_held st None) by reflexivity.
  change (inf (set_held st None)) with (inf st).
  match goal with |- bind ?a _ = _ => destruct a as [lv|]; [|reflexivity] end. cbn [bind].
  match goal with |- bind ?a _ = _ => destruct a as [lev|]; [|reflexivity] end. cbn [bind].
  match goal with |- bind ?a _ = _ => destruct a as [lv1|]; [|reflexivity] end. cbn [bind].
  destruct (leaf_executed _); [cbn; destruct st; reflexivity|]. destruct (_ && _); [cbn; destruct st; reflexivity|].
  match goal with |- bind ?a _ = _ => destruct a as [lv2|]; [|reflexivity] end. cbn [bind inf set_inf set_held].
  match goal with |- bind ?a _ = _ => destruct a as [cs|]; [|reflexivity] end. cbn [bind].
  unfold push_location. cbn [inf set_inf]. destruct (push_back _ (locations _) _) as [ls|]; [|reflexivity]. cbn [bind fst snd].
  unfold report_section_started, report.
  destruct (vlevel High <=? vlevel (cf_verbosity cf)); destruct st; cbn; destruct (cur_id lev =? prev_id lev); reflexivity.
Qed.

Section Safety.
Variable cf : config.
Variable id : test_id.
Notation maxn := (cf_max_nested cf).

Lemma safe_unless u st : safe cf st -> safe cf (notify_unless u cf st).
Proof. destruct u; [auto|]. apply safe_notify. Qed.
Lemma safe_unwinding_report u ok data st : safe cf st -> exists st', unwinding_report u cf id ok data st = Ok st' /\ safe cf st'.
Proof.
  intros H. destruct u; [|rewrite report_false; now apply safe_assertion]. rewrite report_true.
  destruct (safe_assertion cf id ok data (set_unhandled st true)) as (st1 & -> & S1); [exact H|]. cbn [bind]. eexists. split; [reflexivity|]. exact S1.
Qed.
Lemma safe_unwinding_report2 u ok a b st : safe cf st -> exists st', unwinding_report2 u cf id ok a b st = Ok st' /\ safe cf st'.
Proof.
  intros H. unfold unwinding_report2. destruct (is_skipped _); [eauto|].
  destruct (append_or_truncate_spec (new_string (cf_max_message_length cf)) [a; b] (wf_new _)) as (m & E1 & _). rewrite E1. cbn [bind]. now apply safe_unwinding_report.
Qed.
Lemma safe_unwinding_conclude u pass w abort x st : safe cf st -> exists st' y, unwinding_conclude u cf id pass w abort x st = Ok (st', y) /\ safe cf st'.
Proof.
  intros H. unfold unwinding_conclude.
  destruct w as [what outcome|type accepts|type accepts matches describe|source]; destruct x as [e|];
    repeat match goal with
    | |- context[if accepts ?e then _ else _] => destruct (accepts e)
    | |- context[if matches ?e then _ else _] => destruct (matches e)
    | |- context[match ?e with AbortExn => _ | StdExn _ => _ | OtherExn => _ end] => destruct e
    end;
    try match goal with
    | |- context[unwinding_report u cf id ?a ?b ?c] => destruct (safe_unwinding_report u a b c H) as (st1 & -> & S1)
    | |- context[unwinding_report2 u cf id ?a ?b ?d ?c] => destruct (safe_unwinding_report2 u a b d c H) as (st1 & -> & S1)
    end; cbn [bind]; do 2 eexists; (split; [reflexivity|]); auto using safe_notify.
Qed.
Lemma safe_unwinding_check_begin u line st : safe cf st -> length (locations (inf st)) < maxn + 2 -> exists st', unwinding_check_begin u cf line st = Ok st' /\ safe cf st'.
Proof.
  intros H L. unfold unwinding_check_begin. destruct (safe_push cf (mkloc line InCheck) (notify_unless u cf st)) as (st1 & -> & S1).
  - now apply safe_unless.
  - now rewrite inf_unless.
  - cbn [bind]. eauto.
Qed.
Lemma safe_unwinding_section_enter u s st : safe cf st -> depth (inf st) < maxn -> length (locations (inf st)) < maxn + 2 ->
  exists st' e, unwinding_section_enter u cf s st = Ok (st', e) /\
    ((e = true /\ safe cf st') \/
     (e = false /\ held_safe st' /\ S (depth (inf st)) <= length (levels (inf st')) <= maxn /\ length (current_section (inf st')) = depth (inf st))).
Proof.
  intros H D L. destruct u; [|now apply safe_section_enter]. rewrite section_enter_true_eq.
  assert (H0 : safe cf (set_held st None)).
  { destruct H as (H1 & H2 & H3 & H4). unfold safe, held_safe. cbn. repeat split; auto; try apply H1. discriminate. }
  destruct (safe_section_enter cf s (set_held st None) H0 D L) as (st1 & e & -> & X). cbn [bind fst snd]. do 2 eexists. split; [reflexivity|].
  destruct H as (_ & _ & H3 & _). destruct X as [(-> & X1 & X2 & X3 & X4)|(-> & X1 & X2 & X3)]; [left|right]; (split; [reflexivity|]).
  - unfold safe, held_safe in *. cbn. auto.
  - unfold held_safe in *. cbn. auto.
Qed.
Lemma safe_section_skip_u u st d : held_safe st -> locations (inf st) <> [] -> depth (inf st) = S d -> S d <= length (levels (inf st)) <= maxn ->
  length (current_section (inf st)) = d -> exists st', section_exit cf false u st = Ok st' /\ safe cf st'.
Proof. intros. change (section_exit cf false u st) with (section_exit cf false false st). eapply safe_section_skip; eauto. Qed.
Lemma safe_unwinding_captures u l : forall st, safe cf st -> length (captures (inf st)) + length l <= cf_max_captures cf ->
  exists st', unwinding_add_captures u cf l st = Ok st' /\ safe cf st'.
Proof.
  induction l as [|c l IH]; intros st H L; cbn [unwinding_add_captures]; [eauto|].
  unfold unwinding_add_capture. cbn [length] in L. destruct (Nat.eqb_spec (length (captures (inf st))) (cf_max_captures cf)); [lia|].
  destruct (append_or_truncate_spec (new_string (cf_max_capture_length cf)) c (wf_new _)) as (m & E1 & _). rewrite E1. cbn [bind].
  apply IH.
  - apply (safe_unless u) in H. exact H.
  - cbn. rewrite inf_unless, app_length. cbn. lia.
Qed.

Definition fine (p : gprog) (r : res (state * option exn)) : Prop :=
  (exists st x, r = Ok (st, x) /\ safe cf st) \/ (r = Err Terminate /\ ~ calm p).

Lemma fine_weaken p q r : (calm q -> calm p) -> fine p r -> fine q r.
Proof. intros I [H|[H N]]; [left; exact H|right; auto]. Qed.

Lemma safe_unwinding_exec pass p : forall u st, safe cf st -> depth (inf st) + nesting (inlined p) <= maxn ->
  length (locations (inf st)) + scopes (inlined p) <= maxn + 2 -> length (captures (inf st)) + capturing (inlined p) <= cf_max_captures cf ->
  fine p (unwinding_exec u cf id pass p st).
Proof.
  induction p as [|n k IHp|when y k IHp|line w abort e IHe k IHp|line message abort k IHp|sec b IHp1 k IHp2|texts b IHp1 k IHp2|accepts notify b IHp1 k IHp2|d IHd b IHb k IHk];
    intros u st S0 D L C; cbn [inlined] in *; rewrite ?nesting_followed, ?scopes_followed, ?capturing_followed in *; cbn [nesting scopes capturing] in *; cbn [unwinding_exec].
  - left. eauto.
  - apply (fine_weaken k); [auto|]. apply IHp; rewrite ?inf_report; auto using safe_report.
  - destruct (when pass); [left; eauto|]. apply (fine_weaken k); auto.
  - destruct (safe_unwinding_check_begin u line st S0) as (st1 & E1 & S1); [lia|]. rewrite E1. cbn [bind].
    apply scope_unwinding_check_begin in E1. unfold scope, names, locs in E1. injection E1 as _ EC EL ED.
    destruct (IHe u st1 S1) as [(st2 & x & E2 & S2)|[-> N]]; try (rewrite ?ED, ?EL, ?EC, ?app_length; cbn [length]; lia); [|right; cbn; tauto]. rewrite E2. cbn [bind].
    apply scope_unwinding_exec, scope_lens in E2. destruct E2 as (D2 & L2 & C2).
    destruct (safe_unwinding_conclude u pass w abort x st2 S2) as (st3 & z & E3 & S3). rewrite E3. cbn [bind].
    apply scope_unwinding_conclude, scope_lens in E3. destruct E3 as (D3 & L3 & C3). cbn [fst] in *.
    destruct (safe_check_end cf (u || is_some z) st3 (locations (inf st)) (mkloc line InCheck) S3) as (st4 & E4 & S4); [congruence|exact (proj1 (proj2 S0))|].
    rewrite E4. cbn [bind]. destruct z; [left; eauto|].
    eapply scope_check_end in E4; [|unfold scope; rewrite L3, L2, EL; reflexivity].
    unfold scope in E4. injection E4 as _ C4 L4 D4. apply (fine_weaken k); [cbn; tauto|]. apply IHp; auto; rewrite ?D4, ?L4, ?C4, ?D3, ?D2, ?ED, ?C3, ?C2, ?EC; lia.
  - destruct (safe_unwinding_check_begin u line st S0) as (st1 & E1 & S1); [lia|]. rewrite E1. cbn [bind].
    apply scope_unwinding_check_begin in E1. unfold scope, names, locs in E1. injection E1 as _ EC EL ED.
    destruct (safe_skipped cf id (message pass) st1 S1) as (st3 & E3 & S3). rewrite E3. cbn [bind].
    apply scope_skipped, scope_lens in E3. destruct E3 as (D3 & L3 & C3).
    destruct (safe_check_end cf (u || abort) st3 (locations (inf st)) (mkloc line InCheck) S3) as (st4 & E4 & S4); [congruence|exact (proj1 (proj2 S0))|].
    rewrite E4. cbn [bind]. destruct abort; [left; eauto|].
    eapply scope_check_end in E4; [|unfold scope; rewrite L3, EL; reflexivity].
    unfold scope in E4. injection E4 as _ C4 L4 D4. apply (fine_weaken k); [auto|]. apply IHp; auto; rewrite ?D4, ?L4, ?C4, ?D3, ?ED, ?C3, ?EC; lia.
  - destruct (safe_unwinding_section_enter u sec st S0) as (st1 & entered & E1 & S1); [lia|lia|]. rewrite E1. cbn [bind].
    apply scope_unwinding_enter in E1. destruct S1 as [[-> S1]|(-> & S1 & S2 & S3)]; unfold scope, names, locs in E1; injection E1 as EN EC EL ED.
    + destruct (IHp1 u st1 S1) as [(st2 & x & E2 & S2)|[-> N]]; try (rewrite ?ED, ?EL, ?EC, ?app_length; cbn [length]; lia); [|right; cbn; tauto]. rewrite E2. cbn [bind].
      apply scope_unwinding_exec in E2. pose proof (scope_lens _ _ E2) as (D2 & L2 & C2).
      assert (SC : scope st2 = (map sd_id (current_section (inf st)) ++ [sec], captures (inf st2), locations (inf st) ++ [mkloc (sec_line sec) SectionScope], S (depth (inf st)))).
      { rewrite E2. unfold scope. rewrite EN, EL, ED, C2. reflexivity. }
      destruct (safe_section_exit cf (u || is_some x) st2 _ _ _ _ S2 SC) as (st3 & E3 & S3); [exact (proj1 (proj2 S0))|]. rewrite E3. cbn [bind].
      destruct x; [left; eauto|]. eapply (scope_section_exit cf true) in E3; [|exact SC]. unfold scope in E3. injection E3 as _ C4 L4 D4.
      apply (fine_weaken k); [cbn; tauto|]. apply IHp2; auto; rewrite ?D4, ?L4, ?C4, ?C2, ?EC; lia.
    + destruct (safe_section_skip_u u st1 (depth (inf st)) S1) as (st3 & E3 & S4); auto; [rewrite EL; exact (proj1 (proj2 S0))|]. rewrite E3. cbn [bind].
      apply (scope_section_exit cf false u _ _ (map sd_id (current_section (inf st))) sec (captures (inf st)) (locations (inf st)) (mkloc 0 Exact) (depth (inf st))) in E3;
        [|unfold scope; rewrite EN, EC, EL, ED; reflexivity].
      unfold scope in E3. injection E3 as _ C4 L4 D4. apply (fine_weaken k); [cbn; tauto|]. apply IHp2; auto; rewrite ?D4, ?L4, ?C4; lia.
  - destruct (safe_unwinding_captures u (map (fun l => l pass) texts) st S0) as (st1 & E1 & S1); [rewrite map_length; unfold text, str in *; lia|]. rewrite E1. cbn [bind].
    apply scope_unwinding_captures in E1. destruct E1 as (added & LA & E1). rewrite map_length in LA. unfold scope, names, locs in E1. injection E1 as EN EC EL ED.
    destruct (IHp1 u st1 S1) as [(st2 & x & E2 & S2)|[-> N]]; try (rewrite ?ED, ?EL, ?EC, ?app_length, ?map_length; unfold text, str in *; lia); [|right; cbn; tauto]. rewrite E2. cbn [bind].
    apply scope_unwinding_exec in E2. pose proof (scope_lens _ _ E2) as (D2 & L2 & C2).
    unfold capture_end. rewrite inf_hold, C2, EC, app_length, LA.
    rewrite csub_ok by (unfold text, str in *; lia). cbn [bind].
    rewrite Nat.add_sub, firstn_app, firstn_all, Nat.sub_diag, firstn_O, app_nil_r.
    assert (S3 : safe cf (set_inf (hold (u || is_some x) st2) (with_captures (inf st2) (captures (inf st))))).
    { apply (safe_hold cf (u || is_some x)) in S2. destruct S2 as (A1 & A2 & A3 & A4). rewrite inf_hold in *. unfold safe. cbn. auto. }
    destruct x; [left; eauto|]. apply (fine_weaken k); [cbn; tauto|]. apply IHp2; auto; cbn; rewrite ?D2, ?L2, ?ED, ?EL; lia.
  - destruct (IHp1 u st S0) as [(st1 & x & E1 & S1)|[-> N]]; [lia|lia|lia| |right; cbn; tauto]. rewrite E1. cbn [bind].
    apply scope_unwinding_exec, scope_lens in E1. destruct E1 as (D1 & L1 & C1).
    destruct x as [e|]; [|apply (fine_weaken k); [cbn; tauto|]; apply IHp2; auto; rewrite ?D1, ?L1, ?C1; lia].
    destruct (accepts e); [|left; eauto]. apply (fine_weaken k); [cbn; tauto|]. apply IHp2.
    + destruct notify; auto using safe_notify.
    + destruct notify; rewrite ?inf_notify, D1; lia.
    + destruct notify; rewrite ?inf_notify, L1; lia.
    + destruct notify; rewrite ?inf_notify, C1; lia.
  - destruct (IHb u st S0) as [(st1 & x & E1 & S1)|[-> N]]; [lia|lia|lia| |right; cbn; tauto]. rewrite E1. cbn [bind].
    apply scope_unwinding_exec, scope_lens in E1. destruct E1 as (D1 & L1 & C1).
    destruct (IHd (u || is_some x) st1 S1) as [(st2 & y & E2 & S2)|[-> N]]; try (rewrite ?D1, ?L1, ?C1; lia); [|right; cbn; tauto]. rewrite E2. cbn [bind].
    destruct y.
    + right. split; [reflexivity|]. cbn. intros (N & _). apply never_throws_none in E2; auto. discriminate.
    + apply scope_unwinding_exec, scope_lens in E2. destruct E2 as (D2 & L2 & C2). destruct x; [left; eauto|].
      apply (fine_weaken k); [cbn; tauto|]. apply IHk; auto; rewrite ?D2, ?L2, ?C2, ?D1, ?L1, ?C1; lia.
Qed.

Definition level_top (st : state) : Prop := safe cf st /\ depth (inf st) = 0 /\ length (locations (inf st)) = 1 /\ captures (inf st) = [].
Lemma top_after st : level_top st -> level_top (set_inf st (after_pass (inf st))).
Proof.
  intros ((A1 & A2 & A3 & A4) & D & L & C). unfold after_pass. destruct (levels (inf st)) as [|c [|]] eqn:E; [| |];
    try (destruct (prev_id c =? max_id c)); unfold level_top, safe, held_safe; cbn; rewrite ?E; cbn; cbn in A1; rewrite ?D in *; repeat split; auto; try lia.
Qed.
Lemma top_before st : level_top st -> level_top (set_inf st (with_levels (with_leaf_executed (inf st) false) (map reset_level (levels (inf st))))).
Proof.
  intros ((A1 & A2 & A3 & A4) & D & L & C). unfold level_top, safe, held_safe. cbn. rewrite map_length. auto.
Qed.

Definition fine_run (p : gprog) (r : res (state * option exn)) : Prop :=
  r = Err Fuel \/ (exists st x, r = Ok (st, x) /\ safe cf st) \/ (r = Err Terminate /\ ~ calm p).
Lemma safe_unwinding_passes p : nesting (inlined p) <= maxn -> scopes (inlined p) <= S maxn -> capturing (inlined p) <= cf_max_captures cf ->
  forall fuel pass st, level_top st -> fine_run p (unwinding_passes cf id p fuel pass st).
Proof.
  intros N Sc C. induction fuel as [|fuel IH]; intros pass st T; cbn [unwinding_passes]; [left; reflexivity|]. apply top_before in T.
  match goal with |- context [unwinding_exec false cf id pass p ?s] => set (st1 := s) in * end. destruct T as (T & D & L & K).
  destruct (safe_unwinding_exec pass p false st1 T) as [(st2 & x & E & S2)|[E X]]; try (rewrite ?D, ?L, ?K; cbn [length]; lia).
  - rewrite E. cbn [bind]. destruct x; [right; left; eauto|]. apply scope_unwinding_exec, scope_lens in E. destruct E as (D2 & L2 & K2).
    assert (T2 : level_top st2) by (unfold level_top; rewrite D2, L2, K2; auto). apply top_after in T2.
    destruct (_ && _); [now apply IH|]. right. left. do 2 eexists. split; [reflexivity|]. apply T2.
  - rewrite E. right. right. auto.
Qed.
End Safety.

Lemma ran_unwinding_passes cf id p : forall fuel pass st r, ran st -> unwinding_passes cf id p fuel pass st = Ok r -> ran (fst r).
Proof.
  assert (X : forall pass st r, ran st -> unwinding_exec false cf id pass p st = Ok r -> ran (fst r)).
  { intros pass st r Q H. refine (rel_exec cf id [] (fun a b => ran a -> ran b) _ _ _ _ _ _ _ _ pass p (without_nil p) false st r H Q).
    - auto.
    - auto.
    - intros a b _ _ E _ _. now apply ran_status.
    - intros a n _. apply ran_status, status_report.
    - intros a ok data b E Y. eapply ran_assertion; eauto.
    - intros a m b E Y. eapply ran_skipped; eauto.
    - intros a y. apply ran_status, status_report.
    - intros a y. apply ran_status, status_report. }
  induction fuel as [|fuel IH]; intros pass st r Q H; cbn [unwinding_passes] in H; [discriminate|].
  bstep H as [st2 y] E. apply X in E; [|exact Q]. cbn [fst] in E. destruct y; [injection H as <-; exact E|].
  destruct (_ && _); [eapply IH; [|exact H]; exact E|]. injection H as <-. exact E.
Qed.

Lemma unwinding_limits cf fuel id line p tr0 tags may should :
  id_tags id = tag_string tags -> well_formed (cf_max_tag_length cf) tags -> tagged tags may should ->
  nesting (inlined p) <= cf_max_nested cf -> scopes (inlined p) <= S (cf_max_nested cf) -> capturing (inlined p) <= cf_max_captures cf ->
  unwinding_run cf fuel id line p tr0 = Err Fuel \/ (exists st, unwinding_run cf fuel id line p tr0 = Ok st) \/
  (unwinding_run cf fuel id line p tr0 = Err Terminate /\ ~ calm p).
Proof.
  intros E W T N Sc C. pose proof (flags_of _ _ _ _ _ E W T) as FF. unfold unwinding_run. rewrite FF. cbn [bind].
  set (st0 := report cf High _ _). assert (I0 : inf st0 = mkinfo [] [] 0 false [] []) by apply inf_report.
  assert (H0 : held st0 = None) by (unfold st0; rewrite held_report; reflexivity).
  assert (P : exists st1, push_location cf (set_status st0 ISuccess) (mkloc line TestCaseScope) = Ok st1 /\ level_top cf st1 /\ ran st1).
  { unfold push_location. cbn [inf set_status]. rewrite I0. cbn [locations]. rewrite push_back_ok by (cbn; lia). cbn [bind]. eexists. split; [reflexivity|].
    unfold level_top, safe, held_safe, ran. cbn. rewrite H0. repeat split; auto; try lia; discriminate. }
  destruct P as (st1 & -> & T1 & R1). cbn [bind].
  destruct (safe_unwinding_passes cf id p N Sc C fuel 0 st1 T1) as [-> |[(st2 & x & E2 & S2)|[-> NC]]]; [left; reflexivity| |right; right; auto].
  pose proof (ran_unwinding_passes _ _ _ _ _ _ _ R1 E2) as R2. cbn [fst] in R2. rewrite E2. cbn [bind]. right. left.
  assert (Y : exists st3, match x with
     | None => do st' <- report_assertion cf id true (Message (lit "no exception caught")) (set_in_check st2 true) ;; Ok (set_in_check st' false)
     | Some AbortExn => Ok (set_unhandled st2 true)
     | Some (StdExn what) => report_assertion2 cf id false (lit "unexpected std::exception caught; message: ") what (set_unhandled st2 true)
     | Some OtherExn => report_assertion cf id false (Message (lit "unexpected unknown exception caught")) (set_unhandled st2 true)
     end = Ok st3 /\ safe cf st3 /\ ran st3).
  { destruct x as [[|what|]|].
    - eauto.
    - destruct (safe_assertion2 cf id false (lit "unexpected std::exception caught; message: ") what (set_unhandled st2 true) S2) as (st3 & E3 & S3).
      rewrite E3. exists st3. split; [reflexivity|]. split; [exact S3|]. eapply ran_assertion2; [|exact E3]. exact R2.
    - destruct (safe_assertion cf id false (Message (lit "unexpected unknown exception caught")) (set_unhandled st2 true) S2) as (st3 & E3 & S3).
      rewrite E3. exists st3. split; [reflexivity|]. split; [exact S3|]. eapply ran_assertion; [|exact E3]. exact R2.
    - destruct (safe_assertion cf id true (Message (lit "no exception caught")) (set_in_check st2 true) S2) as (st3 & E3 & S3).
      rewrite E3. cbn [bind]. eexists. split; [reflexivity|]. split; [exact S3|]. eapply ran_assertion in E3; [|exact R2]. exact E3. }
  destruct Y as (st3 & -> & S3 & R3). cbn [bind].
  set (st5 := set_unhandled (if unhandled st3 then notify_exception_handled cf st3 else st3) false).
  assert (S5 : safe cf st5) by (unfold st5; destruct (unhandled st3); [apply (safe_notify cf) in S3|]; exact S3).
  assert (R5 : ran st5).
  { unfold st5. destruct (unhandled st3); [|exact R3]. apply (ran_status st3); [|exact R3]. cbn. apply (status_notify cf). }
  clearbody st5. assert (Z : exists st6, (if should_fail st5 then
       do st' <- report_assertion cf id (match status st5 with IAllowedFail => true | _ => false end) (Message (lit "expected test to fail")) (set_in_check (set_should_fail st5 false) true) ;;
       Ok (set_should_fail (set_in_check st' false) true)
     else Ok st5) = Ok st6 /\ ran st6).
  { destruct (should_fail st5); [|eauto].
    destruct (safe_assertion cf id (match status st5 with IAllowedFail => true | _ => false end) (Message (lit "expected test to fail")) (set_in_check (set_should_fail st5 false) true) S5) as (st6 & E6 & S6).
    rewrite E6. cbn [bind]. eexists. split; [reflexivity|]. eapply ran_assertion in E6; [|exact R5]. exact E6. }
  destruct Z as (st6 & -> & R6). cbn [bind]. unfold ran in R6. destruct (status st6); cbn [convert_to_public_state bind]; try congruence; eauto.
Qed.

Lemma thrown_case cf fuel id line s line1 what1 outcome1 l x before st tags may should :
  cf_verbosity cf = Full -> id_tags id = tag_string tags -> well_formed (cf_max_tag_length cf) tags -> tagged tags may should -> x <> AbortExn ->
  unwinding_run cf fuel id line (GInSection s (GScope (checks ((line1, what1, outcome1) :: l)) (GThrow (fun _ => true) x GNil) GNil) GNil) before = Ok st ->
  exists what last, trace st = before ++ [TestCaseStarted id line; SectionStarted s] ++
    map (reported id [s] [] line1 should may 0) ((line1, what1, outcome1) :: l) ++
    [AssertionFailed id [s] [] (mkloc line1 InCheck) what should may] ++ last.
Proof. intros V E W T. apply thrown_place; auto. eapply flags_of; eauto. Qed.
Lemma required_case cf fuel id line s line0 what0 l before st tags may should :
  cf_verbosity cf = Full -> id_tags id = tag_string tags -> well_formed (cf_max_tag_length cf) tags -> tagged tags may should ->
  unwinding_run cf fuel id line (GInSection s (GScope (checks l) (GCheck line0 (IsTrue what0 (fun _ => false)) true GNil GNil) GNil) GNil) before = Ok st ->
  exists last, trace st = before ++ [TestCaseStarted id line; SectionStarted s; AssertionFailed id [s] [] (mkloc line0 Exact) (what0 0) should may] ++
    map (reported id [s] [] line0 should may 0) l ++ last.
Proof. intros V E W T. apply required_place; auto. eapply flags_of; eauto. Qed.
Lemma section_case cf fuel id line l what s before tags may should :
  cf_verbosity cf = Full -> id_tags id = tag_string tags -> well_formed (cf_max_tag_length cf) tags -> tagged tags may should ->
  1 <= cf_max_nested cf -> 1 <= fuel ->
  exists st last c f,
  unwinding_run cf fuel id line (GScope (GInSection s GNil GNil) (GCheck l (IsTrue what (fun _ => false)) true GNil GNil) GNil) before = Ok st /\
  trace st = before ++ [TestCaseStarted id line; AssertionFailed id [] [] (mkloc l Exact) (what 0) should may; SectionStarted s] ++ last ++ [TestCaseEnded id line c f] /\
  Forall (fun e => exists i m, e = AssertionSucceeded id [] [] i m) last.
Proof. intros V E W T. apply section_never_ends; auto. eapply flags_of; eauto. Qed.
