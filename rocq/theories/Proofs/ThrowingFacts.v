(** Facts about handlers of failed assertions that throw (C77). *)
From Verif.Spec Require Import TextSpec FilterSpec Events RunSpec VerdictSpec ThrowingSpec.
From Verif.Model Require Import Base Vector StringUtil Filter Run Throwing.
From Verif.Proofs Require Import Lists AppendProofs LevelProofs RunProofs InvariantProofs ScopeProofs SafetyProofs LimitProofs RunFacts ThrowingProofs.
From Coq Require Import Lia.

Section Should.
Variable cf : config.
Variable id : test_id.

Lemma sf_report v st e : should_fail (report cf v st e) = should_fail st.
Proof. unfold report. now destruct (_ <=? _). Qed.
Lemma sf_notify st : should_fail (notify_exception_handled cf st) = should_fail st.
Proof. unfold notify_exception_handled. destruct (held st); auto. cbn. apply close_fields. Qed.
Lemma sf_hold u st : should_fail (hold u st) = should_fail st.
Proof. unfold hold. destruct (held st); auto. now destruct u. Qed.
Lemma sf_raise st s : should_fail (raise_state st s) = should_fail st.
Proof. unfold raise_state. now destruct (_ <? _). Qed.
Lemma sf_assertion ok data st st' : report_assertion cf id ok data st = Ok st' -> should_fail st' = should_fail st.
Proof.
  unfold report_assertion. intros F. destruct (is_skipped _); [now injection F as <-|]. bstep F as l G. injection F as <-.
  assert (RG : should_fail (register_assertion ok st) = should_fail st)
    by (unfold register_assertion; cbn [held set_inf set_asserts]; unfold raise_state; destruct ok; [|destruct (_ || _)]; destruct (held st); repeat destruct (_ <? _); reflexivity).
  destruct ok; rewrite sf_report; exact RG.
Qed.
Lemma sf_conclude pass w abort x st r : conclude cf id pass w abort x st = Ok r -> should_fail (fst r) = should_fail st.
Proof.
  intros H. unfold conclude in H.
  destruct w as [what outcome|type accepts|type accepts matches describe|source]; destruct x as [e|];
    repeat match type of H with
    | Ok _ = Ok _ => injection H as <-; cbn [fst]
    | (if ?c then _ else _) = Ok _ => destruct c
    | bind (match ?e with AbortExn => _ | StdExn _ => _ | OtherExn => _ end) _ = _ => destruct e
    | bind _ _ = Ok _ => step H
    end; repeat match goal with E : report_assertion2 _ _ _ _ _ _ = Ok _ |- _ => rewrite report_assertion2_eq in E end;
    repeat match goal with E : report_assertion _ _ _ _ _ = Ok _ |- _ => apply sf_assertion in E end; rewrite ?sf_notify; auto.
Qed.
Lemma sf_begin line st st' : check_begin cf line st = Ok st' -> should_fail st' = should_fail st.
Proof. unfold check_begin, push_location. intros H. bstep H as y E. bstep E as z F. injection E as <-. injection H as <-. cbn. apply sf_notify. Qed.
Lemma sf_end u st st' : check_end u st = Ok st' -> should_fail st' = should_fail st.
Proof. unfold check_end, pop_location. intros H. bstep H as y E. injection H as <-. cbn. now rewrite sf_hold. Qed.
Lemma sf_enter s st st' e : section_enter cf s st = Ok (st', e) -> should_fail st' = should_fail st.
Proof.
  unfold section_enter. intros H. bstep H as lv E1. bstep H as lev E2. bstep H as lv1 E3.
  destruct (leaf_executed _); [injection H as <- <-; apply sf_notify|].
  destruct (_ && _); [injection H as <- <-; apply sf_notify|]. bstep H as lv2 E4. bstep H as cs E5. bstep H as y E6. injection H as <- <-.
  unfold push_location in E6. bstep E6 as z F. injection E6 as <-.
  unfold report_section_started. destruct (_ =? _); [rewrite sf_report|]; cbn; apply sf_notify.
Qed.
Lemma sf_exit e u st st' : section_exit cf e u st = Ok st' -> should_fail st' = should_fail st.
Proof.
  unfold section_exit. intros H. bstep H as y E. bstep H as d D. injection H as <-. cbn. destruct e; [|now injection E as <-].
  bstep E as z P. unfold pop_location in P. bstep P as ls P1. injection P as <-. bstep E as [i2 l] Q. bstep E as st3 R. bstep E as cs C. injection E as <-. cbn.
  destruct (_ && _); [|injection R as <-; apply sf_hold]. bstep R as s' S. injection R as <-.
  unfold report_section_ended. rewrite sf_report. apply sf_hold.
Qed.
Lemma sf_captures l : forall st st', add_captures cf l st = Ok st' -> should_fail st' = should_fail st.
Proof.
  induction l as [|c l IH]; intros st st' H; cbn [add_captures] in H; [now injection H as <-|]. bstep H as y E. apply IH in H. rewrite H.
  unfold add_capture in E. destruct (_ =? _); [discriminate|]. bstep E as z F. destruct z. injection E as <-. cbn. apply sf_notify.
Qed.
Lemma sf_exec pass p : forall st st' x, exec cf id pass p st = Ok (st', x) -> should_fail st' = should_fail st.
Proof.
  induction p as [|n k IHp|when y k IHp|line w abort e IHe k IHp|line message abort k IHp|sec b IHp1 k IHp2|texts b IHp1 k IHp2|accepts notify b IHp1 k IHp2];
    intros st st' x H; cbn [exec] in H.
  - now injection H as <- <-.
  - apply IHp in H. now rewrite H, sf_report.
  - destruct (when pass); [now injection H as <- <-|eauto].
  - bstep H as st1 E1. bstep H as [st2 x2] E2. bstep H as [st3 y] E3. bstep H as st4 E4.
    apply sf_begin in E1. apply IHe in E2. apply sf_conclude in E3. apply sf_end in E4. cbn in E3. destruct y; [injection H as <- <-|apply IHp in H]; congruence.
  - bstep H as st1 E1. bstep H as st2 E2. bstep H as st3 E3. apply sf_begin in E1. apply sf_end in E3.
    unfold report_skipped in E2. bstep E2 as l F. injection E2 as <-. rewrite sf_report, sf_raise in E3. destruct abort; [injection H as <- <-|apply IHp in H]; congruence.
  - bstep H as [st1 e] E1. apply sf_enter in E1. destruct e.
    + bstep H as [st2 x2] E2. bstep H as st3 E3. apply IHp1 in E2. apply sf_exit in E3. destruct x2; [injection H as <- <-|apply IHp2 in H]; congruence.
    + bstep H as st3 E3. apply sf_exit in E3. apply IHp2 in H. congruence.
  - bstep H as st1 E1. bstep H as [st2 x2] E2. bstep H as st3 E3. apply sf_captures in E1. apply IHp1 in E2.
    unfold capture_end in E3. bstep E3 as q Q. injection E3 as <-. destruct x2; [injection H as <- <-|apply IHp2 in H]; cbn in *; rewrite ?sf_hold in *; congruence.
  - bstep H as [st1 x1] E1. apply IHp1 in E1. destruct x1 as [e|]; [|apply IHp2 in H; congruence]. destruct (accepts e); [|injection H as <- <-; congruence].
    apply IHp2 in H. destruct notify; rewrite ?sf_notify in H; congruence.
Qed.
Lemma sf_passes p : forall fuel pass st st' x, passes cf id p fuel pass st = Ok (st', x) -> should_fail st' = should_fail st.
Proof.
  induction fuel as [|fuel IH]; intros pass st st' x H; cbn [passes] in *; [discriminate|].
  bstep H as [st2 y] E. apply sf_exec in E. cbn in E. destruct y; [injection H as <- <-; exact E|]. destruct (_ && _); [|injection H as <- <-; exact E].
  apply IH in H. cbn in H. congruence.
Qed.
End Should.

Theorem as_throw raised size_max cf fuel id line p tr0 st tags may should :
  id_tags id = tag_string tags -> well_formed (cf_max_tag_length cf) tags -> tagged tags may should ->
  lets_through (cf_max_nested cf) (cf_max_captures cf) p -> (should = true -> single p) ->
  run cf fuel (mktest id line (limited raised (cf_max_nested cf) (cf_max_captures cf) p)) tr0 = Ok st ->
  exists st', throwing_run raised size_max cf fuel (mktest id line p) tr0 = Ok st' /\
    trace st' = trace st /\ asserts st' = asserts st /\ status st' = status st.
Proof.
  intros E W T LT SG H. pose proof (flags_of _ _ _ _ _ E W T) as FF. rewrite ThrowingProofs.run_eq in H. cbn [t_id t_line t_body] in H.
  rewrite FF in H. cbn [bind] in H. bstep H as st1 E1. bstep H as [st2 x] E2.
  set (t' := mktest id line (limited _ _ _ p)) in *. assert (ST : starting cf t' may should tr0 = starting cf (mktest id line p) may should tr0) by reflexivity.
  rewrite ST in E1. clear ST.
  assert (O1 : outermost cf st1 /\ held st1 = None /\ should_fail st1 = should).
  { set (st0 := starting _ _ _ _ _) in *.
    assert (I0 : inf st0 = mkinfo [] [] 0 false [] []) by (unfold st0, starting; cbn [inf set_status]; apply inf_report).
    assert (H0 : held st0 = None) by (unfold st0, starting; cbn [held set_status]; apply held_report).
    assert (S0 : should_fail st0 = should) by (unfold st0, starting; cbn [should_fail set_status]; apply sf_report).
    unfold push_location in E1. rewrite I0 in E1. cbn [locations] in E1. rewrite push_back_ok in E1 by (cbn; lia). cbn [bind app] in E1. injection E1 as <-.
    unfold outermost, room, safe, held_safe. cbn [inf set_inf held set_status locations captures depth levels current_section with_locations length should_fail]. rewrite ?H0.
    repeat split; try lia; try discriminate; auto. }
  destruct O1 as (O1 & N1 & S1).
  destruct (sim_passes raised size_max cf id (should = true) p LT SG fuel 0 st1 st2 x O1 N1 E2) as (st2' & E2' & RE).
  destruct RE as [->|(NX & A)].
  - exists st. split; [|auto]. eapply throwing_run_ok; eauto.
  - destruct x as [e|]; [|congruence]. apply sf_passes in E2.
    destruct (late_finish cf id (should = true) line e st2' st2 st A) as (st' & F & G); [|exact H|].
    + rewrite E2, S1. destruct should; auto.
    + exists st'. split; [|exact G]. eapply throwing_run_ok; eauto.
Qed.

Lemma limited_flat raised p : forall n c, flat p -> flat (limited raised n c p).
Proof.
  induction p as [|m k IHp|when y k IHp|line w abort e IHe k IHp|line message abort k IHp|sec b IHp1 k IHp2|texts b IHp1 k IHp2|accepts notify b IHp1 k IHp2];
    intros n c; cbn [flat limited]; intros F; auto; try (destruct F; auto; fail).
  - destruct F. destruct (_ <=? _); cbn; auto.
Qed.
Lemma limited_regular raised p : forall n c, regular p -> regular (limited raised n c p).
Proof.
  induction p as [|m k IHp|when y k IHp|line w abort e IHe k IHp|line message abort k IHp|sec b IHp1 k IHp2|texts b IHp1 k IHp2|accepts notify b IHp1 k IHp2];
    intros n c; cbn [regular limited]; intros F; auto.
  - destruct F as (F1 & F2 & F3). auto using limited_flat.
  - destruct F. destruct n; cbn; auto.
  - destruct F. destruct (_ <=? _); cbn; auto.
  - destruct F as (F1 & F2 & F3 & F4). auto using limited_flat.
Qed.
Lemma limited_within raised p : forall n c, nesting (limited raised n c p) <= n /\ capturing (limited raised n c p) <= c /\ leaves (limited raised n c p) <= leaves p.
Proof.
  induction p as [|m k IHp|when y k IHp|line w abort e IHe k IHp|line message abort k IHp|sec b IHp1 k IHp2|texts b IHp1 k IHp2|accepts notify b IHp1 k IHp2];
    intros n c; cbn [nesting capturing leaves limited]; auto with arith.
  - specialize (IHe n c). specialize (IHp n c). lia.
  - destruct n as [|n]; cbn [nesting capturing leaves]; [lia|]. specialize (IHp1 n c). specialize (IHp2 (S n) c). lia.
  - destruct (Nat.leb_spec (length texts) c); cbn [nesting capturing leaves].
    + specialize (IHp1 n (c - length texts)). specialize (IHp2 n c). lia.
    + rewrite firstn_length. lia.
  - specialize (IHp1 n c). specialize (IHp2 n c). lia.
Qed.

Theorem throwing_specification raised size_max cf fuel id line p tr0 tags may should :
  cf_verbosity cf = Full -> id_tags id = tag_string tags -> well_formed (cf_max_tag_length cf) tags -> tagged tags may should ->
  regular p -> lets_through (cf_max_nested cf) (cf_max_captures cf) p -> (should = true -> single p) ->
  let q := limited raised (cf_max_nested cf) (cf_max_captures cf) p in
  scopes q <= S (cf_max_nested cf) -> Nat.max 1 (leaves p) <= fuel ->
  exists st, throwing_run raised size_max cf fuel (mktest id line p) tr0 = Ok st /\
    trace st = tr0 ++ fst (behave_case id may should (cf_max_capture_length cf) (cf_max_message_length cf) line q).
Proof.
  intros V E W T R LT SG q SC FU. destruct (limited_within raised p (cf_max_nested cf) (cf_max_captures cf)) as (L1 & L2 & L3).
  destruct (follows_specification cf fuel id line q tr0 tags may should V E W T (limited_regular raised p _ _ R) L1 SC L2 ltac:(unfold q; lia)) as (st & H & TR).
  destruct (as_throw raised size_max cf fuel id line p tr0 st tags may should E W T LT SG H) as (st' & H' & TR' & _). exists st'. split; [exact H'|]. congruence.
Qed.

(** ** Counterexamples when the exception is caught by the test *)
Definition thrower (m : str) : exn := StdExn m.
Definition trace_of (r : res state) : option (list event) := match r with Ok st => Some (trace st) | Err _ => None end.
