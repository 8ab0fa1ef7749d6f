(** Builds with and without exceptions run tests alike (C74). *)
From Verif.Spec Require Import TextSpec FilterSpec Events StopSpec BareSpec.
From Verif.Model Require Import Base Vector StringUtil Filter Run Session Bare.
From Verif.Proofs Require Import Lists AppendProofs LevelProofs RunProofs InvariantProofs ScopeProofs StopProofs.

Definition retrace (st : state) (tr : list event) : state :=
  mkstate (inf st) (held st) (asserts st) (may_fail st) (should_fail st) (in_check st) (unhandled st) (status st) tr.

Section Lockstep.
Variable cf : config.
Variable id : test_id.
Variables b b' : list event. (* events before the test *)

Definition rel (st st0 : state) : Prop :=
  (held st = None /\ unhandled st = false) /\ exists E, trace st = b ++ E /\ st0 = retrace st (b' ++ map exactly E).

Lemma rel_report v st st0 e : rel st st0 -> rel (report cf v st e) (report cf v st0 (exactly e)).
Proof.
  intros (H & E & T & ->). unfold report. destruct (_ <=? _); [|split; [exact H|exists E; auto]].
  split; [exact H|]. exists (E ++ [e]). cbn [trace retrace]. rewrite T, map_app, <- !app_assoc. split; reflexivity.
Qed.
Lemma rel_report' v st st0 e : exactly e = e -> rel st st0 -> rel (report cf v st e) (report cf v st0 e).
Proof. intros Q R. rewrite <- Q at 2. now apply rel_report. Qed.

Lemma rel_inf st st0 i : rel st st0 -> rel (set_inf st i) (set_inf st0 i).
Proof. intros (H & E & T & ->). split; [exact H|]. exists E. split; [exact T|reflexivity]. Qed.
Lemma rel_asserts st st0 a : rel st st0 -> rel (set_asserts st a) (set_asserts st0 a).
Proof. intros (H & E & T & ->). split; [exact H|]. exists E. split; [exact T|reflexivity]. Qed.
Lemma rel_in_check st st0 a : rel st st0 -> rel (set_in_check st a) (set_in_check st0 a).
Proof. intros (H & E & T & ->). split; [exact H|]. exists E. split; [exact T|reflexivity]. Qed.
Lemma rel_should st st0 a : rel st st0 -> rel (set_should_fail st a) (set_should_fail st0 a).
Proof. intros (H & E & T & ->). split; [exact H|]. exists E. split; [exact T|reflexivity]. Qed.
Lemma rel_raise st st0 s : rel st st0 -> rel (raise_state st s) (raise_state st0 s).
Proof.
  intros (H & E & T & ->). unfold raise_state. cbn [status retrace]. destruct (_ <? _); (split; [exact H|]; exists E; split; [exact T|reflexivity]).
Qed.
Lemma rel_fields st st0 : rel st st0 -> inf st0 = inf st /\ asserts st0 = asserts st /\ may_fail st0 = may_fail st /\
  should_fail st0 = should_fail st /\ in_check st0 = in_check st /\ status st0 = status st /\ held st = None.
Proof. intros ((H & _) & E & T & ->). repeat split; auto. Qed.

Lemma rel_push st st0 l st1 : rel st st0 -> push_location cf st l = Ok st1 -> exists st01, push_location cf st0 l = Ok st01 /\ rel st1 st01.
Proof.
  intros R H. destruct (rel_fields _ _ R) as (F & _). unfold push_location in *. rewrite F. bstep H as ls E. injection H as <-.
  cbn [bind]. eexists. split; [reflexivity|]. now apply rel_inf.
Qed.
Lemma rel_pop st st0 st1 : rel st st0 -> pop_location st = Ok st1 -> exists st01, pop_location st0 = Ok st01 /\ rel st1 st01.
Proof.
  intros R H. destruct (rel_fields _ _ R) as (F & _). unfold pop_location in *. rewrite F. bstep H as ls E. injection H as <-.
  cbn [bind]. eexists. split; [reflexivity|]. now apply rel_inf.
Qed.

Lemma rel_register ok st st0 : rel st st0 -> rel (register_assertion ok st) (bare_register_assertion ok st0).
Proof.
  intros R. destruct (rel_fields _ _ R) as (F1 & F2 & F3 & F4 & F5 & F6 & F7). unfold register_assertion, bare_register_assertion. cbv zeta.
  cbn [held set_inf set_asserts inf asserts]. rewrite F1, F2, F3, F4, F7.
  assert (X : forall w, rel (set_inf (set_asserts st (count w (asserts st))) (count_info w (inf st)))
                            (set_inf (set_asserts st0 (count w (asserts st))) (count_info w (inf st))))
    by (intros; apply rel_inf, rel_asserts, R).
  destruct ok; [apply X|]. destruct (_ || _); apply rel_raise, X.
Qed.

Lemma rel_assertion ok data st st0 st1 : rel st st0 -> report_assertion cf id ok data st = Ok st1 ->
  exists st01, bare_report_assertion cf id ok data st0 = Ok st01 /\ rel st1 st01.
Proof.
  intros R H. destruct (rel_fields _ _ R) as (_ & _ & _ & _ & _ & F6 & _). unfold report_assertion in H. unfold bare_report_assertion.
  rewrite F6. destruct (is_skipped _); [injection H as <-; eauto|]. cbv zeta in *.
  apply (rel_register ok) in R. revert R H. generalize (register_assertion ok st) as z, (bare_register_assertion ok st0) as z0. intros z z0 R H.
  destruct (rel_fields _ _ R) as (F1 & F2 & F3 & F4 & F5 & F7 & F8). rewrite F8 in H. rewrite F1. bstep H as l E. cbn [bind]. eexists. split; [reflexivity|].
  injection H as <-. rewrite F3, F4.
  destruct ok, (in_check z);
    match goal with |- rel (report cf ?v ?s ?e) (report cf ?v ?s0 ?e0) => change e0 with (exactly e) end; now apply rel_report.
Qed.

Lemma rel_skipped m st st0 st1 : rel st st0 -> report_skipped cf id m st = Ok st1 ->
  exists st01, report_skipped cf id m st0 = Ok st01 /\ rel st1 st01.
Proof.
  intros R H. unfold report_skipped in *. cbv zeta in *. apply (rel_raise _ _ ISkipped) in R. destruct (rel_fields _ _ R) as (F1 & _).
  rewrite F1. bstep H as l E. injection H as <-. cbn [bind]. eexists. split; [reflexivity|]. now apply rel_report'.
Qed.

Lemma rel_notify st st0 : rel st st0 -> notify_exception_handled cf st = st.
Proof. intros ((H & _) & _). now apply notify_none. Qed.
Lemma rel_hold st st0 : rel st st0 -> hold false st = st.
Proof. intros ((H & _) & _). unfold hold. now rewrite H. Qed.

Lemma rel_check_begin line st st0 st1 : rel st st0 -> check_begin cf line st = Ok st1 ->
  exists st01, bare_check_begin cf line st0 = Ok st01 /\ rel st1 st01.
Proof.
  intros R H. unfold check_begin in H. cbv zeta in H. rewrite (rel_notify _ _ R) in H. bstep H as x E. injection H as <-.
  destruct (rel_push _ _ _ _ R E) as (x0 & E0 & R0). unfold bare_check_begin. rewrite E0. cbn [bind]. eexists. split; [reflexivity|]. now apply rel_in_check.
Qed.
Lemma rel_check_end st st0 st1 : rel st st0 -> check_end false st = Ok st1 -> exists st01, bare_check_end st0 = Ok st01 /\ rel st1 st01.
Proof.
  intros R H. apply (rel_in_check _ _ false) in R. unfold check_end in H. rewrite (rel_hold _ _ R) in H. exact (rel_pop _ _ _ R H).
Qed.

Lemma rel_section_enter s st st0 st1 e : rel st st0 -> section_enter cf s st = Ok (st1, e) ->
  exists st01, bare_section_enter cf s st0 = Ok (st01, e) /\ rel st1 st01.
Proof.
  intros R H. unfold section_enter in H. cbv zeta in H. rewrite (rel_notify _ _ R) in H. destruct (rel_fields _ _ R) as (F1 & _).
  unfold bare_section_enter. cbv zeta. rewrite F1.
  bstep H as lv E1. cbn [bind]. bstep H as level E2. cbn [bind]. bstep H as lv1 E3. cbn [bind].
  set (i1 := with_depth (with_levels (inf st) lv1) (S (depth (inf st)))) in *.
  assert (R1 := rel_inf _ _ i1 R).
  destruct (leaf_executed _); [injection H as <- <-; eauto|].
  match type of H with (if ?c then _ else _) = _ => destruct c end; [injection H as <- <-; eauto|].
  bstep H as lv2 E4. cbn [bind]. cbn [inf set_inf] in *. bstep H as cs E5. cbn [bind]. bstep H as st3 E6.
  assert (R2 := rel_inf _ _ (with_current_section (with_levels i1 lv2) cs) R1).
  destruct (rel_push _ _ _ _ R2 E6) as (x0 & E0 & R0). rewrite E0. cbn [bind]. injection H as <- <-. eexists. split; [reflexivity|].
  destruct (_ =? _); [|exact R0]. unfold report_section_started. now apply rel_report'.
Qed.

Lemma rel_section_exit e st st0 st1 : rel st st0 -> section_exit cf e false st = Ok st1 ->
  exists st01, bare_section_exit cf e st0 = Ok st01 /\ rel st1 st01.
Proof.
  intros R H. unfold section_exit in H. unfold bare_section_exit. bstep H as x E.
  match goal with |- exists _, bind ?m _ = _ /\ _ => assert (X : exists x0, m = Ok x0 /\ rel x x0) end.
  { destruct e; [|injection E as <-; eauto]. rewrite (rel_hold _ _ R) in E. bstep E as y E1. destruct (rel_pop _ _ _ R E1) as (y0 & E0 & R0).
    rewrite E0. cbn [bind]. cbv zeta in *. destruct (rel_fields _ _ R0) as (F1 & _). rewrite F1. bstep E as [i2 last] E2. cbn [bind].
    assert (R1 := rel_inf _ _ i2 R0). bstep E as st3 E3.
    match goal with |- exists _, bind ?m _ = _ /\ _ => assert (Y : exists y3, m = Ok y3 /\ rel st3 y3) end.
    { destruct last; cbn [andb negb] in E3; [|injection E3 as <-; eauto]. cbn [inf set_inf] in *. bstep E3 as s E4. cbn [bind]. injection E3 as <-.
      destruct (rel_fields _ _ R1) as (_ & _ & _ & _ & _ & F6 & _). eexists. split; [reflexivity|]. unfold report_section_ended. rewrite F6. now apply rel_report'. }
    destruct Y as (y3 & -> & R3). cbn [bind]. destruct (rel_fields _ _ R3) as (F3 & _). rewrite F3. bstep E as cs E5. cbn [bind]. injection E as <-.
    eexists. split; [reflexivity|]. now apply rel_inf. }
  destruct X as (x0 & -> & R0). cbn [bind]. destruct (rel_fields _ _ R0) as (F0 & _). rewrite F0. bstep H as d E6. cbn [bind]. injection H as <-.
  eexists. split; [reflexivity|]. now apply rel_inf.
Qed.

Lemma rel_add_captures l : forall st st0 st1, rel st st0 -> add_captures cf l st = Ok st1 ->
  exists st01, bare_add_captures cf l st0 = Ok st01 /\ rel st1 st01.
Proof.
  induction l as [|p l IH]; intros st st0 st1 R H; cbn [add_captures bare_add_captures] in *; [injection H as <-; eauto|].
  destruct (rel_fields _ _ R) as (F1 & _). rewrite F1. bstep H as x E. unfold add_capture in E.
  destruct (_ =? _); [discriminate|]. cbv zeta in E. rewrite (rel_notify _ _ R) in E. bstep E as [c k] E1. cbn [bind]. injection E as <-.
  eapply IH; [|exact H]. now apply rel_inf.
Qed.
Lemma rel_capture_end n st st0 st1 : rel st st0 -> capture_end false n st = Ok st1 -> exists st01, bare_capture_end n st0 = Ok st01 /\ rel st1 st01.
Proof.
  intros R H. unfold capture_end in H. cbv zeta in H. rewrite (rel_hold _ _ R) in H. destruct (rel_fields _ _ R) as (F1 & _).
  unfold bare_capture_end. rewrite F1. bstep H as k E. cbn [bind]. injection H as <-. eexists. split; [reflexivity|]. now apply rel_inf.
Qed.

(** The two executions, after an execution with exceptions that ends with [x]. *)
Definition after (st' : state) (x : option exn) (r : res (state * bool)) : Prop :=
  match x with
  | None => exists st0', r = Ok (st0', false) /\ rel st' st0'
  | Some e => e = AbortExn /\ exists st0' E, r = Ok (st0', true) /\ trace st' = b ++ E /\ trace st0' = b' ++ map exactly E
  end.

Lemma bare_same pass p : exceptionless p -> forall st st0 st' x, rel st st0 -> exec cf id pass p st = Ok (st', x) -> after st' x (bare_exec cf id pass p st0).
Proof.
  induction p as [|n k IHk|w y k IHk|line w abort e IHe k IHk|line m abort k IHk|s body IHb k IHk|texts body IHb k IHk|acc nt body IHb k IHk];
    cbn [exceptionless]; intros X st st0 st' x R H; try contradiction; cbn [exec] in H.
  - injection H as <- <-. exists st0. auto.
  - cbn [bare_exec]. eapply IHk; [exact X| |exact H]. now apply rel_report'.
  - destruct w as [what outcome| | |]; try contradiction. destruct X as [Xe Xk]. cbn [bare_exec].
    bstep H as st1 E1. destruct (rel_check_begin _ _ _ _ R E1) as (y1 & -> & R1). cbn [bind].
    bstep H as [st2 z] E2. pose proof (IHe Xe _ _ _ _ R1 E2) as A. bstep H as [st3 y] E3. bstep H as st4 E4.
    unfold conclude in E3. destruct z as [z|].
    + injection E3 as <- <-. injection H as <- <-. destruct A as (-> & y2 & E & -> & T1 & T2). cbn [bind]. split; [reflexivity|].
      exists y2, E. split; [reflexivity|]. split; [|exact T2]. rewrite <- T1. apply (stays_check_end _ _ _ E4).
    + destruct A as (y2 & -> & R2). cbn [bind]. bstep E3 as st3' E5. destruct (rel_assertion _ _ _ _ _ R2 E5) as (y3 & -> & R3). cbn [bind].
      injection E3 as <- <-. destruct (outcome pass) eqn:O; cbn [negb andb].
      * destruct (rel_check_end _ _ _ R3 E4) as (y4 & -> & R4). cbn [bind]. eapply IHk; eauto.
      * destruct abort; cbn [maybe_abort] in *.
        -- injection H as <- <-. split; [reflexivity|]. destruct R3 as (_ & E & T & ->). exists (retrace st3' (b' ++ map exactly E)), E.
           split; [reflexivity|]. split; [|reflexivity]. rewrite <- T. apply (stays_check_end _ _ _ E4).
        -- destruct (rel_check_end _ _ _ R3 E4) as (y4 & -> & R4). cbn [bind]. eapply IHk; eauto.
  - cbn [bare_exec]. bstep H as st1 E1. destruct (rel_check_begin _ _ _ _ R E1) as (y1 & -> & R1). cbn [bind].
    bstep H as st2 E2. destruct (rel_skipped _ _ _ _ R1 E2) as (y2 & -> & R2). cbn [bind]. bstep H as st3 E3. destruct abort.
    + injection H as <- <-. split; [reflexivity|]. destruct R2 as (_ & E & T & ->). exists (retrace st2 (b' ++ map exactly E)), E.
      split; [reflexivity|]. split; [|reflexivity]. rewrite <- T. apply (stays_check_end _ _ _ E3).
    + destruct (rel_check_end _ _ _ R2 E3) as (y3 & -> & R3). cbn [bind]. eapply IHk; eauto.
  - destruct X as [Xb Xk]. cbn [bare_exec]. bstep H as [st1 en] E1. destruct (rel_section_enter _ _ _ _ _ R E1) as (y1 & -> & R1). cbn [bind].
    destruct en.
    + bstep H as [st2 z] E2. pose proof (IHb Xb _ _ _ _ R1 E2) as A. bstep H as st3 E3. destruct z as [z|].
      * injection H as <- <-. destruct A as (-> & y2 & E & -> & T1 & T2). cbn [bind]. split; [reflexivity|]. exists y2, E. split; [reflexivity|].
        split; [|exact T2]. rewrite <- T1. apply (goes_section_exit cf 0) in E3. destruct E3 as [_ E3]. now apply E3.
      * destruct A as (y2 & -> & R2). cbn [bind]. cbn [is_some] in E3. destruct (rel_section_exit _ _ _ _ R2 E3) as (y3 & -> & R3). cbn [bind]. eapply IHk; eauto.
    + bstep H as st3 E3. destruct (rel_section_exit _ _ _ _ R1 E3) as (y3 & -> & R3). cbn [bind]. eapply IHk; eauto.
  - destruct X as [Xb Xk]. cbn [bare_exec]. bstep H as st1 E1. destruct (rel_add_captures _ _ _ _ R E1) as (y1 & -> & R1). cbn [bind].
    bstep H as [st2 z] E2. pose proof (IHb Xb _ _ _ _ R1 E2) as A. bstep H as st3 E3. destruct z as [z|].
    + injection H as <- <-. destruct A as (-> & y2 & E & -> & T1 & T2). cbn [bind]. split; [reflexivity|]. exists y2, E. split; [reflexivity|].
      split; [|exact T2]. rewrite <- T1. apply (stays_capture_end _ _ _ _ E3).
    + destruct A as (y2 & -> & R2). cbn [bind]. cbn [is_some] in E3. destruct (rel_capture_end _ _ _ _ R2 E3) as (y3 & -> & R3). cbn [bind]. eapply IHk; eauto.
Qed.

Lemma bare_same_passes p : exceptionless p -> forall fuel pass st st0 st' x, rel st st0 -> passes cf id p fuel pass st = Ok (st', x) ->
  after st' x (bare_passes cf id p fuel pass st0).
Proof.
  intros X. induction fuel as [|fuel IH]; intros pass st st0 st' x R H; cbn [passes bare_passes] in *; [discriminate|]. cbv zeta in *.
  destruct (rel_fields _ _ R) as (F1 & _). rewrite F1.
  assert (R1 := rel_inf _ _ (with_levels (with_leaf_executed (inf st) false) (map reset_level (levels (inf st)))) R).
  bstep H as [st2 z] E2. pose proof (bare_same pass p X _ _ _ _ R1 E2) as A. destruct z as [z|].
  - injection H as <- <-. destruct A as (-> & y2 & E & -> & T). cbn [bind]. split; [reflexivity|]. exists y2, E. auto.
  - destruct A as (y2 & -> & R2). cbn [bind]. destruct (rel_fields _ _ R2) as (F2 & _ & _ & _ & _ & F6 & _). rewrite F2.
    cbn [inf status set_inf] in *. rewrite F6. assert (R3 := rel_inf _ _ (after_pass (inf st2)) R2).
    destruct (_ && _); [eapply IH; eauto|]. injection H as <- <-. exists (set_inf y2 (after_pass (inf st2))). auto.
Qed.
End Lockstep.

(** ** A whole test *)

(** An assertion reported by [run] itself, outside of all sections. *)
Lemma top cf id (ok : bool) data st line : held st = None -> current_section (inf st) = [] -> captures (inf st) = [] ->
  locations (inf st) = [mkloc line TestCaseScope] -> in_check st = true -> is_skipped (status st) = false ->
  let w := if ok then Passed else if may_fail st || should_fail st then AllowedFailure else Failure in
  let ev := if ok then AssertionSucceeded id [] [] (mkloc line Exact) data
            else AssertionFailed id [] [] (mkloc line Exact) data (should_fail st) (may_fail st) in
  let st' := mkstate (inf st) (held st) (count w (asserts st)) (may_fail st) (should_fail st) (in_check st) (unhandled st)
               (match w with Passed => status st | AllowedFailure => status (raise_state st IAllowedFail) | Failure => status (raise_state st IFailed) end)
               (trace st ++ filter (visible (cf_verbosity cf)) [ev]) in
  report_assertion cf id ok data st = Ok st' /\ bare_report_assertion cf id ok data st = Ok st'.
Proof.
  destruct st as [[cs lv d lf ca ls] h a m sf q u z tr]. cbn -[is_skipped irank vlevel]. intros -> -> -> -> -> S.
  unfold report_assertion, bare_report_assertion, register_assertion, bare_register_assertion, raise_state, report, visible.
  cbn -[is_skipped irank vlevel Nat.leb Nat.ltb]. rewrite S.
  destruct ok; [|destruct (m || sf)]; cbn -[irank vlevel Nat.leb Nat.ltb];
    try match goal with |- context [irank z <? ?n] => destruct (irank z <? n) end; cbn -[irank vlevel Nat.leb Nat.ltb];
    try (destruct (_ <=? _)); rewrite ?app_nil_r; split; reflexivity.
Qed.

Lemma filter_one v (e : event) (st : state) cf v' : cf_verbosity cf = v -> min_verbosity e = v' ->
  trace (report cf v' st e) = trace st ++ filter (visible v) [e].
Proof. intros <- <-. unfold report. cbn [filter]. unfold visible. destruct (_ <=? _); cbn [trace]; now rewrite ?app_nil_r. Qed.

Definition shifted (st st0 : state) : Prop :=
  status st0 = status st /\ asserts st = (if is_skipped (status st) then asserts st0 else one_more (asserts st0)).

Lemma one_more_count w c : one_more (count w c) = count w (one_more c).
Proof. now destruct w. Qed.

Theorem bare_run_same cf fuel t b b' st : exceptionless (t_body t) -> run cf fuel t b = Ok st ->
  exists st0 (stopped : bool) E E0, bare_run cf fuel t b' = Ok (st0, stopped) /\ trace st = b ++ E /\ trace st0 = b' ++ E0 /\
    if stopped then cut_case E E0 else same_case (cf_verbosity cf) E E0 /\ shifted st st0.
Proof.
  intros X R. unfold run in R. unfold bare_run. cbv zeta in *. bstep R as [may should] FF. cbn [bind].
  set (z := mkstate (mkinfo [] [] 0 false [] []) None (mkcounts 0 0 0) may should false false INotRun) in *.
  assert (R0 : rel b b' (report cf High (z b) (TestCaseStarted (t_id t) (t_line t))) (report cf High (z b') (TestCaseStarted (t_id t) (t_line t)))).
  { apply rel_report'; [reflexivity|]. split; [split; reflexivity|]. exists []. rewrite !app_nil_r. split; reflexivity. }
  assert (R0' : rel b b' (set_status (report cf High (z b) (TestCaseStarted (t_id t) (t_line t))) ISuccess)
                         (set_status (report cf High (z b') (TestCaseStarted (t_id t) (t_line t))) ISuccess)).
  { destruct R0 as (H & E & T & ->). split; [exact H|]. exists E. split; [exact T|reflexivity]. }
  bstep R as st1 E1. destruct (rel_push cf b b' _ _ _ _ R0' E1) as (y1 & -> & R1). cbn [bind].
  assert (SC1 : scope st1 = ([], [], [mkloc (t_line t) TestCaseScope], 0)).
  { unfold push_location in E1. bstep E1 as ls Q. injection E1 as <-. apply push_back_app in Q. subst ls.
    unfold report. destruct (_ <=? _); reflexivity. }
  bstep R as [st2 x] E2. pose proof (bare_same_passes cf (t_id t) b b' _ X _ _ _ _ _ _ R1 E2) as A.
  apply scope_passes in E2; [|unfold scope in SC1; unfold names; congruence].
  rewrite SC1 in E2. unfold scope in E2. injection E2 as S1 S2 S3 _. apply map_eq_nil in S1.
  bstep R as st3 E3. destruct x as [x|].
  - (* aborted *)
    destruct A as (-> & y2 & E & -> & T1 & T2). cbn [bind]. injection E3 as <-.
    exists y2, true. cbn [unhandled set_unhandled] in R.
    set (st5 := set_unhandled (notify_exception_handled cf (set_unhandled st2 true)) false) in *.
    destruct (ends_notify cf (set_unhandled st2 true)) as (e4 & G1 & G2 & _).
    assert (T5 : trace st5 = b ++ E ++ e4) by (unfold st5; cbn [trace set_unhandled] in *; rewrite G1, T1, app_assoc; reflexivity).
    clearbody st5. bstep R as st6 E6. bstep R as cs E7. injection R as <-.
    assert (G6 : exists e6, trace st6 = trace st5 ++ e6 /\ Forall (aftermath (should_fail st5)) e6).
    { destruct (should_fail st5); [|injection E6 as <-; exists []; rewrite app_nil_r; auto].
      bstep E6 as y E8. injection E6 as <-. apply one_report in E8. destruct E8 as (ev & X1 & X2 & _). exists ev. split; [exact X1|].
      destruct X2 as [->|(s & c & l & a & a' & ->)]; [constructor|]. constructor; [|constructor].
      match goal with |- context [if ?c then _ else _] => destruct c end; cbn; auto. }
    destruct G6 as (e6 & H1 & H2).
    exists (E ++ e4 ++ e6 ++ filter (visible (cf_verbosity cf)) [TestCaseEnded (t_id t) (t_line t) (asserts st6) cs]), (map exactly E).
    split; [reflexivity|]. split; [rewrite (filter_one (cf_verbosity cf)) by reflexivity; rewrite H1, T5, <- !app_assoc; reflexivity|].
    split; [exact T2|]. exists E, (should_fail st5). eexists. split; [reflexivity|]. split; [reflexivity|].
    rewrite !Forall_app. split; [now apply ended_after|]. split; [exact H2|]. cbn [filter]. destruct (visible _ _); repeat constructor.
  - destruct A as (y2 & -> & R2). cbn [bind]. bstep E3 as st' E4. injection E3 as <-.
    destruct (rel_fields _ _ _ _ R2) as (F1 & F2 & F3 & F4 & F5 & F6 & F7).
    destruct (is_skipped (status st2)) eqn:SK.
    + (* skipped *)
      unfold report_assertion in E4. cbn [status set_in_check] in E4. rewrite SK in E4. injection E4 as <-.
      assert (U : unhandled st2 = false) by apply R2. cbn [unhandled set_in_check] in R. rewrite U in R.
      cbn [should_fail set_unhandled set_in_check status] in R. rewrite F4, F6.
      assert (CO : forall A (f : state -> res A), (do st6 <- (if should_fail st2
        then do st' <- report_assertion cf (t_id t) (match status st2 with IAllowedFail => true | _ => false end) (Message (lit "expected test to fail"))
                 (set_in_check (set_should_fail (set_unhandled (set_in_check (set_in_check st2 true) false) false) false) true) ;;
             Ok (set_should_fail (set_in_check st' false) true) else Ok (set_unhandled (set_in_check (set_in_check st2 true) false) false)) ;; f st6) =
        f (set_in_check st2 false)).
      { intros A f. unfold report_assertion. cbn [status set_in_check set_should_fail set_unhandled]. rewrite SK. cbn [bind].
        unfold set_in_check, set_should_fail, set_unhandled. cbn. destruct (should_fail st2) eqn:SF; cbn [bind]; f_equal; rewrite U, ?SF; reflexivity. }
      rewrite CO in R. cbn [status set_in_check] in R. bstep R as cs E7. injection R as <-.
      assert (CO2 : (if should_fail st2
        then do st' <- bare_report_assertion cf (t_id t) (match status st2 with IAllowedFail => true | _ => false end) (Message (lit "expected test to fail"))
                 (set_in_check (set_should_fail y2 false) true) ;;
             Ok (set_should_fail (set_in_check st' false) true) else Ok y2) = Ok (if should_fail st2 then set_in_check y2 false else y2)).
      { unfold bare_report_assertion. cbn [status set_in_check set_should_fail set_unhandled]. rewrite F6, SK. cbn [bind].
        destruct (should_fail st2) eqn:SF; [|reflexivity]. f_equal. unfold set_in_check, set_should_fail. cbn. congruence. }
      rewrite CO2. cbn [bind]. replace (status (if should_fail st2 then set_in_check y2 false else y2)) with (status st2) by (rewrite <- F6; now destruct (should_fail st2)).
      rewrite E7. cbn [bind]. destruct R2 as (_ & E & T & Y2).
      eexists _, false, (E ++ filter (visible (cf_verbosity cf)) [TestCaseEnded (t_id t) (t_line t) (asserts st2) cs]),
        (map exactly (E ++ filter (visible (cf_verbosity cf)) [TestCaseEnded (t_id t) (t_line t) (asserts st2) cs])).
      split; [reflexivity|]. rewrite !(filter_one (cf_verbosity cf)) by reflexivity. cbn [trace set_in_check].
      split; [rewrite T, <- app_assoc; reflexivity|].
      replace (trace (if should_fail st2 then set_in_check y2 false else y2)) with (trace y2) by now destruct (should_fail st2).
      replace (asserts (if should_fail st2 then set_in_check y2 false else y2)) with (asserts st2) by (rewrite <- F2; now destruct (should_fail st2)).
      assert (CS : cs = Skipped) by (destruct (status st2); try discriminate SK; now injection E7 as <-). subst cs.
      split; [rewrite Y2; cbn [trace retrace]; rewrite map_app, <- app_assoc; cbn [filter]; destruct (visible _ _); reflexivity|].
      split; [apply Same_skipped|].
      assert (SS : forall v s e, status (report cf v s e) = status s /\ asserts (report cf v s e) = asserts s) by (intros; unfold report; destruct (_ <=? _); auto).
      split; rewrite !(proj1 (SS _ _ _)); cbn [status set_in_check]; [rewrite <- F6; now destruct (should_fail st2)|].
      rewrite !(proj2 (SS _ _ _)), SK. cbn [asserts set_in_check]. rewrite <- F2. now destruct (should_fail st2).
    + (* not skipped *)
      destruct (top cf (t_id t) true (Message (lit "no exception caught")) (set_in_check st2 true) (t_line t) F7 S1 S2 S3 eq_refl SK) as [TO _].
      rewrite TO in E4. clear TO. injection E4 as <-.
      assert (U : unhandled st2 = false) by apply R2. cbn [unhandled set_in_check] in R. rewrite U in R. cbn [set_in_check inf held asserts may_fail should_fail in_check unhandled status trace] in R.
      unfold set_unhandled in R. cbn [set_in_check inf held asserts may_fail should_fail in_check unhandled status trace] in R.
      destruct R2 as (_ & E & T & Y2).
      set (note := AssertionSucceeded (t_id t) [] [] (mkloc (t_line t) Exact) (Message (lit "no exception caught"))) in *.
      set (ok := match status st2 with IAllowedFail => true | _ => false end) in *.
      set (con := Message (lit "expected test to fail")) in *.
      destruct (should_fail st2) eqn:SF.
      * rewrite F4. bstep R as st6 E6. bstep E6 as st7 E7. injection E6 as <-. bstep R as cs E8. injection R as <-.
        match type of E7 with report_assertion _ _ _ _ ?s = _ =>
          destruct (top cf (t_id t) ok con s (t_line t) F7 S1 S2 S3 eq_refl SK) as [TO _] end.
        rewrite TO in E7. clear TO. injection E7 as <-.
        assert (Y5 : held y2 = None) by (rewrite Y2; exact F7).
        destruct (top cf (t_id t) ok con (set_in_check (set_should_fail y2 false) true) (t_line t)) as [_ TO];
          [exact Y5|cbn; now rewrite F1|cbn; now rewrite F1|cbn; now rewrite F1|reflexivity|cbn [status set_in_check set_should_fail]; now rewrite F6|].
        replace (match status y2 with IAllowedFail => true | _ => false end) with ok by (unfold ok; now rewrite F6).
        rewrite TO. clear TO. cbn [bind]. unfold set_should_fail, set_in_check in *.
        cbn [set_in_check inf held asserts may_fail should_fail in_check unhandled status trace] in *. rewrite F3.
        set (w := if ok then Passed else if may_fail st2 || false then AllowedFailure else Failure) in *.
        replace (match w with Passed => status y2 | AllowedFailure => status (raise_state _ IAllowedFail) | Failure => status (raise_state _ IFailed) end)
          with (match w with Passed => status st2 | AllowedFailure => status (raise_state st2 IAllowedFail) | Failure => status (raise_state st2 IFailed) end)
          by (unfold raise_state; cbn [status]; rewrite F6; destruct w; try reflexivity; now destruct (_ <? _)).
        match type of E8 with convert_to_public_state ?s = _ => replace s
          with (match w with Passed => status st2 | AllowedFailure => status (raise_state st2 IAllowedFail) | Failure => status (raise_state st2 IFailed) end) in E8
          by (unfold raise_state; cbn [status]; destruct w; try reflexivity; now destruct (_ <? _)) end.
        set (s' := match w with Passed => status st2 | AllowedFailure => _ | Failure => _ end) in *.
        rewrite E8. cbn [bind]. eexists _, false. rewrite F2.
        set (ce := if ok then AssertionSucceeded (t_id t) [] [] (mkloc (t_line t) Exact) con else AssertionFailed (t_id t) [] [] (mkloc (t_line t) Exact) con false (may_fail st2)) in *.
        exists (E ++ filter (visible (cf_verbosity cf)) [note] ++ filter (visible (cf_verbosity cf)) [ce] ++
          filter (visible (cf_verbosity cf)) [TestCaseEnded (t_id t) (t_line t) (one_more (count w (asserts st2))) cs]),
          (map exactly E ++ filter (visible (cf_verbosity cf)) [ce] ++ filter (visible (cf_verbosity cf)) [TestCaseEnded (t_id t) (t_line t) (count w (asserts st2)) cs]).
        split; [reflexivity|]. rewrite !(filter_one (cf_verbosity cf)) by reflexivity. cbn [trace].
        split; [rewrite T, one_more_count, <- !app_assoc; reflexivity|]. split; [rewrite Y2; cbn [trace retrace]; rewrite <- !app_assoc; reflexivity|].
        assert (NS : is_skipped s' = false).
        { unfold s', raise_state. destruct w; auto; destruct (_ <? _); auto. }
        split.
        { apply Same_noted.
          - intros ->. destruct s'; discriminate.
          - cbn [filter]. destruct (visible _ _); [|constructor]. constructor; [|constructor]. unfold ce. destruct ok; cbn; auto.
          - cbn [filter]. destruct (visible _ _); cbn; lia. }
        assert (SS : forall v s e, status (report cf v s e) = status s /\ asserts (report cf v s e) = asserts s) by (intros; unfold report; destruct (_ <=? _); auto).
        split; rewrite !(proj1 (SS _ _ _)); cbn [status]; [|rewrite !(proj2 (SS _ _ _)); cbn [asserts]].
        -- unfold s', raise_state. cbn [status]. destruct w; auto; now destruct (_ <? _).
        -- match goal with |- context [is_skipped ?s] => replace s with s' by (unfold s', raise_state; cbn [status]; destruct w; auto; now destruct (_ <? _)) end.
           rewrite NS. now destruct w.
      * rewrite F4. cbn [bind] in *. cbn [inf held asserts may_fail should_fail in_check unhandled status trace] in R. bstep R as cs E8. injection R as <-.
        rewrite F6, E8. cbn [bind]. eexists _, false. rewrite F2.
        exists (E ++ filter (visible (cf_verbosity cf)) [note] ++ [] ++
          filter (visible (cf_verbosity cf)) [TestCaseEnded (t_id t) (t_line t) (one_more (asserts st2)) cs]),
          (map exactly E ++ [] ++ filter (visible (cf_verbosity cf)) [TestCaseEnded (t_id t) (t_line t) (asserts st2) cs]).
        split; [reflexivity|]. rewrite !(filter_one (cf_verbosity cf)) by reflexivity. cbn [trace].
        split; [rewrite T, <- !app_assoc; reflexivity|]. split; [rewrite Y2; cbn [trace retrace]; rewrite <- !app_assoc; reflexivity|].
        split; [apply Same_noted; [intros ->; destruct (status st2); discriminate|constructor|cbn; lia]|].
        assert (SS : forall v s e, status (report cf v s e) = status s /\ asserts (report cf v s e) = asserts s) by (intros; unfold report; destruct (_ <=? _); auto).
        split; rewrite !(proj1 (SS _ _ _)); cbn [status]; [exact F6|]. rewrite SK, !(proj2 (SS _ _ _)). cbn [asserts]. now rewrite F2.
Qed.

(** ** The macros that do not abort *)
Lemma lenient_exec cf id pass p : lenient p -> forall st st' x, bare_exec cf id pass p st = Ok (st', x) -> x = false.
Proof.
  induction p as [|n k IHk|w y k IHk|line w abort e IHe k IHk|line m abort k IHk|s body IHb k IHk|texts body IHb k IHk|acc nt body IHb k IHk];
    cbn [lenient]; intros L st st' x H; cbn [bare_exec] in H; try discriminate.
  - now injection H as _ <-.
  - now apply IHk in H.
  - destruct w; try discriminate. destruct L as (-> & Le & Lk). bstep H as st1 E1. bstep H as [st2 z] E2. apply IHe in E2; [|exact Le]. subst z.
    bstep H as st3 E3. rewrite Bool.andb_false_r in H. bstep H as st4 E4. now apply IHk in H.
  - destruct L as (-> & Lk). bstep H as st1 E1. bstep H as st2 E2. bstep H as st3 E3. now apply IHk in H.
  - destruct L as (Lb & Lk). bstep H as [st1 en] E1. destruct en.
    + bstep H as [st2 z] E2. apply IHb in E2; [|exact Lb]. subst z. bstep H as st3 E3. now apply IHk in H.
    + bstep H as st3 E3. now apply IHk in H.
  - destruct L as (Lb & Lk). bstep H as st1 E1. bstep H as [st2 z] E2. apply IHb in E2; [|exact Lb]. subst z. bstep H as st3 E3. now apply IHk in H.
Qed.
Lemma lenient_passes cf id p : lenient p -> forall fuel pass st st' x, bare_passes cf id p fuel pass st = Ok (st', x) -> x = false.
Proof.
  intros L. induction fuel as [|fuel IH]; intros pass st st' x H; cbn [bare_passes] in H; [discriminate|]. bstep H as [st2 z] E2.
  apply lenient_exec in E2; [|exact L]. subst z. cbv zeta in H. destruct (_ && _); [now apply IH in H|now injection H as _ <-].
Qed.
Lemma lenient_run cf fuel t b st x : lenient (t_body t) -> bare_run cf fuel t b = Ok (st, x) -> x = false.
Proof.
  intros L H. unfold bare_run in H. bstep H as [may should] FF. bstep H as st1 E1. bstep H as [st2 z] E2. apply lenient_passes in E2; [|exact L]. subst z.
  bstep H as st3 E3. bstep H as cs E4. now injection H as _ <-.
Qed.

(** ** Whole runs *)
Definition alike (s s0 : summary) : Prop :=
  s_success s0 = s_success s /\ s_run s0 = s_run s /\ s_fail s0 = s_fail s /\ s_allowed_fail s0 = s_allowed_fail s /\ s_skip s0 = s_skip s /\
  s_skip s <= s_run s /\
  s_counts s = mkcounts (n_all (s_counts s0) + (s_run s - s_skip s)) (n_failed (s_counts s0)) (n_allowed (s_counts s0)).

Lemma alike_count s s0 st st0 : alike s s0 -> shifted st st0 -> alike (count_test s st) (count_test s0 st0).
Proof.
  intros (A1 & A2 & A3 & A4 & A5 & A6 & A7) (B1 & B2). unfold count_test. rewrite B1, A1, A2, A3, A4, A5, A7, B2.
  destruct (status st); cbn [is_skipped one_more]; repeat split; cbn [s_skip s_run s_counts n_all n_failed n_allowed]; try lia;
    apply counts_eq; unfold one_more; cbn [n_all n_failed n_allowed]; lia.
Qed.

Lemma count_run s st : s_run (count_test s st) = S (s_run s).
Proof. unfold count_test. now destruct (status st). Qed.

Section Loop.
Variables (fuel : nat) (cf : config) (predicate : test_id -> res bool).

Lemma loop_appends tests : Forall (fun t => exceptionless (t_body t)) tests -> forall s b s' tr,
  run_loop fuel cf predicate tests s b = Ok (s', tr) -> exists l, tr = b ++ l.
Proof.
  induction tests as [|t tests IH]; intros X s b s' tr H; cbn [run_loop] in H; [injection H as _ <-; exists []; now rewrite app_nil_r|].
  inversion X as [|? ? X1 X2]; subst. bstep H as k K. destruct k; [|now apply IH in H]. bstep H as st E.
  destruct (bare_run_same _ _ _ b b _ X1 E) as (_ & _ & E1 & _ & _ & T & _). apply IH in H; [|exact X2]. destruct H as (l & ->).
  exists (E1 ++ l). now rewrite T, app_assoc.
Qed.

Lemma bare_loop tests : Forall (fun t => exceptionless (t_body t)) tests -> forall s s0 b b' s' tr,
  alike s s0 -> run_loop fuel cf predicate tests s b = Ok (s', tr) ->
  exists cases bare_cases, Forall2 (same_case (cf_verbosity cf)) cases bare_cases /\
    ((exists s0', bare_run_loop fuel cf predicate tests s0 b' = Ok (s0', b' ++ concat bare_cases, false) /\ tr = b ++ concat cases /\ alike s' s0' /\
        s_run s' = s_run s + length cases) \/
     (exists s0' last bare_last later, bare_run_loop fuel cf predicate tests s0 b' = Ok (s0', b' ++ concat bare_cases ++ bare_last, true) /\
        tr = b ++ concat cases ++ last ++ later /\ cut_case last bare_last /\ ~ Forall (fun t => lenient (t_body t)) tests)).
Proof.
  induction tests as [|t tests IH]; intros X s s0 b b' s' tr A H; cbn [run_loop bare_run_loop] in *.
  { injection H as <- <-. exists [], []. split; [constructor|]. left. exists s0. rewrite !app_nil_r. cbn [length]. rewrite Nat.add_0_r. auto. }
  inversion X as [|? ? X1 X2]; subst. bstep H as k K. cbn [bind]. destruct k.
  - bstep H as st E. destruct (bare_run_same _ _ _ b b' _ X1 E) as (st0 & stopped & E1 & E2 & B & T1 & T2 & C). rewrite B. cbn [bind]. destruct stopped.
    + pose proof (loop_appends _ X2 _ _ _ _ H) as (later & ->). exists [], []. split; [constructor|]. right. exists s0, E1, E2, later.
      rewrite T1, T2. cbn [concat app]. rewrite <- app_assoc. split; [reflexivity|]. split; [reflexivity|]. split; [exact C|].
      intros F. inversion F as [|? ? F1 _]; subst. apply lenient_run in B; [discriminate|exact F1].
    + destruct C as [C1 C2]. destruct (IH X2 _ _ _ (trace st0) _ _ (alike_count _ _ _ _ A C2) H) as (cases & bare_cases & F & D).
      exists (E1 :: cases), (E2 :: bare_cases). split; [now constructor|]. cbn [concat length]. rewrite T1, T2 in D. rewrite count_run in D.
      destruct D as [(s0' & D1 & -> & D3 & D4)|(s0' & last & bl & later & D1 & -> & D3 & D4)].
      * left. exists s0'. rewrite T2, D1, <- !app_assoc. split; [reflexivity|]. split; [reflexivity|]. split; [exact D3|]. lia.
      * right. exists s0', last, bl, later. rewrite T2, D1, <- !app_assoc. split; [reflexivity|]. split; [reflexivity|]. split; [exact D3|].
        intros F0. apply D4. now inversion F0.
  - destruct (IH X2 _ _ _ b' _ _ A H) as (cases & bare_cases & F & D). exists cases, bare_cases. split; [exact F|].
    destruct D as [D|(s0' & last & bl & later & D1 & D2 & D3 & D4)]; [auto|]. right. exists s0', last, bl, later. repeat split; auto.
    intros F0. apply D4. now inversion F0.
Qed.
End Loop.

Theorem bare_selected lm fuel v tests name filters predicate events success :
  Forall (fun t => exceptionless (t_body t)) tests ->
  run_selected_tests lm fuel v tests name filters predicate = Ok (events, success) ->
  exists bare_events result, bare_run_selected_tests lm fuel v tests name filters predicate = Ok (bare_events, result) /\
    same_run v success events bare_events result /\ (Forall (fun t => lenient (t_body t)) tests -> result = Some success).
Proof.
  intros X H. unfold run_selected_tests in H. cbv zeta in H. bstep H as [s tr] E. injection H as <- <-.
  assert (A : alike (mksummary true 0 0 0 0 (mkcounts 0 0 0)) (mksummary true 0 0 0 0 (mkcounts 0 0 0))) by (repeat split; auto).
  match type of E with run_loop _ _ _ _ _ ?st = _ =>
    destruct (bare_loop fuel (config_of lm v) predicate tests X _ _ st st _ _ A E) as (cases & bare_cases & F & D) end.
  assert (V : forall e : event, min_verbosity e = Normal -> (if vlevel Normal <=? vlevel v then [e] else []) = filter (visible v) [e]).
  { intros e M. cbn [filter]. unfold visible. now rewrite M. }
  rewrite !V in * by reflexivity.
  unfold bare_run_selected_tests. cbv zeta. rewrite !V by reflexivity.
  destruct D as [(s0' & -> & -> & (A1 & A2 & A3 & A4 & A5 & A6 & A7) & R)|(s0' & last & bl & later & -> & -> & C & NL)]; cbn [bind].
  - eexists _, (Some (s_success s)). rewrite A1, V by reflexivity. split; [reflexivity|]. split; [|reflexivity].
    rewrite A2, A3, A4, A5, <- !app_assoc. eapply Same_run; eauto.
  - eexists _, None. split; [reflexivity|]. split; [|intros L; contradiction]. rewrite <- !app_assoc. eapply Cut_run; eauto.
Qed.
