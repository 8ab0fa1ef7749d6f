(** Durations of whole runs (C75), and their units (C76). *)
From Coq Require Import ZArith QArith Qabs Qround Sorted Lia Lqa.
From Verif.Spec Require Import TextSpec FilterSpec Events TimeSpec.
From Verif.Model Require Import Base Vector StringUtil Filter Run Session Timed.
From Verif.Proofs Require Import Lists RunProofs InvariantProofs ScopeProofs TimedProofs.
Local Open Scope nat_scope.

Lemma split_app {A} (h l : list A) a x b : h ++ l = a ++ x :: b ->
  (exists b', h = a ++ x :: b' /\ b = b' ++ l) \/ (exists a', a = h ++ a' /\ l = a' ++ x :: b).
Proof.
  revert a; induction h as [|y h IH]; intros a E; [right; exists a; auto|].
  destruct a as [|z a]; cbn [app] in E; injection E as -> E.
  - left. exists h. auto.
  - apply IH in E. destruct E as [(b' & -> & ->)|(a' & -> & ->)]; [left|right]; eexists; split; reflexivity.
Qed.

Section Run.
Variable clock : nat -> Z.
Variable monotone : forall k, (clock k <= clock (S k))%Z.

Definition high (v : verbosity) : bool := vlevel High <=? vlevel v.

Definition case_part (v : verbosity) (from to : Z) (l : history test_id) : Prop :=
  exists id line c s t0 t1 body, (from <= t0 <= t1 /\ t1 <= to)%Z /\ during t0 t1 body /\ ordered body /\ Forall seen_inner body /\
  l = if high v then (from, Reported (TestCaseStarted id line) None) :: body ++ [(t1, Reported (TestCaseEnded id line c s) (Some (t1 - t0)%Z))]
      else body.

Lemma run_good cf fuel t tr n before tz : timed_run clock cf fuel t tr n before = Ok tz ->
  reports before = tr -> open_blocks before = [] -> ends_ok before ->
  reports (log tz) = trace (base tz) /\ open_blocks (log tz) = [] /\ ends_ok (log tz).
Proof.
  unfold timed_run. intros H R O E. bstep H as [may should] FF.
  match type of H with context [steps_to clock ?s ?x] => set (ts := x) in H end.
  assert (G0 : good ts). { constructor; cbn; auto. }
  set (ts0 := steps_to clock (report cf High (base ts) (TestCaseStarted (t_id t) (t_line t))) ts) in *.
  assert (G1 : good ts0 /\ names (base ts0) = [] /\ hnames (base ts0) = None).
  { assert (B : base ts0 = report cf High (base ts) (TestCaseStarted (t_id t) (t_line t))) by reflexivity.
    rewrite B, hnames_report. unfold names. rewrite inf_report. split; [|split; reflexivity].
    unfold ts0, steps_to, step, report, ts. destruct (_ <=? _); cbn [trace base inf held current_section length log starts held_starts instant closing].
    - rewrite skipn_app, skipn_all, Nat.sub_diag. cbn [skipn app stamp map].
      constructor; unfold names, hnames; cbn [log base starts inf current_section map held option_map trace app firstn List.combine length]; auto.
      + rewrite reports_app. cbn. now rewrite R.
      + now rewrite open_reported.
      + now apply ends_ok_snoc.
    - rewrite skipn_all. cbn [stamp map app firstn]. rewrite app_nil_r. constructor; cbn; auto. }
  clearbody ts0. clear ts G0. destruct G1 as (G & N & HN).
  bstep H as st1 P. set (ts1 := steps_to clock st1 ts0) in *.
  assert (C1 : calm (base ts0) st1). { apply still_push in P. apply still_calm. eapply still_trans; [|exact P]. now apply still_same. }
  assert (G1 : good ts1) by (now apply good_calm).
  assert (N1 : names (base ts1) = []). { destruct C1 as (? & _ & _ & M & _). cbn. congruence. }
  clearbody ts1. bstep H as [ts2 x] E2. apply good_passes in E2; auto. destruct E2 as [G2 N2]. bstep H as st3 E3.
  assert (C3 : calm (base ts2) st3).
  { destruct x as [[|what|]|].
    - injection E3 as <-. now apply still_calm, still_same.
    - apply still_assertion2 in E3. apply still_calm. eapply still_trans; [|exact E3]. now apply still_same.
    - apply still_assertion in E3. apply still_calm. eapply still_trans; [|exact E3]. now apply still_same.
    - bstep E3 as y Q. injection E3 as <-. apply still_assertion in Q. apply still_calm. eapply still_trans; [|eapply still_trans; [exact Q|]]; now apply still_same. }
  set (ts3 := steps_to clock st3 ts2) in *. assert (G3 : good ts3) by (now apply good_calm).
  assert (N3 : names (base ts3) = []). { destruct C3 as (? & _ & _ & M & _). cbn. congruence. }
  clearbody ts3. set (st4 := if unhandled (base ts3) then _ else _) in *.
  assert (C4 : calm (base ts3) st4). { unfold st4. destruct (unhandled _); [apply calm_notify|apply still_calm, still_refl]. }
  set (ts4 := steps_to clock st4 ts3) in *. assert (G4 : good ts4) by (now apply good_calm).
  assert (N4 : names (base ts4) = []). { destruct C4 as (? & _ & _ & M & _). cbn. congruence. }
  clearbody ts4. clear st4 C4. bstep H as st6 E6.
  assert (C6 : calm (base ts4) st6).
  { destruct (should_fail _).
    - bstep E6 as y Q. injection E6 as <-. apply still_assertion in Q. apply still_calm. eapply still_trans; [|eapply still_trans; [exact Q|]]; now apply still_same.
    - injection E6 as <-. now apply still_calm, still_same. }
  set (ts6 := steps_to clock st6 ts4) in *. assert (G6 : good ts6) by (now apply good_calm).
  assert (N6 : names (base ts6) = []). { destruct C6 as (? & _ & _ & M & _). cbn. congruence. }
  clearbody ts6. bstep H as s E7. injection H as <-. destruct G6 as [A1 A2 A3 A4 A5]. cbn [log base].
  rewrite N6 in A3. cbn in A3. unfold report. destruct (cf_verbosity cf); cbn [vlevel Nat.leb trace];
    rewrite ?app_nil_r; auto; rewrite reports_app, A1; (split; [reflexivity|]); (split; [now rewrite open_reported|]); now apply ends_ok_snoc.
Qed.

Lemma run_grows cf fuel t tr n before tz : timed_run clock cf fuel t tr n before = Ok tz ->
  n <= instant tz /\ exists l, log tz = before ++ l /\ case_part (cf_verbosity cf) (clock n) (clock (instant tz)) l.
Proof.
  unfold timed_run. intros H. bstep H as [may should] FF.
  match type of H with context [steps_to clock ?s ?x] => set (ts := x) in H end.
  set (ts0 := steps_to clock (report cf High (base ts) (TestCaseStarted (t_id t) (t_line t))) ts) in *.
  assert (L0 : instant ts0 = S n /\ log ts0 = before ++ (if high (cf_verbosity cf) then [(clock n, Reported (TestCaseStarted (t_id t) (t_line t)) None)] else []) /\ names (base ts0) = []).
  { split; [reflexivity|]. unfold names. cbn [ts0 steps_to step base log]. rewrite inf_report. split; [|reflexivity].
    unfold ts, report, high. destruct (_ <=? _); cbn [trace base instant log closing held_starts map app inf current_section length].
    - rewrite skipn_app, skipn_all, Nat.sub_diag. reflexivity.
    - now rewrite skipn_all. }
  clearbody ts0. clear ts. destruct L0 as (I0 & L0 & N0).
  bstep H as st1 P. set (ts1 := steps_to clock st1 ts0) in *.
  assert (C1 : calm (base ts0) st1). { apply still_push in P. apply still_calm. eapply still_trans; [|exact P]. now apply still_same. }
  assert (N1 : names (base ts1) = []). { destruct C1 as (? & _ & _ & M & _). cbn. congruence. }
  assert (L1 : instant ts1 = S (S n) /\ log ts1 = log ts0).
  { split; [unfold ts1; cbn; now rewrite I0|]. unfold ts1. cbn [steps_to step log map app].
    unfold push_location in P. bstep P as ls Q. injection P as <-. cbn [trace set_inf set_status]. rewrite skipn_all. cbn. now rewrite app_nil_r. }
  clearbody ts1. destruct L1 as [I1 L1]. bstep H as [ts2 x] E2.
  assert (N2 : names (base ts2) = []).
  { pose proof (erase_passes clock cf (t_id t) (t_body t) fuel 0 ts1) as Q. unfold erases in Q. rewrite E2 in Q. cbn in Q. apply scope_passes in Q; auto.
    apply scope_eq in Q. destruct Q as [Q _]. cbn in Q. now rewrite Q. }
  apply (grows_passes clock monotone) in E2; auto. bstep H as st3 E3.
  assert (C3 : calm (base ts2) st3).
  { destruct x as [[|what|]|].
    - injection E3 as <-. now apply still_calm, still_same.
    - apply still_assertion2 in E3. apply still_calm. eapply still_trans; [|exact E3]. now apply still_same.
    - apply still_assertion in E3. apply still_calm. eapply still_trans; [|exact E3]. now apply still_same.
    - bstep E3 as y Q. injection E3 as <-. apply still_assertion in Q. apply still_calm. eapply still_trans; [|eapply still_trans; [exact Q|]]; now apply still_same. }
  set (ts3 := steps_to clock st3 ts2) in *. assert (G3 : grows clock ts2 ts3) by (now apply grows_calm).
  clearbody ts3. set (st4 := if unhandled (base ts3) then _ else _) in *.
  assert (C4 : calm (base ts3) st4). { unfold st4. destruct (unhandled _); [apply calm_notify|apply still_calm, still_refl]. }
  set (ts4 := steps_to clock st4 ts3) in *. assert (G4 : grows clock ts3 ts4) by (now apply grows_calm).
  clearbody ts4. clear st4 C4. bstep H as st6 E6.
  assert (C6 : calm (base ts4) st6).
  { destruct (should_fail _).
    - bstep E6 as y Q. injection E6 as <-. apply still_assertion in Q. apply still_calm. eapply still_trans; [|eapply still_trans; [exact Q|]]; now apply still_same.
    - injection E6 as <-. now apply still_calm, still_same. }
  set (ts6 := steps_to clock st6 ts4) in *. assert (G6 : grows clock ts4 ts6) by (now apply grows_calm).
  clearbody ts6. bstep H as s E7. injection H as <-. cbn [log instant].
  assert (G : grows clock ts1 ts6) by eauto using grows_trans. destruct G as [I (body & L & D & OR & SI)].
  rewrite I1 in *. split; [lia|]. rewrite L, L1, L0.
  eexists. split; [rewrite <- !app_assoc; reflexivity|].
  exists (t_id t), (t_line t), (asserts (base ts6)), s, (clock (S (S n))), (clock (instant ts6)), body.
  pose proof (clock_le clock monotone n (S (S n)) ltac:(lia)). pose proof (clock_le clock monotone _ _ I). pose proof (monotone (instant ts6)).
  unfold high. split; [lia|]. split; [exact D|]. split; [exact OR|]. split; [exact SI|].
  destruct (cf_verbosity cf); cbn [vlevel Nat.leb app]; rewrite ?app_nil_r; reflexivity.
Qed.

Inductive parts (v : verbosity) : Z -> Z -> history test_id -> Prop :=
| parts_nil a b : (a <= b)%Z -> parts v a b []
| parts_cons a b c l1 l2 : case_part v a b l1 -> parts v b c l2 -> parts v a c (l1 ++ l2).

Lemma loop_good fuel cf predicate tests : forall s events n before s' events' n' h,
  timed_run_loop clock fuel cf predicate tests s events n before = Ok (s', events', n', h) ->
  reports before = events -> open_blocks before = [] -> ends_ok before ->
  reports h = events' /\ ends_ok h.
Proof.
  induction tests as [|t tests IH]; intros s events n before s' events' n' h H R O E; cbn [timed_run_loop] in H.
  - injection H as <- <- <- <-. auto.
  - bstep H as b Q. destruct b; [|eauto]. bstep H as ts X. apply run_good in X; auto. destruct X as (X1 & X2 & X3). eauto.
Qed.
Lemma loop_parts fuel cf predicate tests : forall s events n before s' events' n' h,
  timed_run_loop clock fuel cf predicate tests s events n before = Ok (s', events', n', h) ->
  n <= n' /\ exists l, h = before ++ l /\ parts (cf_verbosity cf) (clock n) (clock n') l.
Proof.
  induction tests as [|t tests IH]; intros s events n before s' events' n' h H; cbn [timed_run_loop] in H.
  - injection H as <- <- <- <-. split; auto. exists []. rewrite app_nil_r. split; auto. constructor. lia.
  - bstep H as b Q. destruct b; [|eauto]. bstep H as ts X. apply run_grows in X. destruct X as (I & l & L & C).
    apply IH in H. destruct H as (I' & l' & L' & C'). split; [lia|]. exists (l ++ l'). rewrite L', L, app_assoc. split; auto. econstructor; eauto.
Qed.
Lemma loop_erase fuel cf predicate tests : forall s events n before,
  run_loop fuel cf predicate tests s events =
  match timed_run_loop clock fuel cf predicate tests s events n before with Ok (s', events', _, _) => Ok (s', events') | Err e => Err e end.
Proof.
  induction tests as [|t tests IH]; intros s events n before; cbn [run_loop timed_run_loop]; [reflexivity|].
  destruct (predicate (t_id t)) as [[]|]; cbn [bind]; [|apply IH|reflexivity].
  rewrite (erase_run clock cf fuel t events n before). destruct (timed_run clock cf fuel t events n before) as [ts|]; cbn [bind]; [apply IH|reflexivity].
Qed.

(** ** Properties of sequences of test cases *)
Definition case_ok (a : history test_id) (t : Z) (id : test_id) (line : nat) (d : option Z) : Prop :=
  exists a1 t0 m dd, a = a1 ++ (t0, Reported (TestCaseStarted id line) None) :: m /\ d = Some dd /\ (t0 <= t - dd /\ 0 <= dd)%Z /\
    during (t - dd) t m /\ (forall e, In e (reports m) -> match e with TestCaseStarted _ _ | TestCaseEnded _ _ _ _ => False | _ => True end).
Definition cases_ok (h : history test_id) : Prop := forall a t id line c s d b,
  h = a ++ (t, Reported (TestCaseEnded id line c s) d) :: b -> case_ok a t id line d.

Lemma in_reports {ID} e (l : history ID) : In e (reports l) -> exists t d, In (t, Reported e d) l.
Proof.
  unfold reports. intros I. apply in_flat_map in I. destruct I as ([t x] & I & Q). destruct x; cbn in Q; [tauto|tauto|]. destruct Q as [-> | []]. eauto.
Qed.

Lemma part_ok v from to h l : cases_ok h -> case_part v from to l -> cases_ok (h ++ l).
Proof.
  intros K (id & line & c & s & t0 & t1 & body & T & D & O & S & L) a t id' line' c' s' d b E. apply split_app in E.
  destruct E as [(b' & -> & ->)|(a' & -> & E)]; [eapply K; reflexivity|].
  assert (NB : forall d, ~ In (t, Reported (TestCaseEnded id' line' c' s') d) body).
  { intros d' I. rewrite Forall_forall in S. apply S in I. cbn in I. tauto. }
  destruct (high v); subst l.
  - change ((from, Reported (TestCaseStarted id line) None) :: body ++ [(t1, Reported (TestCaseEnded id line c s) (Some (t1 - t0)%Z))])
      with (((from, Reported (TestCaseStarted id line) None) :: body) ++ [(t1, Reported (TestCaseEnded id line c s) (Some (t1 - t0)%Z))]) in E.
    apply split_last in E. destruct E as [(b' & -> & E)|(-> & E & <-)].
    + destruct a'; cbn [app] in E; [discriminate|]. injection E as _ E. exfalso. apply (NB d). rewrite E. apply in_elt.
    + injection E as -> -> -> -> -> ->. exists h, from, body, (t1 - t0)%Z. split; [reflexivity|]. split; [reflexivity|].
      replace (t1 - (t1 - t0))%Z with t0 by lia. split; [lia|]. split; [exact D|].
      intros e I. apply in_reports in I. destruct I as (u & d & I). rewrite Forall_forall in S. apply S in I. destruct I as [I _]. destruct e; cbn in I; tauto.
  - exfalso. apply (NB d). rewrite E. apply in_elt.
Qed.

Definition durations_ok (h : history test_id) : Prop := forall t e d, In (t, Reported e d) h ->
  match e with SectionEnded _ _ _ => True | _ => if timed_event e then exists dd, d = Some dd /\ (0 <= dd)%Z else d = None end.
Lemma part_durations v from to l : case_part v from to l -> durations_ok l.
Proof.
  intros (id & line & c & s & t0 & t1 & body & T & D & O & S & L) t e d I.
  assert (B : In (t, Reported e d) body -> match e with SectionEnded _ _ _ => True | _ => if timed_event e then exists dd, d = Some dd /\ (0 <= dd)%Z else d = None end).
  { intros J. rewrite Forall_forall in S. apply S in J. cbn in J. destruct J as [J1 J2]. destruct e; cbn in *; tauto. }
  destruct (high v); subst l; [|exact (B I)]. destruct I as [I|I]; [injection I as _ <- <-; reflexivity|]. apply in_app_or in I.
  destruct I as [I|[I|[]]]; [exact (B I)|].
  injection I as _ <- <-. cbn. eexists. split; [reflexivity|lia].
Qed.

Lemma part_ordered v from to l : (from <= to)%Z -> case_part v from to l -> during from to l /\ ordered l.
Proof.
  intros FT (id & line & c & s & t0 & t1 & body & T & D & O & S & L).
  assert (DB : during from to body). { eapply Forall_impl; [|exact D]. cbn. intros; lia. }
  destruct (high v); subst l; auto. split.
  - constructor; [cbn; lia|]. apply Forall_app. split; auto. constructor; [cbn; lia|constructor].
  - change ((from, Reported (TestCaseStarted id line) None) :: body ++ [(t1, Reported (TestCaseEnded id line c s) (Some (t1 - t0)%Z))])
      with ([(from, Reported (TestCaseStarted id line) None)] ++ (body ++ [(t1, Reported (TestCaseEnded id line c s) (Some (t1 - t0)%Z))])).
    apply (ordered_app _ _ from); [repeat constructor| |repeat constructor; cbn; lia|].
    + apply (ordered_app _ _ t1); auto; [repeat constructor| |repeat constructor; cbn; lia]. eapply Forall_impl; [|exact D]. cbn. intros; lia.
    + apply Forall_app. split; [eapply Forall_impl; [|exact D]; cbn; intros; lia|repeat constructor; cbn; lia].
Qed.

Lemma sum_app a b : fold_right Z.add 0%Z (a ++ b) = (fold_right Z.add 0 a + fold_right Z.add 0 b)%Z.
Proof. induction a; cbn [fold_right app]; lia. Qed.
Lemma durations_app {ID} (a b : history ID) : case_durations (a ++ b) = case_durations a ++ case_durations b.
Proof. apply flat_map_app. Qed.

Lemma part_sum v from to l : case_part v from to l -> (from <= to /\ fold_right Z.add 0 (case_durations l) <= to - from)%Z.
Proof.
  intros (id & line & c & s & t0 & t1 & body & T & D & O & S & L). split; [lia|].
  assert (B : case_durations body = []).
  { clear - S. induction S as [|[t x] l I S IH]; auto. cbn [case_durations flat_map snd]. destruct x as [|?|e d]; auto. destruct e; auto. cbn in I. tauto. }
  destruct (high v); subst l; [|rewrite B; cbn; lia].
  change ((from, Reported (TestCaseStarted id line) None) :: body ++ [(t1, Reported (TestCaseEnded id line c s) (Some (t1 - t0)%Z))])
    with ([(from, Reported (TestCaseStarted id line) None)] ++ (body ++ [(t1, Reported (TestCaseEnded id line c s) (Some (t1 - t0)%Z))])).
  rewrite !durations_app, B. cbn. lia.
Qed.

Lemma parts_all v from to l : parts v from to l -> (from <= to)%Z /\ during from to l /\ ordered l /\ durations_ok l /\
  (fold_right Z.add 0 (case_durations l) <= to - from)%Z /\ forall h, cases_ok h -> cases_ok (h ++ l).
Proof.
  induction 1 as [a b L|a b c l1 l2 P1 P2 (A & B & C & D & E & F)].
  - split; auto. split; [constructor|]. split; [constructor|]. split; [intros ? ? ? []|]. split; [cbn; lia|]. intros h. now rewrite app_nil_r.
  - pose proof (part_sum _ _ _ _ P1) as [Q1 Q2]. pose proof (part_ordered _ _ _ _ Q1 P1) as [Q3 Q4]. pose proof (part_durations _ _ _ _ P1) as Q5.
    split; [lia|]. split; [|split; [|split; [|split]]].
    + apply Forall_app. split; eapply Forall_impl; try eassumption; cbn; intros; lia.
    + apply (ordered_app _ _ b); auto; [eapply Forall_impl; [|exact Q3]|eapply Forall_impl; [|exact B]]; cbn; intros; lia.
    + intros t e d I. apply in_app_or in I. destruct I; [eapply Q5; eauto|eapply D; eauto].
    + rewrite durations_app, sum_app. lia.
    + intros h K. rewrite app_assoc. apply F. eapply part_ok; eauto.
Qed.

(** ** Whole runs *)
Definition sum (l : list Z) : Z := fold_right Z.add 0%Z l.

Lemma selected_good fuel lm v tests name filters predicate h b :
  timed_run_selected_tests clock fuel lm v tests name filters predicate = Ok (h, b) -> ends_ok h.
Proof.
  unfold timed_run_selected_tests. intros H. bstep H as [[[s events] n] l] E. injection H as <- <-.
  apply loop_good in E; cbn [vlevel].
  - destruct E as [_ E]. destruct v; cbn [vlevel Nat.leb map]; rewrite ?app_nil_r; auto; now apply ends_ok_snoc.
  - now destruct v.
  - now destruct v.
  - destruct v; cbn [vlevel Nat.leb map]; try (intros [|x a] ? ? ? ? ? ? Q; [discriminate|destruct a; discriminate]);
      intros [|x [|y a]] ? ? ? ? ? ? Q; discriminate.
Qed.

Lemma selected_erase fuel lm v tests name filters predicate :
  run_selected_tests lm fuel v tests name filters predicate =
  match timed_run_selected_tests clock fuel lm v tests name filters predicate with
  | Ok (h, b) => Ok (reports h, b)
  | Err e => Err e
  end.
Proof.
  unfold run_selected_tests, timed_run_selected_tests.
  rewrite (loop_erase fuel (config_of lm v) predicate tests _ _ 1
    (map (fun e => (clock 0, Reported e None)) (if vlevel Normal <=? vlevel v then [TestRunStarted name filters] else []))).
  destruct (timed_run_loop _ _ _ _ _ _ _ _ _) as [[[[s events] n] l]|] eqn:E; cbn [bind]; [|reflexivity].
  apply loop_good in E.
  - destruct E as [E _]. rewrite reports_app, E. now destruct v.
  - now destruct v.
  - now destruct v.
  - destruct v; cbn [vlevel Nat.leb map]; try (intros [|x a] ? ? ? ? ? ? Q; [discriminate|destruct a; discriminate]);
      intros [|x [|y a]] ? ? ? ? ? ? Q; discriminate.
Qed.

Lemma selected_parts fuel lm v tests name filters predicate h b :
  timed_run_selected_tests clock fuel lm v tests name filters predicate = Ok (h, b) ->
  exists n m run fail allowed skip c, parts v (clock 1) (clock n) m /\ 1 <= n /\
  h = if vlevel Normal <=? vlevel v then (clock 0, Reported (TestRunStarted name filters) None) :: m ++
           [(clock n, Reported (TestRunEnded name filters run fail allowed skip c b) (Some (clock n - clock 1)%Z))]
      else m.
Proof.
  unfold timed_run_selected_tests. intros H. bstep H as [[[s events] n] l] E. injection H as <- <-.
  apply loop_parts in E. destruct E as (I & m & -> & P). cbn [config_of cf_verbosity] in P.
  exists n, m, (s_run s), (s_fail s), (s_allowed_fail s), (s_skip s), (s_counts s). split; auto. split; auto.
  destruct v; cbn [vlevel Nat.leb map app]; rewrite ?app_nil_r; reflexivity.
Qed.

Lemma open_in {ID} (h : history ID) s t0 : In (s, t0) (open_blocks h) -> In t0 (map fst h).
Proof.
  induction h as [|[t x] h IH] using rev_ind; [intros []|]. rewrite map_app, in_app_iff. destruct x.
  - rewrite open_entered, in_app_iff. intros [I|[I|[]]]; auto. injection I as -> ->. right. now left.
  - rewrite open_left. intros I. left. apply IH.
    destruct (open_blocks h) as [|y l _] using rev_ind; [destruct I|]. rewrite removelast_last in I. apply in_or_app. auto.
  - rewrite open_reported. auto.
Qed.

Lemma ordered_prefix {ID} (a : history ID) t x b : ordered (a ++ (t, x) :: b) -> forall t0, In t0 (map fst a) -> (t0 <= t)%Z.
Proof.
  unfold ordered. intros H t0 I. rewrite map_app in H. induction (map fst a) as [|y l IH]; [destruct I|].
  inversion_clear H. destruct I as [-> |I]; auto. rewrite Forall_forall in H1. apply H1. rewrite in_app_iff. right. now left.
Qed.

Lemma section_times (h : history test_id) : ends_ok h -> ordered h -> forall a t s k c d b, h = a ++ (t, Reported (SectionEnded s k c) d) :: b ->
  exists dd, d = Some dd /\ (0 <= dd)%Z.
Proof.
  intros E O a t s k c d b Q. destruct (E _ _ _ _ _ _ _ Q) as (t0 & -> & D). exists (t - t0)%Z. split; auto.
  assert (I : In t0 (map fst a)).
  { destruct D as [(l & b' & D & _)|(a1 & a2 & l0 & l2 & -> & D)].
    - apply (open_in a s). rewrite D. apply in_elt.
    - rewrite map_app, in_app_iff. left. apply (open_in a1 s). rewrite D. apply in_or_app. right. apply in_elt. }
  subst h. apply ordered_prefix with (1 := O) in I. lia.
Qed.

Theorem selected_times fuel lm v tests name filters predicate h b :
  timed_run_selected_tests clock fuel lm v tests name filters predicate = Ok (h, b) ->
  ordered h /\ cases_ok h /\ (forall t e d, In (t, Reported e d) h -> if timed_event e then exists dd, d = Some dd /\ (0 <= dd)%Z else d = None) /\
  (vlevel Normal <= vlevel v -> exists t0 m t run fail allowed skip c d,
    h = (t0, Reported (TestRunStarted name filters) None) :: m ++ [(t, Reported (TestRunEnded name filters run fail allowed skip c b) (Some d))] /\
    (t0 <= t - d)%Z /\ during (t - d) t m /\ (sum (case_durations m) <= d)%Z).
Proof.
  intros H. pose proof (selected_good _ _ _ _ _ _ _ _ _ H) as G. apply selected_parts in H.
  destruct H as (n & m & run & fail & allowed & skip & c & P & N & E).
  apply parts_all in P. destruct P as (A & B & C & D & F & K).
  assert (K0 : cases_ok []). { intros [|x a] ? ? ? ? ? ? ? Q; discriminate. }
  pose proof (clock_le clock monotone 0 1 ltac:(lia)) as T.
  assert (O : ordered h).
  { destruct (_ <=? _); subst h; auto.
    change ((clock 0, Reported (TestRunStarted name filters) None) :: m ++ [(clock n, Reported (TestRunEnded name filters run fail allowed skip c b) (Some (clock n - clock 1)%Z))])
      with ([(clock 0, Reported (TestRunStarted name filters) None)] ++ (m ++ [(clock n, Reported (TestRunEnded name filters run fail allowed skip c b) (Some (clock n - clock 1)%Z))])).
    apply (ordered_app _ _ (clock 0)); [repeat constructor| |repeat constructor; cbn; lia|].
    - apply (ordered_app _ _ (clock n)); auto; [repeat constructor| |repeat constructor; cbn; lia]. eapply Forall_impl; [|exact B]. cbn. intros; lia.
    - apply Forall_app. split; [eapply Forall_impl; [|exact B]; cbn; intros; lia|repeat constructor; cbn; lia]. }
  split; [exact O|]. split; [|split].
  - destruct (_ <=? _); subst h; [|apply (K [] K0)].
    intros a t id line c' s d b' Q.
    change ((clock 0, Reported (TestRunStarted name filters) None) :: m ++ [(clock n, Reported (TestRunEnded name filters run fail allowed skip c b) (Some (clock n - clock 1)%Z))])
      with (([(clock 0, Reported (TestRunStarted name filters) None)] ++ m) ++ [(clock n, Reported (TestRunEnded name filters run fail allowed skip c b) (Some (clock n - clock 1)%Z))]) in Q.
    apply split_last in Q. destruct Q as [(b'' & -> & Q)|(_ & Q & _)]; [|discriminate].
    assert (K1 : cases_ok [(clock 0, Reported (TestRunStarted name filters) None)]). { intros [|x [|y a']] ? ? ? ? ? ? ? Q'; discriminate. }
    eapply (K _ K1). exact Q.
  - intros t e d I. destruct e; cbn [timed_event];
      try (apply in_split in I; destruct I as (a & b' & I); exact (section_times _ G O _ _ _ _ _ _ _ I)).
    all: assert (X : forall t e d, In (t, Reported e d) m -> match e with SectionEnded _ _ _ => True | _ => if timed_event e then exists dd, d = Some dd /\ (0 <= dd)%Z else d = None end) by exact D.
    all: destruct (_ <=? _); subst h; [|exact (X _ _ _ I)].
    all: destruct I as [I|I]; [try discriminate I; injection I as _ _ _ <-; reflexivity|].
    all: apply in_app_or in I; destruct I as [I|[I|[]]]; [exact (X _ _ _ I)|]; try discriminate I.
    injection I as _ _ _ _ _ _ _ _ _ <-. eexists. split; [reflexivity|lia].
  - intros V. apply Nat.leb_le in V. rewrite V in E. exists (clock 0), m, (clock n), run, fail, allowed, skip, c, (clock n - clock 1)%Z.
    split; [exact E|]. replace (clock n - (clock n - clock 1))%Z with (clock 1) by lia. auto.
Qed.
End Run.

(** ** Units *)
Lemma rounded fl x : rounding fl -> (0 <= x)%Q -> (x * (16777215 # 16777216) <= fl x <= x * (16777217 # 16777216))%Q.
Proof.
  intros R P. specialize (R x). apply Qabs_Qle_condition in R. rewrite (Qabs_pos x P) in R. destruct R as [R1 R2]. split; lra.
Qed.
Lemma seconds_close fl ns : rounding fl -> (0 <= ns)%Z ->
  (Qabs (get_duration_in_seconds fl ns - inject_Z ns / inject_Z 1000000000) <= inject_Z ns / inject_Z 1000000000 * (1 # 8388607))%Q.
Proof.
  intros R P. unfold get_duration_in_seconds. assert (P' : (0 <= inject_Z ns)%Q) by (now rewrite (Zle_Qle 0) in P).
  destruct (rounded fl (inject_Z ns) R P') as [A B]. set (x := inject_Z ns) in *. set (y := fl x) in *.
  assert (P2 : (0 <= y / inject_Z 1000000000)%Q). { unfold Qdiv. change (/ inject_Z 1000000000)%Q with (1 # 1000000000)%Q. lra. }
  destruct (rounded fl _ R P2) as [C D]. set (z := fl _) in *. unfold Qdiv in *. change (/ inject_Z 1000000000)%Q with (1 # 1000000000)%Q in *.
  apply Qabs_Qle_condition. split; lra.
Qed.
Lemma microseconds fl ns : rounding fl -> (0 <= ns)%Z ->
  (Qabs (inject_Z (make_duration fl (get_duration_in_seconds fl ns)) - inject_Z ns / inject_Z 1000) <= inject_Z ns / inject_Z 1000 * (1 # 5000000) + 1)%Q.
Proof.
  intros R P. pose proof (seconds_close fl ns R P) as S. unfold make_duration. assert (P' : (0 <= inject_Z ns)%Q) by (now rewrite (Zle_Qle 0) in P).
  set (x := inject_Z ns) in *. set (y := get_duration_in_seconds fl ns) in *. unfold Qdiv in *.
  change (/ inject_Z 1000000000)%Q with (1 # 1000000000)%Q in *. change (/ inject_Z 1000)%Q with (1 # 1000)%Q.
  apply Qabs_Qle_condition in S. destruct S as [S1 S2].
  assert (P2 : (0 <= y * inject_Z 1000000)%Q). { change (inject_Z 1000000) with (1000000 # 1)%Q. lra. }
  destruct (rounded fl _ R P2) as [C D]. change (inject_Z 1000000) with (1000000 # 1)%Q in *. set (z := fl _) in *.
  pose proof (Qfloor_le z) as F1. pose proof (Qlt_floor z) as F2. rewrite inject_Z_plus in F2. set (f := inject_Z (Qfloor z)) in *. change (inject_Z 1) with 1%Q in F2.
  apply Qabs_Qle_condition. split; lra.
Qed.

Lemma not_milliseconds fl ns : rounding fl -> (1000000 <= ns)%Z ->
  (inject_Z 900 * (inject_Z ns / inject_Z 1000000) < inject_Z (make_duration fl (get_duration_in_seconds fl ns)))%Q.
Proof.
  intros R P. pose proof (microseconds fl ns R ltac:(lia)) as S. apply Qabs_Qle_condition in S. destruct S as [S _].
  assert (P' : (1000000 # 1 <= inject_Z ns)%Q) by (now rewrite (Zle_Qle 1000000) in P).
  set (x := inject_Z ns) in *. set (y := inject_Z (make_duration _ _)) in *. unfold Qdiv in *.
  change (/ inject_Z 1000000)%Q with (1 # 1000000)%Q. change (/ inject_Z 1000)%Q with (1 # 1000)%Q in *. change (inject_Z 900) with (900 # 1)%Q. lra.
Qed.
Lemma rounding_examples :
  rounding (fun x => x) /\ rounding (fun x => x * (16777217 # 16777216))%Q /\
  (get_duration_in_seconds (fun x => x) 1500000000 == 3 # 2)%Q /\
  ~ (get_duration_in_seconds (fun x => x * (16777217 # 16777216)) 1500000000 == 3 # 2)%Q /\
  make_duration (fun x => x) (3 # 2) = 1500000%Z.
Proof.
  split; [|split; [|split; [|split]]].
  - intros x. setoid_replace (x - x)%Q with 0%Q by ring. cbn. pose proof (Qabs_nonneg x). lra.
  - intros x. setoid_replace (x * (16777217 # 16777216) - x)%Q with (x * (1 # 16777216))%Q by ring. rewrite Qabs_Qmult. cbn [Qabs Z.abs]. lra.
  - reflexivity.
  - vm_compute. discriminate.
  - reflexivity.
Qed.

(** ** Examples *)
Local Open Scope string_scope.
Local Open Scope list_scope.
(** A section with two sections inside: the test is run twice. *)
Definition outer_section := mksec (quote "outer") [] 2.
Definition first_section := mksec (quote "first") [] 3.
Definition second_section := mksec (quote "second") [] 4.
Definition twice : test_case :=
  mktest (mkid (quote "a") [] [] []) 1
    (InSection outer_section (Act 1 (InSection first_section (Act 2 Nil) (InSection second_section (Act 3 Nil) Nil))) Nil).
(** A section left by an exception that is caught outside; then some work, then a check. *)
Definition late : test_case :=
  mktest (mkid (quote "b") [] [] []) 5
    (Catch (fun _ => true) false (InSection outer_section (Throw (fun _ => true) OtherExn Nil) Nil)
       (Act 1 (Act 2 (Check 6 (IsTrue (fun _ => Message (quote "x")) (fun _ => true)) false Nil Nil)))).
Definition time_limits : limits := mklimits 5 5 40 60 20 40 8 32 3 12 false (quote "1.2").
Definition timed_demo (tests : list test_case) :=
  timed_run_selected_tests Z.of_nat 5 time_limits High tests (quote "demo") [] (fun _ => Ok true).


Lemma section_total_short :
  exists (clock : nat -> Z) (fuel : nat) (lm : limits) (tests : list test_case) (name : text) (h : history test_id) (success : bool)
         (t : Z) (s : section_id) (c : counts) (d : Z),
  (forall k, clock k < clock (S k))%Z /\
  timed_run_selected_tests clock fuel lm High tests name [] (fun _ => Ok true) = Ok (h, success) /\ In (t, Reported (SectionEnded s false c) (Some d)) h /\
  (d < time_inside (fun s' => Nat.eqb (sec_line s') (sec_line s)) h)%Z.
Proof.
  exists Z.of_nat, 5, time_limits, [twice], (quote "demo"). do 2 eexists. exists 27%Z, outer_section, (mkcounts 0 0 0), 9%Z. split; [lia|]. split; [vm_compute; reflexivity|]. split; [|vm_compute; reflexivity].
  vm_compute. do 18 right. left. reflexivity.
Qed.
Lemma section_late_long :
  exists (clock : nat -> Z) (fuel : nat) (lm : limits) (tests : list test_case) (name : text) (h : history test_id) (success : bool)
         (t : Z) (s : section_id) (c : counts) (d : Z),
  (forall k, clock k < clock (S k))%Z /\
  timed_run_selected_tests clock fuel lm High tests name [] (fun _ => Ok true) = Ok (h, success) /\ In (t, Reported (SectionEnded s false c) (Some d)) h /\
  (time_inside (fun s' => Nat.eqb (sec_line s') (sec_line s)) h < d)%Z.
Proof.
  exists Z.of_nat, 5, time_limits, [late], (quote "demo"). do 2 eexists. exists 9%Z, outer_section, (mkcounts 0 0 0), 4%Z. split; [lia|]. split; [vm_compute; reflexivity|]. split; [|vm_compute; reflexivity].
  vm_compute. do 7 right. left. reflexivity.
Qed.
