(** Runs and listings of selected tests (C17, C18, C30). *)
From Verif.Spec Require Import TextSpec FilterSpec Events VerdictSpec SessionSpec CliSpec.
From Verif.Model Require Import Base Vector StringUtil Print Filter Run Cli File Session.
From Verif.Proofs Require Import Lists FilterProofs RunProofs ScopeProofs RunFacts.

(** The selected tests, and the final state of each when run alone at full verbosity. *)
Definition select (predicate : test_id -> res bool) (tests : list test_case) : list test_case :=
  filter (fun t => match predicate (t_id t) with Ok b => b | Err _ => false end) tests.

Section Runs.
Variable lm : Session.limits.
Variable fuel : nat.
Variable predicate : test_id -> res bool.
Let full := config_of lm Full.

Fixpoint cases (tests : list test_case) : res (list (test_case * state)) :=
  match tests with
  | [] => Ok []
  | t :: tests' =>
    do b <- predicate (t_id t) ;;
    if b : bool then do st <- run full fuel t [] ;; do l <- cases tests' ;; Ok ((t, st) :: l)
    else cases tests'
  end.

Lemma cases_select tests l : cases tests = Ok l ->
  map fst l = select predicate tests /\ Forall (fun x => run full fuel (fst x) [] = Ok (snd x)) l /\
  Forall (fun t => exists b, predicate (t_id t) = Ok b) tests.
Proof.
  revert l. induction tests as [|t tests IH]; intros l; cbn [cases select filter].
  - intros [= <-]. repeat constructor.
  - fold (select predicate tests). destruct (predicate (t_id t)) as [b|] eqn:P; cbn [bind]; [|discriminate]. destruct b.
    + destruct (run full fuel t []) as [st|] eqn:R; cbn [bind]; [|discriminate]. destruct (cases tests) as [l'|]; cbn [bind]; [|discriminate].
      intros [= <-]. destruct (IH _ eq_refl) as (I1 & I2 & I3). cbn [map fst]. rewrite I1. repeat constructor; eauto.
    + intros E. destruct (IH _ E) as (I1 & I2 & I3). eauto.
Qed.

Definition totals (s : summary) (l : list (test_case * state)) : summary := fold_left (fun s x => count_test s (snd x)) l s.

Lemma count_same s st st' : asserts st' = asserts st -> status st' = status st -> count_test s st' = count_test s st.
Proof. intros E1 E2. unfold count_test. now rewrite E1, E2. Qed.

Lemma run_loop_cases v tests s events :
  run_loop fuel (config_of lm v) predicate tests s events =
  match cases tests with
  | Ok l => Ok (totals s l, events ++ concat (map (fun x => filter (Events.visible v) (trace (snd x))) l))
  | Err e => Err e
  end.
Proof.
  revert s events. induction tests as [|t tests IH]; intros s events; cbn [run_loop cases].
  - cbn. now rewrite app_nil_r.
  - destruct (predicate (t_id t)) as [b|]; cbn [bind]; [|reflexivity]. destruct b; [|apply IH].
    pose proof (verbosity_filters full fuel t v events) as V. change (with_verbosity full Full) with full in V.
    change (with_verbosity full v) with (config_of lm v) in V.
    destruct (run full fuel t []) as [st|] eqn:R; cbn [bind].
    + destruct V as (st' & R' & T & A & X). rewrite R'. cbn [bind]. rewrite IH. destruct (cases tests) as [l|]; cbn [bind]; [|reflexivity].
      cbn [totals fold_left snd map concat]. rewrite (count_same _ _ _ A X), T, <- app_assoc. reflexivity.
    + now rewrite V.
Qed.

(** ** One test *)
Lemma of_body_inner id may should l : Forall (of_body id may should) l -> Forall (fun e : event => inner e = true) l.
Proof. apply Forall_impl. intros e. destruct e; cbn; auto; try tauto. Qed.

Lemma run_alone t st : run full fuel t [] = Ok st ->
  exists body c s, trace st = TestCaseStarted (t_id t) (t_line t) :: body ++ [TestCaseEnded (t_id t) (t_line t) c s] /\
    Forall (fun e => inner e = true) body /\ asserts st = c /\ status st = intern s /\ s = VerdictSpec.verdict body.
Proof.
  intros R. destruct (fail_flags (l_max_tag_length lm) (id_tags (t_id t))) as [[may should]|] eqn:FF.
  - destruct (run_shape full eq_refl fuel t [] st may should FF R) as (body & last & X). cbv zeta in X. destruct X as (X1 & X2 & X3 & X4 & _ & X6).
    exists (body ++ last), (tally (body ++ last)), (VerdictSpec.verdict (body ++ last)). split; [rewrite X1; cbn; now rewrite <- app_assoc|].
    split; [|auto]. apply Forall_app. split; [eapply of_body_inner; eauto|]. rewrite X6.
    destruct (should && _); [|constructor]. constructor; [|constructor]. destruct (VerdictSpec.verdict body); reflexivity.
  - unfold run in R. change (cf_max_tag_length full) with (l_max_tag_length lm) in R. rewrite FF in R. discriminate.
Qed.

Lemma ended_app {ID} (a b : list (Events.event ID)) : ended (a ++ b) = ended a ++ ended b.
Proof. unfold ended. apply flat_map_app. Qed.
Lemma started_app {ID} (a b : list (Events.event ID)) : started (a ++ b) = started a ++ started b.
Proof. unfold started. apply flat_map_app. Qed.
Lemma inner_ended {ID} (l : list (Events.event ID)) : Forall (fun e => inner e = true) l -> ended l = [] /\ started l = [].
Proof. induction 1 as [|e l E _ [I1 I2]]; [split; reflexivity|]. destruct e; cbn in *; try discriminate; auto. Qed.

Lemma case_events t body c s : Forall (fun e : event => inner e = true) body ->
  ended (TestCaseStarted (t_id t) (t_line t) :: body ++ [TestCaseEnded (t_id t) (t_line t) c s]) = [(t_id t, c, s)] /\
  started (TestCaseStarted (t_id t) (t_line t) :: body ++ [TestCaseEnded (t_id t) (t_line t) c s]) = [(t_id t, t_line t)].
Proof.
  intros F. destruct (inner_ended _ F) as [E1 E2].
  change (TestCaseStarted (t_id t) (t_line t) :: body ++ [TestCaseEnded (t_id t) (t_line t) c s])
    with ([TestCaseStarted (t_id t) (t_line t)] ++ body ++ [TestCaseEnded (t_id t) (t_line t) c s]).
  rewrite !ended_app, !started_app, E1, E2. split; reflexivity.
Qed.

(** ** Totals *)
Definition add_all (s : summary) (l : list (test_id * counts * case_state)) : summary :=
  mksummary (s_success s && (in_state Failed l =? 0)) (s_run s + length l) (s_fail s + in_state Failed l)
    (s_allowed_fail s + in_state AllowedFail l) (s_skip s + in_state Skipped l)
    (mkcounts (n_all (s_counts s) + total n_all l) (n_failed (s_counts s) + total n_failed l) (n_allowed (s_counts s) + total n_allowed l)).

Lemma add_all_cons s id c cs l st : asserts st = c -> status st = intern cs -> add_all s ((id, c, cs) :: l) = add_all (count_test s st) l.
Proof.
  intros A X. unfold count_test. rewrite A, X. unfold add_all, in_state, total. cbn [filter map list_sum fold_right length snd fst].
  destruct cs; cbn [intern same_state severity Nat.eqb s_success s_run s_fail s_allowed_fail s_skip s_counts n_all n_failed n_allowed length];
    f_equal; try lia; try (f_equal; unfold list_sum; lia); try (rewrite andb_false_r; reflexivity).
Qed.

Lemma totals_ended l s : Forall (fun x => run full fuel (fst x) [] = Ok (snd x)) l ->
  totals s l = add_all s (ended (concat (map (fun x => trace (snd x)) l))).
Proof.
  revert s. induction l as [|[t st] l IH]; intros s F.
  - unfold add_all. cbn. destruct s as [a b c d e [f g h]]. cbn. now rewrite !Nat.add_0_r, andb_true_r.
  - inversion F as [|? ? R F']; subst. cbn [fst snd] in R. destruct (run_alone t st R) as (body & c & cs & T & I & A & X & _).
    cbn [totals fold_left map concat snd]. rewrite T, ended_app. destruct (case_events t body c cs I) as [E _]. rewrite E. cbn [app].
    rewrite (add_all_cons _ _ _ _ _ st A X), <- IH by exact F'. reflexivity.
Qed.

Lemma cases_started l : Forall (fun x => run full fuel (fst x) [] = Ok (snd x)) l ->
  started (concat (map (fun x => trace (snd x)) l)) = map (fun t => (t_id t, t_line t)) (map fst l) /\
  map (fun x => fst (fst x)) (ended (concat (map (fun x => trace (snd x)) l))) = map t_id (map fst l).
Proof.
  induction 1 as [|[t st] l R F [I1 I2]]; [split; reflexivity|]. cbn [fst snd] in R.
  destruct (run_alone t st R) as (body & c & cs & T & I & A & X & _). cbn [map concat fst snd].
  rewrite T, started_app, ended_app, map_app. destruct (case_events t body c cs I) as [E1 E2]. rewrite E1, E2, I1, I2. split; reflexivity.
Qed.

(** ** C18, C30 *)
Definition report_at (v : verbosity) (e : event) : list event := if vlevel Normal <=? vlevel v then [e] else [].

Lemma run_selected v tests name filters :
  run_selected_tests lm fuel v tests name filters predicate =
  match cases tests with
  | Ok l =>
    let all := concat (map (fun x => trace (snd x)) l) in
    Ok (report_at v (TestRunStarted name filters) ++ filter (Events.visible v) all ++ report_at v (summary_of name filters (ended all)),
        in_state Failed (ended all) =? 0)
  | Err e => Err e
  end.
Proof.
  unfold run_selected_tests. cbv zeta. rewrite run_loop_cases. destruct (cases tests) as [l|] eqn:C; cbn [bind]; [|reflexivity].
  destruct (cases_select _ _ C) as (_ & F & _). rewrite (totals_ended l _ F).
  set (all := concat (map (fun x => trace (snd x)) l)). unfold add_all. cbn [s_success s_run s_fail s_allowed_fail s_skip s_counts n_all n_failed n_allowed andb].
  rewrite !Nat.add_0_l. unfold report_at, summary_of. rewrite <- app_assoc. do 5 f_equal.
  unfold all. clear. induction l as [|x l IH]; cbn [map concat]; [reflexivity|]. now rewrite IH, filter_app.
Qed.

Lemma visible_full (l : list event) : filter (Events.visible Full) l = l.
Proof. induction l as [|e l IH]; [reflexivity|]. cbn [filter]. rewrite IH. destruct e; reflexivity. Qed.

Lemma run_summary tests name filters events success :
  run_selected_tests lm fuel Full tests name filters predicate = Ok (events, success) ->
  exists parts, let cases := concat parts in
    events = [TestRunStarted name filters] ++ cases ++ [summary_of name filters (ended cases)] /\
    success = (in_state Failed (ended cases) =? 0) /\
    Forall (fun t => exists b, predicate (t_id t) = Ok b) tests /\
    Forall2 (fun t part => exists st body c s,
      run full fuel t [] = Ok st /\ trace st = part /\
      part = [TestCaseStarted (t_id t) (t_line t)] ++ body ++ [TestCaseEnded (t_id t) (t_line t) c s] /\
      Forall (fun e => inner e = true) body) (select predicate tests) parts.
Proof.
  rewrite run_selected. destruct (cases tests) as [l|] eqn:C; [|discriminate]. intros [= <- <-].
  destruct (cases_select _ _ C) as (E & F & P). exists (map (fun x => trace (snd x)) l). cbv zeta. rewrite visible_full.
  split; [reflexivity|]. split; [reflexivity|]. split; [exact P|]. rewrite <- E. clear E C. induction F as [|[t st] l R F IH]; cbn [map]; constructor; auto.
  cbn [fst snd] in *. destruct (run_alone t st R) as (body & c & s & T & I & _). exists st, body, c, s. auto.
Qed.

Lemma run_selected_verbosity v tests name filters :
  run_selected_tests lm fuel v tests name filters predicate =
  match run_selected_tests lm fuel Full tests name filters predicate with
  | Ok (events, success) => Ok (filter (Events.visible v) events, success)
  | Err e => Err e
  end.
Proof.
  rewrite !run_selected. destruct (cases tests) as [l|]; [|reflexivity]. cbv zeta. rewrite visible_full, !filter_app.
  unfold report_at. destruct v; reflexivity.
Qed.

(** ** C17 *)
Lemma list_loop_select tests : Forall (fun t => exists b, predicate (t_id t) = Ok b) tests ->
  list_loop predicate tests = Ok (map (fun t => TestCaseListed (t_id t) (t_line t)) (select predicate tests)).
Proof.
  induction 1 as [|t tests [b P] F IH]; [reflexivity|]. cbn [list_loop]. rewrite P. cbn [bind]. rewrite IH. cbn [bind].
  assert (E : select predicate (t :: tests) = if b then t :: select predicate tests else select predicate tests) by (unfold select; cbn [filter]; rewrite P; reflexivity).
  rewrite E. destruct b; reflexivity.
Qed.
Lemma list_loop_ok tests l : list_loop predicate tests = Ok l -> Forall (fun t => exists b, predicate (t_id t) = Ok b) tests.
Proof.
  revert l. induction tests as [|t tests IH]; intros l; [constructor|]. cbn [list_loop]. destruct (predicate (t_id t)) as [b|] eqn:P; cbn [bind]; [|discriminate].
  destruct (list_loop predicate tests) as [l'|]; cbn [bind]; [|discriminate]. intros _. constructor; eauto.
Qed.
Lemma listed_map (l : list test_case) : listed (map (fun t => TestCaseListed (t_id t) (t_line t)) l) = map (fun t => (t_id t, t_line t)) l.
Proof. induction l as [|t l IH]; [reflexivity|]. cbn. now rewrite <- IH. Qed.
Lemma listed_app {ID} (a b : list (Events.event ID)) : listed (a ++ b) = listed a ++ listed b.
Proof. unfold listed. apply flat_map_app. Qed.

Lemma list_events_select tests l : list_events tests predicate = Ok l ->
  l = [ListTestRunStarted] ++ map (fun t => TestCaseListed (t_id t) (t_line t)) (select predicate tests) ++ [ListTestRunEnded] /\
  listed l = map (fun t => (t_id t, t_line t)) (select predicate tests) /\ Forall (fun t => exists b, predicate (t_id t) = Ok b) tests.
Proof.
  unfold list_events. destruct (list_loop predicate tests) as [l'|] eqn:E; cbn [bind]; [|discriminate]. intros [= <-].
  pose proof (list_loop_ok _ _ E) as P. rewrite (list_loop_select _ P) in E. injection E as <-. split; [reflexivity|]. split; [|exact P].
  change (listed (ListTestRunStarted :: ?x)) with (listed x). cbn [listed flat_map]. fold (@listed test_id). rewrite listed_app, listed_map. cbn. now rewrite app_nil_r.
Qed.
End Runs.
