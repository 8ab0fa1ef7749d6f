(** The end of a report (C115). *)
From Coq Require Import Lia.
From Verif.Spec Require Import TextSpec NumberSpec FilterSpec PrintSpec CliSpec EscapeSpec Events XmlSpec ServiceSpec ConsoleSpec VerdictSpec RunSpec TreeSpec SessionSpec ProgramSpec ShardSpec FailureSpec EndingSpec.
From Verif.Model Require Import Base Vector StringUtil Integer Print Filter Run Cli File Session Reporters Program.
From Verif.Spec Require Import ProgramClaims LinkClaims FailureClaims EndingClaims.
From Verif.Proofs Require Import Lists FilterProofs RunProofs RunFacts ScopeProofs SessionProofs SessionFacts ConfigProofs CliProofs CliFacts ProgramProofs PrintProofs EscapeProofs EndToEndProofs ChoiceProofs WholeProofs HistoryProofs OutputProofs XmlProofs ReportProofs ServiceProofs ConsoleProofs XmlLevel ShardProofs LinkProofs LinkTexts AddProofs WarningProofs FailureProofs.
Local Open Scope list_scope.

Section Ending.
Variable lm : Session.limits.
Variable fuel : nat.
Variable file : event -> str.
Variable duration : event -> option str.
Notation report := (Program.report lm file duration).
Notation report_list := (EndToEndProofs.report_list lm file duration).
Notation mm := (l_max_message_length lm).
Notation mn := (l_max_test_name_length lm).

(** ** Counting *)
Lemma worst_success' s : worst s Success = s.
Proof. destruct s; reflexivity. Qed.
Lemma verdict_whole (a z : event) body : VerdictSpec.says a = Success -> VerdictSpec.says z = Success ->
  VerdictSpec.verdict (a :: body ++ [z]) = VerdictSpec.verdict body.
Proof.
  intros A Z. unfold VerdictSpec.verdict. cbn [fold_left]. rewrite A. change (worst Success Success) with Success.
  rewrite fold_left_app. cbn [fold_left]. rewrite Z. apply worst_success'.
Qed.
Lemma tally_whole t l c s (body : list event) : tally (TestCaseStarted t l :: body ++ [TestCaseEnded t l c s]) = tally body.
Proof. unfold tally. cbn [fold_right tally1]. rewrite fold_right_app. reflexivity. Qed.

Lemma ended_part t st : run (config_of lm Full) fuel t [] = Ok st -> ended (trace st) = [(t_id t, tally (trace st), VerdictSpec.verdict (trace st))].
Proof.
  intros R. destruct (fail_flags (l_max_tag_length lm) (id_tags (t_id t))) as [[may should]|] eqn:FF.
  - destruct (run_shape (config_of lm Full) eq_refl fuel t [] st may should FF R) as (body & last & X). cbv zeta in X. destruct X as (X1 & _ & _ & X4 & _ & X6).
    assert (IN : Forall (fun e : event => inner e = true) (body ++ last)).
    { apply Forall_app. split; [eapply of_body_inner; eauto|]. rewrite X6. destruct (should && _); [|constructor]. constructor; [|constructor]. destruct (VerdictSpec.verdict body); reflexivity. }
    set (b := body ++ last) in *. assert (T : trace st = TestCaseStarted (t_id t) (t_line t) :: b ++ [TestCaseEnded (t_id t) (t_line t) (tally b) (VerdictSpec.verdict b)]).
    { rewrite X1. unfold b. cbn [app]. now rewrite <- app_assoc. }
    rewrite T, tally_whole, verdict_whole by reflexivity. unfold ended. cbn [flat_map app]. rewrite flat_map_app. cbn [flat_map app].
    assert (N : flat_map (fun e : event => match e with TestCaseEnded id _ c s => [(id, c, s)] | _ => [] end) b = []).
    { clear - IN. induction IN as [|e l E _ IH]; [reflexivity|]. cbn [flat_map]. rewrite IH. destruct e; try discriminate; reflexivity. }
    rewrite N. reflexivity.
  - unfold run in R. change (cf_max_tag_length (config_of lm Full)) with (l_max_tag_length lm) in R. rewrite FF in R. discriminate.
Qed.
Lemma ended_parts (parts : list (test_case * list event)) : what_happened lm fuel parts ->
  ended (List.concat (map snd parts)) = map (fun p => (t_id (fst p), tally (snd p), VerdictSpec.verdict (snd p))) parts.
Proof.
  induction 1 as [|p l (st & R & T) _ IH]; [reflexivity|]. cbn [map List.concat]. rewrite ended_app, IH, <- T, (ended_part _ _ R). reflexivity.
Qed.
Lemma failure_tally (l : list event) :
  n_failed (tally l) = length (filter (fun e => is_failure e && same_state (VerdictSpec.says e) Failed) l) /\
  n_allowed (tally l) = length (filter (fun e => is_failure e && same_state (VerdictSpec.says e) AllowedFail) l).
Proof.
  induction l as [|e l (I1 & I2)]; [split; reflexivity|]. destruct e; cbn [tally fold_right tally1 filter is_failure andb VerdictSpec.says] in *; auto.
  fold (tally l). destruct (expected || allowed); cbn [same_state severity Nat.eqb n_failed n_allowed length]; split; congruence.
Qed.
Lemma total_checks (parts : list (test_case * list event)) :
  let l := map (fun p => (t_id (fst p), tally (snd p), VerdictSpec.verdict (snd p))) parts in
  total n_all l = checks (map snd parts) /\ total n_failed l = checks_that Failed (map snd parts) /\ total n_allowed l = checks_that AllowedFail (map snd parts).
Proof.
  cbv zeta. unfold total, checks, checks_that. induction parts as [|p l (I1 & I2 & I3)]; [repeat split; reflexivity|]. cbn [map List.concat fst snd]. rewrite !filter_app, !app_length.
  destruct (tally_length (snd p)) as (A & _). destruct (failure_tally (snd p)) as (B & C). unfold list_sum in *. cbn [fold_right]. lia.
Qed.
Lemma state_tests s (parts : list (test_case * list event)) :
  in_state s (map (fun p => (t_id (fst p), tally (snd p), VerdictSpec.verdict (snd p))) parts) = tests_with s (map snd parts).
Proof.
  unfold in_state, tests_with. induction parts as [|p l IH]; [reflexivity|]. cbn [map filter fst snd]. destruct (same_state _ s); cbn [length]; now rewrite IH.
Qed.
Definition last_event name fs (told : list (list event)) : event :=
  TestRunEnded name fs (length told) (tests_with Failed told) (tests_with AllowedFail told) (tests_with Skipped told)
    (mkcounts (checks told) (checks_that Failed told) (checks_that AllowedFail told)) (tests_with Failed told =? 0).
Lemma summary_told name fs parts : what_happened lm fuel parts -> summary_of name fs (ended (List.concat (map snd parts))) = last_event name fs (map snd parts).
Proof.
  intros W. rewrite (ended_parts _ W). unfold summary_of, last_event. destruct (total_checks parts) as (-> & -> & ->). rewrite !state_tests, !map_length. reflexivity.
Qed.
Lemma tests_all (told : list (list event)) : tests_with Success told + tests_with Skipped told + tests_with AllowedFail told + tests_with Failed told = length told.
Proof. unfold tests_with. induction told as [|l t IH]; [reflexivity|]. cbn [filter length]. destruct (VerdictSpec.verdict l); cbn [same_state severity Nat.eqb length]; lia. Qed.
Lemma checks_all (told : list (list event)) : checks_that Failed told + checks_that AllowedFail told <= checks told.
Proof.
  unfold checks_that, checks. generalize (List.concat told). intros l. destruct (failure_tally l) as (<- & <-). destruct (tally_length l) as (<- & E). rewrite E.
  destruct (tally_length l) as (A & _). rewrite A. apply failure_assertion.
Qed.
Lemma no_test_failed (parts : list (test_case * list event)) : a_check_failed parts <-> tests_with Failed (map snd parts) <> 0.
Proof.
  unfold a_check_failed, tests_with. induction parts as [|p l IH]; cbn [map filter].
  - cbn. split; [intros (p & e & [] & _)|congruence].
  - assert (V : same_state (VerdictSpec.verdict (snd p)) Failed = true <-> VerdictSpec.verdict (snd p) = Failed) by (destruct (VerdictSpec.verdict (snd p)); cbn; intuition congruence).
    split.
    + intros (q & e & [<-|I] & J & S).
      * assert (X : VerdictSpec.verdict (snd p) = Failed) by (apply FailureProofs.verdict_failed; eauto). rewrite X. cbn. lia.
      * assert (X : exists p e, In p l /\ In e (snd p) /\ VerdictSpec.says e = Failed) by eauto. apply IH in X. destruct (same_state _ _); cbn [length]; [lia|exact X].
    + intros H. destruct (same_state _ _) eqn:E.
      * assert (E' : VerdictSpec.verdict (snd p) = Failed) by (apply V; reflexivity). apply FailureProofs.verdict_failed in E' as (e & J & S). exists p, e. split; [now left|auto].
      * apply IH in H as (q & e & I & J). exists q, e. split; [now right|exact J].
Qed.
Lemma range_below a b : a <= b -> in_range b -> in_range a.
Proof. unfold in_range. lia. Qed.

(** ** The last event *)
Lemma console_last colours name fs told counter counter' out : 32 <= mm -> (forall e d, duration e = Some d -> length d <= mm) ->
  console_report mm mn (l_version lm) colours file duration counter (last_event name fs told) = Ok (counter', out) ->
  in_range (length told) -> in_range (checks told) -> console_ending colours (duration (last_event name fs told)) told (List.concat out).
Proof.
  intros B D E R1 R2. pose proof (tests_all told) as TA.
  assert (RF : in_range (tests_with Failed told)) by (eapply range_below; [|exact R1]; lia). assert (RS : in_range (tests_with Skipped told)) by (eapply range_below; [|exact R1]; lia).
  destruct (decimal_short _ R1) as ((_ & L1) & _ & W1). destruct (decimal_short _ RF) as ((_ & L2) & _ & W2). destruct (decimal_short _ RS) as ((_ & L3) & _ & W3). destruct (decimal_short _ R2) as ((_ & L4) & _ & W4).
  destruct (event_look mm mn (l_version lm) colours file duration B counter (last_event name fs told)) as (calls & E1 & L).
  { unfold last_event. cbn [displayable n_all]. unfold short_number, short_duration, text, str in *. repeat split; try lia. fold (last_event name fs told). specialize (D (last_event name fs told)). destruct (duration _); [auto|exact I]. }
  unfold console_report in E. rewrite E1 in E. cbn [bind] in E. destruct (look_prints _ _ _ L) as (o & E2 & C). rewrite E2 in E. cbn [bind] in E. injection E as _ <-. rewrite C.
  unfold console_ending. cbv zeta. exists (decimal (length told)), (decimal (tests_with Failed told)), (decimal (tests_with Skipped told)), (decimal (checks told)).
  unfold numeral. split; [exact W1|]. split; [exact W2|]. split; [exact W3|]. split; [exact W4|].
  unfold last_event at 1. cbn [event_text]. fold (last_event name fs told). unfold summary_text, rule. cbn [n_all]. rewrite <- !app_assoc. reflexivity.
Qed.

Lemma minus2_ok a b c f k x : minus2 a b c f k = Ok x -> b + c <= a /\ with_text (xml_make_string (decimal (a - b - c))) f k = Ok x.
Proof.
  unfold minus2, csub. destruct (b <=? a) eqn:L1; cbn [bind]; [|discriminate]. destruct (c <=? a - b) eqn:L2; cbn [bind]; [|discriminate].
  apply Nat.leb_le in L1, L2. intros H. split; [lia|exact H].
Qed.
Lemma blank_indent k : blank (get_indent k).
Proof. unfold blank, get_indent. apply Forall_forall. intros c I. now apply repeat_spec in I. Qed.

Lemma xml_last name fs told k k' out : xml_report mm mn (l_version lm) file duration (last_event name fs told) k = Ok (k', out) ->
  in_range (length told) -> in_range (checks told) -> xml_ending told (List.concat out).
Proof.
  intros E R1 R2. pose proof (tests_all told) as TA. pose proof (checks_all told) as CA.
  unfold last_event in E. cbn [xml_report n_all n_failed n_allowed] in E.
  apply andthen_ok in E as (k1 & o1 & o2 & E1 & E & ->). apply andthen_ok in E as (k2 & o3 & o4 & E3 & E4 & ->).
  assert (N : forall n f k x, in_range n -> number n f k = Ok x -> f (decimal n) k = Ok x).
  { intros n f kk x R H. unfold number in H. apply with_ok in H as (s & MS & H). destruct (decimal_string n R) as (DS & _). rewrite DS in MS. injection MS as <-. exact H. }
  assert (W : forall n f k x, in_range n -> with_text (xml_make_string (decimal n)) f k = Ok x -> f (decimal n) k = Ok x) by exact N.
  assert (Q : forall n, in_range n -> numeral n (decimal n)) by (intros n R; destruct (decimal_short n R) as (_ & _ & X); exact X).
  assert (RA : forall n, n <= length told -> in_range n) by (intros n H; eapply range_below; [exact H|exact R1]).
  assert (RC : forall n, n <= checks told -> in_range n) by (intros n H; eapply range_below; [exact H|exact R2]).
  apply minus2_ok in E1 as (_ & E1). apply W in E1; [|apply RC; lia]. apply N in E1; [|apply RC; lia]. apply N in E1; [|apply RC; lia]. apply N in E1; [|apply RA; lia].
  apply minus2_ok in E3 as (_ & E3). apply W in E3; [|apply RA; lia]. apply N in E3; [|apply RA; lia]. apply N in E3; [|apply RA; lia]. apply N in E3; [|apply RA; lia].
  apply (emits_ok _ _ _ _ _ _ (emits_node mm _ _ _)) in E1. apply (emits_ok _ _ _ _ _ _ (emits_node mm _ _ _)) in E3.
  destruct k2 as [|k2]; [discriminate|]. apply (emits_ok _ _ _ _ _ _ (emits_close mm _ _)) in E4.
  rewrite !concat_app, E1, E3, E4.
  exists (get_indent k), (get_indent k1), (get_indent k2), (decimal (checks told - checks_that Failed told - checks_that AllowedFail told)),
    (decimal (checks_that Failed told)), (decimal (checks_that AllowedFail told)), (decimal (tests_with Skipped told)),
    (decimal (length told - tests_with Failed told - tests_with AllowedFail told)), (decimal (tests_with Failed told)), (decimal (tests_with AllowedFail told)),
    (checks told - checks_that Failed told - checks_that AllowedFail told), (length told - tests_with Failed told - tests_with AllowedFail told).
  split; [apply blank_indent|]. split; [apply blank_indent|]. split; [apply blank_indent|].
  split; [apply Q, RC; lia|]. split; [lia|]. split; [apply Q, RC; lia|]. split; [apply Q, RC; lia|]. split; [apply Q, RA; lia|]. split; [apply Q, RA; lia|]. split; [lia|].
  split; [apply Q, RA; lia|]. split; [apply Q, RA; lia|].
  unfold result_element, attrs, feed, double_quote. cbn [flat_map fst snd]. unfold text, str. rewrite !app_nil_r, <- !app_assoc. reflexivity.
Qed.

(** ** Programs *)
Theorem ending_shown (ending : list (list event) -> text -> Prop) can_open r path argv out code : length argv <= l_max_command_line_args lm -> acceptable argv -> asks_run (setting (read argv)) -> g_to_file r = false ->
  (forall printed args r1 out1, parse_arguments (cli_of lm) path argv = Ok (printed, Some args) -> configure lm can_open r args = Ok (r1, out1) -> g_verbose r1 <> Quiet /\
     exists K : registry -> Prop, K r1 /\ forall r2 e r3 t, K r2 -> report r2 e = Ok (r3, t) -> K r3 /\
       (forall name fs told, e = last_event name fs told -> in_range (length told) -> in_range (checks told) -> ending told (List.concat t))) ->
  main_program lm fuel file duration can_open r path argv = Ok (out, code) -> ends_truly ending lm fuel r argv out code.
Proof.
  intros L ACC AR TF H M. destruct (program_reads lm fuel file duration can_open r path argv L ACC AR TF) as (printed & args & PA & E). rewrite E in M. clear E.
  destruct (configure lm can_open r args) as [[r1 out1]|] eqn:C; [|discriminate]. unfold tested in M.
  destruct (run_selected_tests lm fuel Full (g_tests r) _ _ _) as [[events success]|] eqn:RS; [|discriminate].
  destruct (tested_failed _ _ _ _ _ _ _ _ RS) as (parts & MF & WH & -> & S).
  destruct (report_list r1 _) as [[r3 ts]|] eqn:RP; [|discriminate]. injection M as <- <-.
  destruct (H _ _ _ _ PA C) as (NQ & K & K1 & KR).
  destruct (list_pieces lm file duration K (fun e p => forall name fs told, e = last_event name fs told -> in_range (length told) -> in_range (checks told) -> ending told p) _ KR _ _ _ K1 RP) as (pieces & CP & F2).
  unfold events_of_run in F2. rewrite (summary_told _ _ _ WH) in F2. rewrite !filter_app in F2.
  assert (V : forall name fs told, filter (Events.visible (g_verbose r1)) [last_event name fs told] = [last_event name fs told]) by (intros; cbn; destruct (g_verbose r1); congruence || reflexivity).
  rewrite V in F2. rewrite app_assoc in F2. apply Forall2_app_inv_l in F2 as (p1 & p2 & _ & F2 & ->). inversion F2 as [|e p l l' X F3]; subst. inversion F3; subst.
  exists (kept (picks lm (filters (read argv)))), parts, (List.concat p1), p. cbv zeta.
  split; [apply picks_chosen|]. split; [exact MF|]. split; [exact WH|]. split; [|split].
  - assert (CQ : List.concat p1 ++ p = List.concat ts) by (rewrite CP, concat_app; cbn [List.concat]; now rewrite app_nil_r). rewrite CQ.
    pose proof (configure_effect _ _ _ _ _ _ C) as CE. destruct (parsed_options (cli_of lm) _ _ _ _ L PA) as [G _].
    assert (WF : g_to_file r1 = has_file argv).
    { unfold has_file. rewrite <- (G (quote "--out") ltac:(discriminate)). change quote with lit. destruct (get_option args (lit "--out")).
      - destruct CE as (b & f & p' & v' & _ & _ & _ & _ & _ & F & T). now rewrite T.
      - destruct CE as (_ & _ & T). now rewrite T, TF. }
    destruct (closing_text r1) as [Q1 Q2]. apply (goes lm can_open r path argv printed args r1 out1 _ _ L ACC PA C).
    rewrite !console_text_app, !file_text_app, console_text_printed, file_text_printed, console_text_put, file_text_put, Q1, Q2, (configure_file_text _ _ _ _ _ _ C), WF, !app_nil_r; cbn [app].
    destruct (has_file argv); rewrite ?app_nil_r, <- ?app_assoc; auto.
  - exact (X _ _ _ eq_refl).
  - rewrite no_test_failed in S. destruct (tests_with Failed (map snd parts) =? 0) eqn:Z; destruct success; try reflexivity.
    + apply Nat.eqb_eq in Z. exfalso. now apply S.
    + apply Nat.eqb_neq in Z. apply S in Z. discriminate.
Qed.

Theorem console_ends can_open r path argv out code : 32 <= mm -> (forall e d, duration e = Some d -> length d <= mm) ->
  length argv <= l_max_command_line_args lm -> acceptable argv -> asks_run (setting (read argv)) -> g_to_file r = false ->
  console_asked lm file duration r argv -> asked_verbosity (setting (read argv) (quote "--verbosity")) (g_verbose r) <> Quiet ->
  main_program lm fuel file duration can_open r path argv = Ok (out, code) ->
  exists colours, report_colours r argv colours /\ ends_truly (fun told last => exists e, console_ending colours (duration e) told last) lm fuel r argv out code.
Proof.
  intros B D L ACC AR TF CA NQ M. destruct (program_reads lm fuel file duration can_open r path argv L ACC AR TF) as (printed & args & PA & E).
  destruct (configure lm can_open r args) as [[r1 out1]|] eqn:C; [|rewrite E in M; discriminate].
  exists (g_with_color r1). split; [exact (colours_chosen lm file duration can_open r path argv printed args r1 out1 L PA C CA)|]. eapply ending_shown; eauto. intros printed' args' r1' out1' PA' C'. rewrite PA in PA'. injection PA' as <- <-. rewrite C in C'. injection C' as <- <-. clear E M.
  destruct (choice lm file duration can_open r path argv printed args r1 out1 L PA C) as (_ & _ & CH1 & CH2). cbv zeta in CH1, CH2.
  destruct (parsed_options (cli_of lm) _ _ _ _ L PA) as [GO _]. specialize (GO (quote "--reporter") ltac:(discriminate)).
  destruct CA as [(N & GR)|(arg & i & SR & N & F)].
  - destruct (CH1 N) as (V1 & R1 & _). rewrite GR in R1. split; [now rewrite V1|]. exists (fun r => exists x, r = set_storage r1 x). split; [exists (g_storage r1); now destruct r1|].
    intros r2 e r3 t (x & ->). unfold Program.report. cbn [g_reporter set_storage g_storage g_with_color]. rewrite R1.
    destruct (console_report _ _ _ _ _ _ _ e) as [[c1 o1]|] eqn:RE; cbn [bind]; [|discriminate]. intros [= <- <-]. split; [exists (Default c1); reflexivity|].
    intros name fs told -> R2 R3. exists (last_event name fs told). eapply console_last; eauto.
  - rewrite SR in GO. destruct (CH2 arg SR) as (_ & H). destruct (H i _ F N) as (H1 & _). destruct (H1 eq_refl) as (V1 & R1). split; [now rewrite V1|].
    pose proof C as C'. apply configure_prepared in C' as (r4 & o4 & o5 & (_ & P2 & _) & S & _). change quote with lit in *.
    destruct (get_option args (lit "--reporter")) as [a|]; [|discriminate]. cbn [option_map reporter_step] in *. unfold value_of in S. destruct (CliSpec.a_value a) as [w|]; [|discriminate].
    injection GO as ->. cbn [bind] in S. rewrite <- P2 in F. destruct (console_chosen lm file duration _ _ _ _ _ F N S) as (col & E1).
    assert (S1 : g_storage r1 = Holds (console_reporter lm file duration) 0) by now rewrite E1.
    exists (fun r => exists c, r = set_storage r1 (Holds (console_reporter lm file duration) c)). split; [exists 0; rewrite <- S1; now destruct r1|].
    intros r2 e r3 t (x & ->). unfold Program.report. cbn [g_reporter set_storage g_storage]. rewrite R1. cbn [r_report console_reporter modes_of m_color g_with_color set_storage].
    destruct (console_report _ _ _ _ _ _ _ e) as [[c1 o1]|] eqn:RE; cbn [bind]; [|discriminate]. intros [= <- <-]. split; [exists c1; reflexivity|].
    intros name fs told -> R2 R3. exists (last_event name fs told). eapply console_last; eauto.
Qed.
Theorem xml_ends can_open r path argv out code : length argv <= l_max_command_line_args lm -> acceptable argv -> asks_run (setting (read argv)) -> g_to_file r = false ->
  reporter_asked (xml_reporter lm file duration) r argv -> main_program lm fuel file duration can_open r path argv = Ok (out, code) ->
  ends_truly xml_ending lm fuel r argv out code.
Proof.
  intros L ACC AR TF (arg & i & SR & N & F). apply ending_shown; auto. intros printed args r1 out1 PA C.
  destruct (choice lm file duration can_open r path argv printed args r1 out1 L PA C) as (_ & _ & _ & CH2). cbv zeta in CH2. destruct (CH2 arg SR) as (_ & H). destruct (H i _ F N) as (_ & H1). destruct (H1 (or_introl eq_refl)) as (V1 & _).
  split; [rewrite V1; destruct (asked_verbosity _ _); discriminate|].
  destruct (chosen_registry lm file duration can_open r path argv printed args r1 out1 arg _ L PA C SR (ex_intro _ i F) N) as (H2 & _). destruct (H2 eq_refl) as (j & R2 & S1).
  exists (fun r => exists k, r = set_storage r1 (Holds (xml_reporter lm file duration) k)). split; [exists 0; rewrite <- S1; now destruct r1|].
  intros r2 e r3 t (k & ->). unfold Program.report. cbn [g_reporter set_storage g_storage]. rewrite R2. cbn [r_report xml_reporter].
  destruct (xml_report _ _ _ _ _ e k) as [[k1 o]|] eqn:RE; cbn [bind]; [|discriminate]. intros [= <- <-]. split; [exists k1; reflexivity|]. intros name fs told -> R3 R4. eapply xml_last; eauto.
Qed.
End Ending.
