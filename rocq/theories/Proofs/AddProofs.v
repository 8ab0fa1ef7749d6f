(** Programs to which tests are added (C104). *)
From Coq Require Import Lia.
From Verif.Spec Require Import TextSpec FilterSpec PrintSpec CliSpec Events VerdictSpec RunSpec TreeSpec SessionSpec ProgramSpec ShardSpec.
From Verif.Model Require Import Base Vector StringUtil Print Filter Run Cli File Session Reporters Program.
From Verif.Spec Require Import ProgramClaims LinkClaims.
From Verif.Proofs Require Import Lists FilterProofs RunProofs RunFacts SessionProofs SessionFacts ConfigProofs CliProofs CliFacts ProgramProofs EndToEndProofs ChoiceProofs WholeProofs HistoryProofs OutputProofs XmlProofs ReportProofs XmlLevel ShardProofs LinkProofs LinkTexts WarningProofs.
Local Open Scope list_scope.

Lemma same_with r r' : same_but_tests r r' -> r' = with_tests (g_tests r') r.
Proof. destruct r, r'. intros E. unfold same_but_tests in E. cbn in E. unfold with_tests. cbn. destruct E as (-> & -> & -> & -> & -> & -> & ->). reflexivity. Qed.
Lemma same_self r : with_tests (g_tests r) r = r.
Proof. now destruct r. Qed.

Section Added.
Variable lm : Session.limits.
Variable fuel : nat.
Variable file : event -> str.
Variable duration : event -> option str.
Notation report := (Program.report lm file duration).
Notation report_list := (EndToEndProofs.report_list lm file duration).

(** ** The tests of a program matter only through their run *)
Lemma print_all_with l r texts : print_all (with_tests l r) texts = print_all r texts.
Proof. induction texts as [|s texts IH]; [reflexivity|]. cbn [print_all]. now rewrite IH. Qed.
Lemma perform_with l o : forall r, perform lm file duration (with_tests l r) o = lift l (perform lm file duration r o).
Proof.
  induction o as [|x o IH]; intros r; cbn [perform]; [reflexivity|].
  assert (S : forall r1, (do (r2, rest) <- perform lm file duration (with_tests l r1) o ;; Ok (r2, x :: rest)) = lift l (do (r2, rest) <- perform lm file duration r1 o ;; Ok (r2, x :: rest))).
  { intros r1. rewrite IH. destruct (perform lm file duration r1 o) as [[r2 rest]|]; reflexivity. }
  destruct x as [s|k e|k|k key value|k|s|s|]; [exact (S r)| |exact (S r)|exact (S r)| |exact (S r)|exact (S r)|].
  - rewrite report_with. destruct (report r e) as [[r1 texts]|]; cbn [bind lift]; [|reflexivity].
    rewrite print_all_with. destruct (print_all r1 texts); cbn [bind]; [|reflexivity].
    rewrite IH. destruct (perform lm file duration r1 o) as [[r2 rest]|]; reflexivity.
  - replace (finish (with_tests l r)) with (with_tests l (finish r)) by (unfold finish; cbn [with_tests g_reporter g_storage]; destruct (g_reporter r); [|reflexivity]; destruct (g_storage r) as [| |q m]; [reflexivity|reflexivity|]; destruct (r_typed q); reflexivity). exact (S (finish r)).
  - exact (S (set_file r None)).
Qed.

Lemma run_matters can_open r path argv : length argv <= l_max_command_line_args lm -> acceptable argv -> asks_run (setting (read argv)) ->
  exists G H : res (list event * bool) -> res (list output * nat), forall l,
    let run := run_selected_tests lm fuel Full l (extract_executable path) (filters (read argv)) (picks lm (filters (read argv))) in
    main lm fuel can_open (with_tests l r) path argv = G run /\ main_program lm fuel file duration can_open (with_tests l r) path argv = H run.
Proof.
  intros L ACC AR. unfold main, main_program. destruct (parse_arguments_spec (cli_of lm) path argv L) as (printed & args & P & A & _). rewrite P.
  destruct (A ACC) as (E & _). subst args. clear A. match type of P with _ = Ok (_, Some ?a) => set (ar := a) in * end. cbn [bind].
  destruct (parsed_options (cli_of lm) _ _ _ _ L P) as [GO FE].
  assert (NA : forall n, In n (quote "--list-tests" :: actions) -> get_option ar n = None).
  { intros n Hn. assert (NE : n <> []) by (cbn in Hn; intuition (subst; discriminate)). specialize (GO n NE). rewrite (AR n Hn) in GO. destruct (get_option ar n); [discriminate|reflexivity]. }
  destruct (configure lm can_open r ar) as [[r1 out1]|e] eqn:C.
  2:{ exists (fun _ => Err e), (fun _ => Err e). intros l. rewrite configure_with, C. cbn [lift bind]. auto. }
  exists (fun x => match x with Ok (events, success) => Ok (map Printed printed ++ out1 ++ map (Reported (g_reporter r1)) (filter (Events.visible (g_verbose r1)) events) ++ closing r1, if success : bool then 0 else 1) | Err e => Err e end).
  exists (fun x => match x with Ok (events, success) =>
    do (_, out2) <- perform lm file duration r1 (map (Reported (g_reporter r1)) (filter (Events.visible (g_verbose r1)) events) ++ closing r1) ;;
    Ok (map Printed printed ++ out1 ++ out2, if success : bool then 0 else 1) | Err e => Err e end).
  intros l. cbv zeta. rewrite configure_with, C. cbn [lift bind]. unfold run_program. rewrite (run_eq lm fuel (with_tests l r1) ar _ NA FE). cbn [g_tests with_tests]. change (executable ar) with (extract_executable path).
  destruct (run_selected_tests lm fuel Full l _ _ _) as [[ev su]|]; cbn [bind]; [|auto]. split; [reflexivity|].
  rewrite perform_with. change (closing (with_tests l r1)) with (closing r1).
  cbn [with_tests g_reporter g_verbose]. destruct (perform lm file duration r1 _) as [[r2 o2]|]; reflexivity.
Qed.

(** ** Tests that are not chosen *)
Lemma loop_skips cf p keep tests : (forall t, In t tests -> keep t = false -> p (t_id t) = Ok false) ->
  forall s ev, run_loop fuel cf p tests s ev = run_loop fuel cf p (filter keep tests) s ev.
Proof.
  induction tests as [|t tests IH]; intros H s ev; [reflexivity|]. cbn [filter]. destruct (keep t) eqn:K; cbn [run_loop].
  - destruct (p (t_id t)) as [b|]; cbn [bind]; [|reflexivity]. destruct b; [|apply IH; intros; apply H; auto; now right].
    destruct (run cf fuel t ev); cbn [bind]; [|reflexivity]. apply IH. intros. apply H; auto. now right.
  - rewrite (H t (or_introl eq_refl) K). cbn [bind]. apply IH. intros. apply H; auto. now right.
Qed.
Lemma not_chosen_picks argv t : not_chosen lm argv t -> picks lm (filters (read argv)) (t_id t) = Ok false.
Proof.
  intros (tags & E & W & L & N). unfold picks, chosen in *. destruct (filters (read argv)) as [|f fs].
  - destruct (default_selects_spec _ (t_id t) tags E W) as (b & -> & B). destruct b; [|reflexivity]. exfalso. apply N. now apply B.
  - destruct (cli_selects_spec (l_max_tag_length lm) (l_max_test_name_length lm) (f :: fs) (t_id t) tags E W ltac:(discriminate) L) as (b & -> & B).
    destruct b; [|reflexivity]. exfalso. apply N. now apply B.
Qed.
Theorem unselected_ignored can_open extra r r' path argv :
  with_extra extra r r' -> length argv <= l_max_command_line_args lm -> acceptable argv -> asks_run (setting (read argv)) ->
  Forall (fun t => extra t = true -> not_chosen lm argv t) (g_tests r') ->
  main lm fuel can_open r' path argv = main lm fuel can_open r path argv /\
  main_program lm fuel file duration can_open r' path argv = main_program lm fuel file duration can_open r path argv.
Proof.
  intros (T & S) L ACC AR F. destruct (run_matters can_open r path argv L ACC AR) as (G & H & E).
  destruct (E (g_tests r)) as (E1 & E2). destruct (E (g_tests r')) as (E3 & E4). rewrite (same_with _ _ S) at 1 2. rewrite E3, E4. rewrite same_self in E1, E2. rewrite E1, E2.
  assert (R : run_selected_tests lm fuel Full (g_tests r') (extract_executable path) (filters (read argv)) (picks lm (filters (read argv))) =
    run_selected_tests lm fuel Full (g_tests r) (extract_executable path) (filters (read argv)) (picks lm (filters (read argv)))).
  { unfold run_selected_tests. cbv zeta. rewrite T. rewrite (loop_skips _ _ (fun t => negb (extra t))); [reflexivity|].
    intros t I K. apply not_chosen_picks. rewrite Forall_forall in F. apply F; auto. now destruct (extra t). }
  now rewrite R.
Qed.

(** ** Tests that are chosen *)
Lemma cases_filter p keep tests l : cases lm fuel p tests = Ok l -> cases lm fuel p (filter keep tests) = Ok (filter (fun x => keep (fst x)) l).
Proof.
  revert l. induction tests as [|t tests IH]; intros l; cbn [cases filter]; [intros [= <-]; reflexivity|].
  destruct (p (t_id t)) as [b|] eqn:P; cbn [bind]; [|discriminate]. destruct b.
  - destruct (run _ fuel t []) as [st|] eqn:R; cbn [bind]; [|discriminate]. destruct (cases lm fuel p tests) as [m|]; cbn [bind]; [|discriminate]. intros [= <-]. cbn [filter fst].
    destruct (keep t); [|auto]. cbn [cases]. rewrite P. cbn [bind]. rewrite R. cbn [bind]. rewrite (IH _ eq_refl). reflexivity.
  - intros E. destruct (keep t); [|auto]. cbn [cases]. rewrite P. cbn [bind]. auto.
Qed.
Lemma cases_add p keep tests l : cases lm fuel p (filter keep tests) = Ok l ->
  (forall t, In t tests -> keep t = false -> exists b, p (t_id t) = Ok b /\ exists st, run (config_of lm Full) fuel t [] = Ok st) ->
  exists l', cases lm fuel p tests = Ok l'.
Proof.
  revert l. induction tests as [|t tests IH]; intros l; cbn [cases filter]; [eauto|]. intros E H.
  assert (H' : forall u, In u tests -> keep u = false -> exists b, p (t_id u) = Ok b /\ exists st, run (config_of lm Full) fuel u [] = Ok st) by (intros; apply H; auto; now right).
  destruct (keep t) eqn:K.
  - cbn [cases] in E. destruct (p (t_id t)) as [b|]; cbn [bind] in *; [|discriminate]. destruct b; [|eauto].
    destruct (run _ fuel t []) as [st|]; cbn [bind] in *; [|discriminate]. destruct (cases lm fuel p (filter keep tests)) as [m|]; cbn [bind] in *; [|discriminate].
    destruct (IH _ eq_refl H') as (l' & ->). cbn [bind]. eauto.
  - destruct (H t (or_introl eq_refl) K) as (b & -> & st & R). destruct (IH _ E H') as (l' & ->). cbn [bind]. rewrite R. cbn [bind]. destruct b; eauto.
Qed.

Lemma picks_chosen argv : the_chosen lm argv (kept (picks lm (filters (read argv)))).
Proof.
  intros t tags E W L. unfold kept, picks, chosen in *. destruct (filters (read argv)) as [|f fs].
  - destruct (default_selects_spec _ (t_id t) tags E W) as (b & -> & B). exact B.
  - destruct (cli_selects_spec (l_max_tag_length lm) (l_max_test_name_length lm) (f :: fs) (t_id t) tags E W ltac:(discriminate) L) as (b & -> & B). exact B.
Qed.
Lemma tested_parts p tests name fs l : cases lm fuel p tests = Ok l ->
  exists parts, map snd parts = map (fun x => trace (snd x)) l /\ map fst parts = filter (kept p) tests /\ Forall about_this_test parts /\
    (forall extra, map snd (filter (fun x => negb (extra (fst x))) parts) = map (fun x => trace (snd x)) (filter (fun x => negb (extra (fst x))) l)) /\
    run_selected_tests lm fuel Full tests name fs p = Ok (events_of_run name fs (map snd parts), in_state Failed (ended (List.concat (map snd parts))) =? 0).
Proof.
  intros C. exists (map (fun x => (fst x, trace (snd x))) l). assert (M : forall m : list (test_case * state), map snd (map (fun x => (fst x, trace (snd x))) m) = map (fun x => trace (snd x)) m) by (intros m; rewrite map_map; reflexivity).
  rewrite M. split; [reflexivity|]. destruct (cases_select _ _ _ _ _ C) as (E & R & _). split; [rewrite map_map; exact E|]. split.
  - apply Forall_forall. intros x I. apply in_map_iff in I as ([t st] & <- & I). rewrite Forall_forall in R. specialize (R _ I). cbn [fst snd] in *.
    destruct (run_alone lm fuel t st R) as (body & c & s & T & IN & _). exists body, c, s. auto.
  - split.
    + intros extra. rewrite <- M. f_equal. clear. induction l as [|x l IH]; [reflexivity|]. cbn [map filter fst]. destruct (negb (extra (fst x))); cbn [map]; now rewrite IH.
    + rewrite run_selected, C. cbv zeta. rewrite visible_full. reflexivity.
Qed.

Theorem added_main can_open extra r r' path argv out' code' :
  with_extra extra r r' -> length argv <= l_max_command_line_args lm -> acceptable argv -> asks_run (setting (read argv)) ->
  main lm fuel can_open r' path argv = Ok (out', code') ->
  exists (out : list output) (code : nat) (v : verbosity) (name : text) (is_run : test_case -> bool) (parts : list (test_case * list event)) (before after : list output) (k : option nat),
    main lm fuel can_open r path argv = Ok (out, code) /\ (code' = 0 -> code = 0) /\
    the_chosen lm argv is_run /\ map fst parts = filter is_run (g_tests r') /\ Forall about_this_test parts /\
    out' = before ++ map (Reported k) (filter (Events.visible v) (events_of_run name (filters (read argv)) (map snd parts))) ++ after /\
    out = before ++ map (Reported k) (filter (Events.visible v) (events_of_run name (filters (read argv)) (map snd (filter (fun x => negb (extra (fst x))) parts)))) ++ after.
Proof.
  intros (T & S) L ACC AR. destruct (main_reads lm fuel can_open r path argv L ACC AR) as (printed & args & P & E).
  destruct (main_reads lm fuel can_open r' path argv L ACC AR) as (printed' & args' & P' & E'). rewrite P in P'. injection P' as <- <-. rewrite E, E'.
  assert (CW : configure lm can_open r' args = lift (g_tests r') (configure lm can_open r args)) by (rewrite <- configure_with; f_equal; exact (same_with _ _ S)).
  rewrite CW. clear CW. destruct (configure lm can_open r args) as [[r1 out1]|]; cbn [lift]; [|discriminate]. unfold tested. rewrite T.
  set (fs := filters (read argv)). destruct (cases lm fuel (picks lm fs) (g_tests r')) as [l|] eqn:C; [|rewrite run_selected, C; discriminate].
  pose proof (cases_filter _ (fun t => negb (extra t)) _ _ C) as C0.
  destruct (tested_parts _ _ (extract_executable path) fs _ C) as (parts & M & MF & F & EX & ->).
  destruct (tested_parts _ _ (extract_executable path) fs _ C0) as (parts0 & M0 & _ & _ & _ & ->). rewrite M0, <- EX. intros X.
  eexists _, _, (g_verbose r1), (extract_executable path), (kept (picks lm fs)), parts, (map Printed printed ++ out1), (closing r1), (g_reporter r1). split; [reflexivity|].
  split; [|split; [apply picks_chosen|split; [exact MF|split; [exact F|]]]].
  - injection X as _ <-. destruct (in_state Failed (ended (List.concat (map snd parts))) =? 0) eqn:Q; [|discriminate]. intros _.
    assert (Q0 : in_state Failed (ended (List.concat (map snd (filter (fun x => negb (extra (fst x))) parts)))) =? 0 = true); [|now rewrite Q0].
    apply no_failure. intros x I. eapply no_failure; [exact Q|]. unfold ended in *. apply in_flat_map in I as (e & I & J). apply in_flat_map. exists e. split; [|exact J].
    apply in_concat in I as (q & I & K). apply in_concat. exists q. split; [|exact K]. apply in_map_iff in I as (y & <- & I). apply in_map_iff. exists y. split; [reflexivity|]. now apply filter_In in I.
  - cbn [with_tests g_reporter g_verbose] in X. change (closing (with_tests (g_tests r') r1)) with (closing r1) in X.
    split; [|now rewrite <- !app_assoc]. injection X as <- _. now rewrite <- !app_assoc.
Qed.

Theorem added_completes can_open extra r r' path argv out code :
  with_extra extra r r' -> length argv <= l_max_command_line_args lm -> acceptable argv -> asks_run (setting (read argv)) ->
  Forall (fun t => extra t = true -> (exists tags, id_tags (t_id t) = tag_string tags /\ well_formed (l_max_tag_length lm) tags) /\
            length (full_name_of (id_name (t_id t)) (id_type (t_id t))) <= l_max_test_name_length lm /\
            exists st, run (config_of lm Full) fuel t [] = Ok st) (g_tests r') ->
  main lm fuel can_open r path argv = Ok (out, code) -> exists out' code', main lm fuel can_open r' path argv = Ok (out', code').
Proof.
  intros (T & S) L ACC AR F. destruct (main_reads lm fuel can_open r path argv L ACC AR) as (printed & args & P & E).
  destruct (main_reads lm fuel can_open r' path argv L ACC AR) as (printed' & args' & P' & E'). rewrite P in P'. injection P' as <- <-. rewrite E, E'.
  assert (CW : configure lm can_open r' args = lift (g_tests r') (configure lm can_open r args)) by (rewrite <- configure_with; f_equal; exact (same_with _ _ S)).
  rewrite CW. clear CW. destruct (configure lm can_open r args) as [[r1 out1]|]; cbn [lift]; [|discriminate]. unfold tested. rewrite T, !run_selected.
  destruct (cases lm fuel _ (filter _ (g_tests r'))) as [l|] eqn:C; [|discriminate]. intros _.
  destruct (cases_add _ _ _ _ C) as (l' & ->); [|cbv zeta; eauto].
  intros t I K. rewrite Forall_forall in F. destruct (F t I) as ((tags & W1 & W2) & N & st & R); [now destruct (extra t)|].
  unfold picks. destruct (filters (read argv)) as [|f fs].
  - destruct (default_selects_spec _ (t_id t) tags W1 W2) as (b & -> & _). eauto.
  - destruct (cli_selects_spec (l_max_tag_length lm) (l_max_test_name_length lm) (f :: fs) (t_id t) tags W1 W2 ltac:(discriminate) N) as (b & -> & _). eauto.
Qed.

(** ** Texts *)
Lemma told_shape (K : registry -> Prop) r first last parts r0 t0 r3 ts : report_list r first = Ok (r0, t0) -> K r0 -> Forall (told lm file duration K) parts ->
  (forall r1, K r1 -> said lm file duration r1 last = said lm file duration r0 last) ->
  report_list r (first ++ List.concat parts ++ last) = Ok (r3, ts) -> List.concat ts = List.concat t0 ++ flat_map (said lm file duration r0) parts ++ said lm file duration r0 last.
Proof.
  intros E0 F T TL E. rewrite report_list_app, E0 in E. cbn [bind] in E. rewrite report_list_app in E.
  destruct (report_list r0 (List.concat parts)) as [[r1 t1]|] eqn:E1; cbn [bind] in E; [|discriminate].
  pose proof (told_each _ _ _ K r0 parts F T r0 _ F E1) as EA. destruct (told_concat _ _ _ K r0 parts F T EA r0 F) as (ra & ta & X & KA & CA). rewrite E1 in X. injection X as <- <-.
  rewrite <- (TL _ KA). unfold said at 2.
  destruct (report_list r1 last) as [[r2 t2]|]; cbn [bind] in E; [|discriminate]. injection E as <- <-. rewrite !concat_app. congruence.
Qed.
Lemma told_said (K : registry -> Prop) l r r' : told lm file duration K l -> K r -> K r' -> said lm file duration r l = said lm file duration r' l.
Proof. intros T A B. specialize (T r r' A B). unfold said. destruct (report_list r l) as [[? ?]|], (report_list r' l) as [[? ?]|]; try contradiction; [|reflexivity]. destruct T as (_ & _ & ->). reflexivity. Qed.

Lemma reporter_class can_open r path argv printed args r1 out1 fs : length argv <= l_max_command_line_args lm ->
  parse_arguments (cli_of lm) path argv = Ok (printed, Some args) -> configure lm can_open r args = Ok (r1, out1) ->
  console_asked lm file duration r argv \/ reporter_asked (teamcity_reporter lm file duration) r argv \/ reporter_asked (xml_reporter lm file duration) r argv ->
  forall r0 t0, report_list r1 (filter (Events.visible (g_verbose r1)) [TestRunStarted (extract_executable path) fs]) = Ok (r0, t0) ->
  exists K : registry -> Prop, K r0 /\
    (forall r2 e, counted e = false -> K r2 -> said lm file duration r2 (filter (Events.visible (g_verbose r1)) [e]) = said lm file duration r0 (filter (Events.visible (g_verbose r1)) [e])) /\
    forall t st, run (config_of lm Full) fuel t [] = Ok st ->
    (reporter_asked (xml_reporter lm file duration) r argv -> ends_sections lm fuel t) -> told lm file duration K (filter (Events.visible (g_verbose r1)) (trace st)).
Proof.
  intros L PA C CA r0 t0 E0. set (v := g_verbose r1) in *.
  assert (UNP : forall t st e, run (config_of lm Full) fuel t [] = Ok st -> In e (filter (Events.visible v) (trace st)) -> counted e = false).
  { intros t st e R I. apply visible_in in I. eapply inside_uncounted; eauto. }
  assert (UNC : forall e, In e (filter (Events.visible v) [TestRunStarted (extract_executable path) fs]) -> counted e = false).
  { intros e I. apply visible_in in I. destruct I as [<-|[]]. reflexivity. }
  destruct (choice lm file duration can_open r path argv printed args r1 out1 L PA C) as (_ & _ & CH1 & CH2). cbv zeta in CH1, CH2.
  destruct (parsed_options (cli_of lm) _ _ _ _ L PA) as [GO _]. specialize (GO (quote "--reporter") ltac:(discriminate)).
  destruct CA as [[(N & GR)|(arg & i & SR & N & F)]|[(arg & i & SR & N & F)|(arg & i & SR & N & F)]].
  - destruct (CH1 N) as (_ & R1 & _). rewrite GR in R1.
    set (K := fun r => exists x, r = set_storage r1 x).
    assert (K0 : K r0) by (destruct (report_list_storage _ _ _ _ _ _ _ E0) as [->|(x & ->)]; [exists (g_storage r1); now destruct r1|exists x; reflexivity]).
    exists K. split; [exact K0|]. split.
    + intros r2 e NC K2. apply (told_said K); auto. apply told_list. intros x I. apply visible_in in I as [<-|[]]. now apply told_default.
    + intros t st R _. apply told_list. intros e I. apply told_default; eauto.
  - rewrite SR in GO. destruct (CH2 arg SR) as (_ & H). destruct (H i _ F N) as (H1 & _). destruct (H1 eq_refl) as (_ & R1).
    pose proof C as C'. apply configure_prepared in C' as (r4 & o4 & o5 & (_ & P2 & _) & S & _). change quote with lit in *.
    destruct (get_option args (lit "--reporter")) as [a|]; [|discriminate]. cbn [option_map reporter_step] in *. unfold value_of in S. destruct (a_value a) as [w|]; [|discriminate].
    injection GO as ->. cbn [bind] in S. rewrite <- P2 in F. destruct (console_chosen lm file duration _ _ _ _ _ F N S) as (col & E1).
    assert (S1 : g_storage r1 = Holds (console_reporter lm file duration) 0) by now rewrite E1.
    set (K := fun r => exists c, r = set_storage r1 (Holds (console_reporter lm file duration) c)).
    assert (K1 : K r1) by (exists 0; rewrite <- S1; now destruct r1).
    exists K. assert (K0 : K r0).
    { assert (TF1 : told lm file duration K (filter (Events.visible v) [TestRunStarted (extract_executable path) fs])) by (apply told_list; intros e I; apply (told_console lm file duration r1 i); auto).
      pose proof (TF1 r1 r1 K1 K1) as Y. rewrite E0 in Y. apply Y. }
    split; [exact K0|]. split.
    + intros r2 e NC K2. apply (told_said K); auto. apply told_list. intros x I. apply visible_in in I as [<-|[]]. now apply (told_console lm file duration r1 i).
    + intros t st R _. apply told_list. intros e I. apply (told_console lm file duration r1 i); eauto.
  - destruct (CH2 arg SR) as (_ & H). destruct (H i _ F N) as (_ & H1). destruct (H1 (or_intror eq_refl)) as (_ & R1).
    destruct (chosen_registry lm file duration can_open r path argv printed args r1 out1 arg _ L PA C SR (ex_intro _ i F) N) as (_ & H2). destruct (H2 eq_refl) as (j & R2 & S1).
    exists (fun r => r = r1). assert (K0 : r0 = r1).
    { assert (TF1 : told lm file duration (fun r => r = r1) (filter (Events.visible v) [TestRunStarted (extract_executable path) fs])) by (apply told_list; intros e I; now apply (told_teamcity lm file duration r1 i)).
      pose proof (TF1 r1 r1 eq_refl eq_refl) as Y. rewrite E0 in Y. apply Y. }
    split; [exact K0|]. split; [intros r2 e _ ->; now rewrite K0|].
    intros t st R _. apply told_list. intros e I. now apply (told_teamcity lm file duration r1 i).
  - destruct (CH2 arg SR) as (_ & H). destruct (H i _ F N) as (_ & H1). destruct (H1 (or_introl eq_refl)) as (V1 & R1).
    destruct (chosen_registry lm file duration can_open r path argv printed args r1 out1 arg _ L PA C SR (ex_intro _ i F) N) as (H2 & _). destruct (H2 eq_refl) as (j & R2 & S1).
    assert (V : vlevel High <= vlevel v) by (unfold v; rewrite V1; apply at_least_level).
    destruct (xml_list lm file duration _ _ _ _ _ _ R1 S1 E0) as (k & -> & _).
    exists (fun r => r = set_storage r1 (Holds (xml_reporter lm file duration) k)). split; [reflexivity|]. split; [intros r2 e _ ->; reflexivity|].
    intros t st R EV. eapply (told_xml lm file duration _ i k); [exact R1|reflexivity|]. apply (even_part lm fuel v t st V); [|exact R]. apply EV. exists arg, i. auto.
Qed.

Theorem texts_shape can_open r path argv : length argv <= l_max_command_line_args lm -> acceptable argv -> asks_run (setting (read argv)) -> g_to_file r = false ->
  console_asked lm file duration r argv \/ reporter_asked (teamcity_reporter lm file duration) r argv \/ reporter_asked (xml_reporter lm file duration) r argv ->
  exists (is_run : test_case -> bool) (verdicts : test_case -> list (test_id * counts * case_state)) (name before : text) (piece : test_case -> text) (after : event -> text),
    the_chosen lm argv is_run /\
    forall (r' : registry) (out : list output) (code : nat),
    same_but_tests r r' -> (reporter_asked (xml_reporter lm file duration) r argv -> Forall (ends_sections lm fuel) (g_tests r')) ->
    main_program lm fuel file duration can_open r' path argv = Ok (out, code) ->
    let tests := filter is_run (g_tests r') in
    report_goes lm r argv out (before ++ flat_map piece tests ++ after (summary_of name (filters (read argv)) (flat_map verdicts tests))).
Proof.
  intros L ACC AR TF CA. set (fs := filters (read argv)).
  set (runs := kept (picks lm fs)). assert (RC : the_chosen lm argv runs) by apply picks_chosen.
  set (whole := fun t => match run (config_of lm Full) fuel t [] with Ok st => trace st | Err _ => [] end).
  exists runs, (fun t => ended (whole t)), (extract_executable path).
  destruct (program_reads lm fuel file duration can_open r path argv L ACC AR TF) as (printed & args & PA & _).
  assert (PR : forall r', same_but_tests r r' -> main_program lm fuel file duration can_open r' path argv = match lift (g_tests r') (configure lm can_open r args) with
     | Ok (r1, out1) => match tested lm fuel r' path fs with
       | Ok (events, success) => match report_list r1 (filter (Events.visible (g_verbose r1)) events) with
         | Ok (_, texts) => Ok (map Printed printed ++ out1 ++ map (put r1) texts ++ closing r1, if success then 0 else 1)
         | Err e => Err e end
       | Err e => Err e end
     | Err e => Err e end).
  { intros r' S. assert (TF' : g_to_file r' = false) by (rewrite (same_with _ _ S); exact TF).
    destruct (program_reads lm fuel file duration can_open r' path argv L ACC AR TF') as (printed' & args' & PA' & E'). rewrite PA in PA'. injection PA' as <- <-. rewrite E'.
    assert (CW : configure lm can_open r' args = lift (g_tests r') (configure lm can_open r args)) by (rewrite <- configure_with; f_equal; exact (same_with _ _ S)). now rewrite CW. }
  destruct (configure lm can_open r args) as [[r1 out1]|e] eqn:C.
  2:{ exists [], (fun _ => []), (fun _ => []). split; [exact RC|]. intros r' out code S _ M. rewrite (PR r' S) in M. discriminate. }
  set (v := g_verbose r1) in *. set (first := (filter (Events.visible v) [TestRunStarted (extract_executable path) fs] : list event)).
  destruct (report_list r1 first) as [[r0 t0]|e] eqn:E0.
  2:{ exists [], (fun _ => []), (fun _ => []). split; [exact RC|]. intros r' out code S _ M. rewrite (PR r' S) in M. cbn [lift] in M. unfold tested in M.
      destruct (cases lm fuel (picks lm fs) (g_tests r')) as [l|] eqn:CS; [|rewrite run_selected, CS in M; discriminate].
      destruct (tested_parts _ _ (extract_executable path) fs _ CS) as (parts & _ & _ & _ & _ & RS). rewrite RS in M. change (g_verbose (with_tests (g_tests r') r1)) with v in M.
      unfold events_of_run in M. rewrite filter_app, report_list_with, report_list_app in M. fold first in M. rewrite E0 in M. discriminate. }
  destruct (reporter_class can_open r path argv printed args r1 out1 fs L PA C CA r0 t0 E0) as (K & K0 & KL & KT).
  exists (List.concat t0), (fun t => said lm file duration r0 (filter (Events.visible v) (whole t))), (fun e => said lm file duration r0 (filter (Events.visible v) [e])). split; [exact RC|].
  intros r' out code S EV M. rewrite (PR r' S) in M. cbn [lift] in M. unfold tested in M. cbv zeta.
  destruct (cases lm fuel (picks lm fs) (g_tests r')) as [l|] eqn:CS; [|rewrite run_selected, CS in M; discriminate].
  destruct (tested_parts _ _ (extract_executable path) fs _ CS) as (parts & MP & _ & _ & _ & RS). rewrite RS in M. change (g_verbose (with_tests (g_tests r') r1)) with v in M.
  unfold events_of_run in M. rewrite filter_app, report_list_with in M. rewrite (filter_app _ (List.concat _)), concat_filter in M. fold first in M.
  destruct (report_list r1 (first ++ _ ++ _)) as [[r3 ts]|] eqn:RP; cbn [lift] in M; [|discriminate]. injection M as <- <-.
  destruct (cases_parts _ _ _ _ _ CS) as (CP & FP). fold runs in CP. fold whole in CP.
  apply (told_shape K r1 first) with (1 := E0) (2 := K0) in RP.
  2:{ apply Forall_forall. intros part I. apply in_map_iff in I as (q & <- & I). rewrite MP in I. apply in_map_iff in I as (x & <- & I). rewrite Forall_forall in FP. destruct (FP x I) as (R & J).
      apply (KT (fst x) (snd x) R). intros X. specialize (EV X). rewrite Forall_forall in EV. auto. }
  2:{ intros r2 K2. now apply KL. }
  rewrite MP, CP in RP. rewrite map_map, flat_map_concat_map, map_map, <- flat_map_concat_map in RP.
  assert (EN : ended (List.concat (map whole (filter runs (g_tests r')))) = flat_map (fun t => ended (whole t)) (filter runs (g_tests r'))).
  { clear. induction (filter runs (g_tests r')) as [|t m IH]; [reflexivity|]. cbn [map List.concat flat_map]. now rewrite ended_app, IH. }
  rewrite EN in RP. rewrite <- RP.
  pose proof (configure_effect _ _ _ _ _ _ C) as CE. destruct (parsed_options (cli_of lm) _ _ _ _ L PA) as [G _].
  assert (WF : g_to_file r1 = has_file argv).
  { unfold has_file. rewrite <- (G (quote "--out") ltac:(discriminate)). change quote with lit. destruct (get_option args (lit "--out")).
    - destruct CE as (b & f & p' & v' & _ & _ & _ & _ & _ & F & T). now rewrite T.
    - destruct CE as (_ & _ & T). now rewrite T, TF. }
  change (put (with_tests (g_tests r') r1)) with (put r1). change (closing (with_tests (g_tests r') r1)) with (closing r1).
  destruct (closing_text r1) as [K1 K2]. apply (goes lm can_open r path argv printed args r1 out1 _ _ L ACC PA C).
  rewrite !console_text_app, !file_text_app, console_text_printed, file_text_printed, console_text_put, file_text_put, K1, K2, (configure_file_text _ _ _ _ _ _ C), WF, !app_nil_r; cbn [app].
  destruct (has_file argv); rewrite ?app_nil_r, <- ?app_assoc; auto.
Qed.
End Added.
