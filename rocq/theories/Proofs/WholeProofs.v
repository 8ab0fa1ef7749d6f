(** Whole programs (C61-C64). *)
From Coq Require Import NArith.
From Verif.Spec Require Import TextSpec FilterSpec PrintSpec NumberSpec EscapeSpec RunSpec TreeSpec Events VerdictSpec SessionSpec ProgramSpec XmlSpec ServiceSpec ConsoleSpec CliSpec.
From Verif.Model Require Import Base Vector StringUtil Print Filter Run Cli File Session Reporters Program.
From Verif.Spec Require Import ProgramClaims.
From Verif.Proofs Require Import Lists VectorProofs AppendProofs ReplaceProofs PrintProofs CliProofs CliFacts SessionProofs SessionFacts ConfigProofs ReporterProofs ProgramProofs EndToEndProofs ChoiceProofs XmlProofs ReportProofs ReportExamples ServiceProofs ConsoleProofs WarningProofs.
From Coq Require Import Lia.
Local Open Scope list_scope.

(** ** Where texts go *)
Lemma console_text_app {ID} (a b : list (SessionSpec.output ID)) : console_text (a ++ b) = console_text a ++ console_text b.
Proof. apply flat_map_app. Qed.
Lemma file_text_app {ID} (a b : list (SessionSpec.output ID)) : file_text (a ++ b) = file_text a ++ file_text b.
Proof. apply flat_map_app. Qed.
Lemma console_text_printed {ID} l : console_text (map (@Printed ID) l) = List.concat l.
Proof. induction l as [|s l IH]; [reflexivity|]. cbn. now f_equal. Qed.
Lemma file_text_printed {ID} l : file_text (map (@Printed ID) l) = [].
Proof. induction l as [|s l IH]; [reflexivity|]. exact IH. Qed.
Lemma console_text_put r l : console_text (map (put r) l) = if g_to_file r then [] else List.concat l.
Proof. unfold put. destruct (g_to_file r); [|apply console_text_printed]. induction l as [|s l IH]; [reflexivity|]. exact IH. Qed.
Lemma file_text_put r l : file_text (map (put r) l) = if g_to_file r then List.concat l else [].
Proof. unfold put. destruct (g_to_file r); [|apply file_text_printed]. induction l as [|s l IH]; [reflexivity|]. cbn. now f_equal. Qed.
Lemma closing_text r : console_text (closing r) = [] /\ file_text (closing r) = [].
Proof. unfold closing. destruct (g_file r); split; reflexivity. Qed.
Lemma quiet_file_text out : quiet_out out -> file_text out = [].
Proof. induction 1 as [|o out H _ IH]; [reflexivity|]. destruct o; cbn in *; try contradiction; auto. Qed.

Section Whole.
Variable lm : limits.
Variable fuel : nat.
Variable file : event -> str.
Variable duration : event -> option str.
Notation main_program := (main_program lm fuel file duration).
Notation report_list := (report_list lm file duration).

Lemma configure_file_text can_open r args r' out : configure lm can_open r args = Ok (r', out) -> file_text out = [].
Proof.
  intros H. apply configure_effect in H. destruct (get_option args (lit "--out")) as [a|].
  - destruct H as (b & f & path & v & _ & _ & -> & Q1 & Q2 & _). change (OpenedFile path :: ?x) with ([OpenedFile path] ++ x).
    rewrite !file_text_app, (quiet_file_text _ Q1), (quiet_file_text _ Q2). destruct (g_file r); reflexivity.
  - destruct H as (Q & _). now apply quiet_file_text.
Qed.


(** ** Runs *)
Theorem main_runs can_open r path argv out code :
  length argv <= l_max_command_line_args lm -> acceptable argv -> asks_run (setting (read argv)) -> g_to_file r = false ->
  main_program can_open r path argv = Ok (out, code) ->
  exists printed args r1 out1 filters predicate events success r3 texts,
    parse_arguments (cli_of lm) path argv = Ok (printed, Some args) /\ configure lm can_open r args = Ok (r1, out1) /\
    run_selected_tests lm fuel (g_verbose r1) (g_tests r1) (executable args) filters predicate = Ok (events, success) /\
    report_list r1 events = Ok (r3, texts) /\ code = (if success : bool then 0 else 1) /\
    main lm fuel can_open r path argv = Ok (map Printed printed ++ out1 ++ map (Reported (g_reporter r1)) events ++ closing r1, code) /\
    out = map Printed printed ++ out1 ++ map (put r1) texts ++ closing r1 /\
    report_goes lm r argv out (List.concat texts).
Proof.
  intros L ACC AR TF M. destruct (main_program_inv lm fuel file duration can_open r path argv out code L ACC M)
    as (printed & args & r1 & out1 & r2 & out2 & r3 & out3 & success & P & C & R & PF & -> & -> & MM).
  destruct (parsed_options (cli_of lm) _ _ _ _ L P) as [G _].
  assert (NA : forall n, In n (quote "--list-tests" :: actions) -> get_option args n = None).
  { intros n Hn. assert (NE : n <> []) by (cbn in Hn; intuition (subst; discriminate)). specialize (G n NE). rewrite (AR n Hn) in G. destruct (get_option args n); [discriminate|reflexivity]. }
  destruct (run_tests_inv lm fuel _ _ _ _ _ R) as (o & RI & _ & -> & _).
  destruct (run_impl_runs lm fuel _ _ _ _ RI (fun n H => NA n (or_intror H)) (NA _ (or_introl eq_refl))) as (fs & pr & events & -> & RS).
  pose proof (configure_effect _ _ _ _ _ _ C) as CE.
  assert (W : writable r1 /\ g_to_file r1 = has_file argv).
  { unfold writable, has_file. rewrite <- (G (quote "--out") ltac:(discriminate)). change quote with lit. destruct (get_option args (lit "--out")).
    - destruct CE as (b & f & p' & v & _ & _ & _ & _ & _ & F & T). rewrite F, T. split; [intros _; discriminate|reflexivity].
    - destruct CE as (_ & _ & T). rewrite T, TF. split; [discriminate|reflexivity]. }
  destruct W as [W WF]. rewrite (perform_reported lm file duration) in PF by exact W.
  destruct (report_list r1 events) as [[r4 texts]|] eqn:RL; cbn [bind] in PF; [|discriminate].
  assert (SS : g_reporter r1 = g_reporter r4 /\ g_file r1 = g_file r4).
  { destruct (report_list_storage _ _ _ _ _ _ _ RL) as [->|(x & ->)]; auto. }
  rewrite (perform_closing lm file duration r1 r4) in PF by apply SS. cbn [bind] in PF. injection PF as <- <-.
  assert (CL : closing r4 = closing r1) by (unfold closing; destruct SS as [-> ->]; reflexivity). rewrite CL.
  exists printed, args, r1, out1, fs, pr, events, success, r4, texts. do 7 (split; [assumption || reflexivity|]).
  destruct (closing_text r1) as [K1 K2]. apply (goes lm can_open r path argv printed args r1 out1 _ _ L ACC P C).
  rewrite !console_text_app, !file_text_app, console_text_printed, file_text_printed, console_text_put, file_text_put, K1, K2, (configure_file_text _ _ _ _ _ C), WF, !app_nil_r. cbn [app].
  destruct (has_file argv); rewrite ?app_nil_r, <- ?app_assoc; auto.
Qed.

(** ** What each reporter makes of the events *)
Lemma default_reports l : forall r r' texts, g_reporter r = None -> report_list r l = Ok (r', texts) ->
  exists c c', console_reports (mm lm) (mn lm) (l_version lm) (g_with_color r) file duration c l = Ok (c', texts) /\
    match g_storage r with Default k => c = k | _ => c = 0 end.
Proof.
  induction l as [|e l IH]; intros r r' texts N; cbn [EndToEndProofs.report_list console_reports].
  - intros [= <- <-]. exists (match g_storage r with Default k => k | _ => 0 end). eexists. split; [reflexivity|]. destruct (g_storage r); reflexivity.
  - unfold Program.report at 1. rewrite N. set (c := match g_storage r with Default c => c | _ => 0 end).
    destruct (console_report _ _ _ _ _ _ c e) as [[c1 o1]|] eqn:E; cbn [bind]; [|discriminate].
    destruct (report_list (set_storage r (Default c1)) l) as [[r2 o2]|] eqn:R; cbn [bind]; [|discriminate]. intros [= <- <-].
    apply IH in R as (k & k' & R & K); [|exact N]. cbn [g_storage set_storage g_with_color] in *. subst k.
    exists c, k'. rewrite E. cbn [bind]. rewrite R. cbn [bind]. split; [reflexivity|]. subst c. destruct (g_storage r); reflexivity.
Qed.
Lemma console_selected_reports l : forall r r' i c texts, g_reporter r = Some i -> g_storage r = Holds (console_reporter lm file duration) c ->
  report_list r l = Ok (r', texts) ->
  exists c', console_reports (mm lm) (mn lm) (l_version lm) (g_with_color r) file duration c l = Ok (c', texts).
Proof.
  induction l as [|e l IH]; intros r r' i c texts N S; cbn [EndToEndProofs.report_list console_reports].
  - intros [= <- <-]. eauto.
  - unfold Program.report at 1. rewrite N, S. cbn [r_report console_reporter m_color modes_of].
    destruct (console_report _ _ _ _ _ _ c e) as [[c1 o1]|] eqn:E; cbn [bind]; [|discriminate].
    destruct (report_list _ l) as [[r2 o2]|] eqn:R; cbn [bind]; [|discriminate]. intros [= <- <-].
    apply (IH _ _ i c1) in R as (k' & R); [|exact N|reflexivity]. cbn [set_storage g_with_color] in R. rewrite R. cbn [bind]. eauto.
Qed.
Lemma xml_selected_reports l : forall r r' i k texts, g_reporter r = Some i -> g_storage r = Holds (xml_reporter lm file duration) k ->
  report_list r l = Ok (r', texts) ->
  exists k', xml_reports (mm lm) (mn lm) (l_version lm) file duration l k = Ok (k', texts).
Proof.
  induction l as [|e l IH]; intros r r' i k texts N S; cbn [EndToEndProofs.report_list xml_reports].
  - intros [= <- <-]. unfold nothing. eauto.
  - unfold Program.report at 1. rewrite N, S. cbn [r_report xml_reporter]. unfold andthen.
    destruct (xml_report _ _ _ _ _ e k) as [[k1 o1]|] eqn:E; cbn [bind]; [|discriminate].
    destruct (report_list _ l) as [[r2 o2]|] eqn:R; cbn [bind]; [|discriminate]. intros [= <- <-].
    apply (IH _ _ i k1) in R as (k' & R); [|exact N|reflexivity]. rewrite R. cbn [bind]. eauto.
Qed.
Lemma teamcity_selected_reports l : forall r r' i texts, g_reporter r = Some i -> g_storage r = Holds (teamcity_reporter lm file duration) tt ->
  report_list r l = Ok (r', texts) -> tc_reports (mm lm) (mn lm) file duration l = Ok texts.
Proof.
  induction l as [|e l IH]; intros r r' i texts N S; cbn [EndToEndProofs.report_list tc_reports].
  - intros [= <- <-]. reflexivity.
  - unfold Program.report at 1. rewrite N, S. cbn [r_report teamcity_reporter]. unfold tc_then.
    destruct (tc_report _ _ _ _ e) as [o1|] eqn:E; cbn [bind]; [|discriminate].
    destruct (report_list _ l) as [[r2 o2]|] eqn:R; cbn [bind]; [|discriminate]. intros [= <- <-].
    apply (IH _ _ i) in R; [|exact N|reflexivity]. rewrite R. reflexivity.
Qed.

(** ** C61: every selected test *)
Definition kept_when (fs : list text) (tags : list text) (id : test_id) : Prop :=
  match fs with [] => ~ hidden tags | _ => selected (full_name_of (id_name id) (id_type id)) tags fs end.

Lemma at_least_level a b : vlevel a <= vlevel (at_least a b) /\ vlevel b <= vlevel (at_least a b).
Proof. unfold at_least. destruct (Nat.ltb_spec (vlevel b) (vlevel a)); lia. Qed.
Lemma visible_tests v (l : list event) : vlevel High <= vlevel v ->
  started (filter (Events.visible v) l) = started l /\ ended (filter (Events.visible v) l) = ended l.
Proof.
  intros V. induction l as [|e l [I1 I2]]; [split; reflexivity|]. change (e :: l) with ([e] ++ l). rewrite filter_app, !started_app, !ended_app, I1, I2.
  split; f_equal; cbn [filter]; destruct (Events.visible v e) eqn:E; try reflexivity; unfold Events.visible in E; apply Nat.leb_gt in E; destruct e; try reflexivity; cbn [min_verbosity] in E; lia.
Qed.
Lemma parts_tests tests parts : Forall2 (case_part lm fuel) tests parts ->
  started (List.concat parts) = map (fun t => (t_id t, t_line t)) tests /\ map (fun x => fst (fst x)) (ended (List.concat parts)) = map t_id tests.
Proof.
  induction 1 as [|t part tests parts (st & body & c & s & _ & _ & E & F) _ [I1 I2]]; [split; reflexivity|]. cbn [List.concat map].
  rewrite started_app, ended_app, map_app, I1, I2, E. destruct (case_events t body c s F) as [E1 E2].
  cbn [app] in *. rewrite E1, E2. split; reflexivity.
Qed.

Theorem every_test can_open r path argv out code i p arg (tagged_tests : list (test_case * list text)) :
  length argv <= l_max_command_line_args lm -> acceptable argv -> asks_run (setting (read argv)) ->
  setting (read argv) (quote "--reporter") = Some (Some arg) -> first_named (g_reporters r) i p -> names arg (r_name p) ->
  p = xml_reporter lm file duration \/ p = teamcity_reporter lm file duration ->
  g_tests r = map fst tagged_tests ->
  Forall (fun x => id_tags (t_id (fst x)) = tag_string (snd x) /\ well_formed (l_max_tag_length lm) (snd x) /\
                   length (full_name_of (id_name (t_id (fst x))) (id_type (t_id (fst x)))) <= l_max_test_name_length lm) tagged_tests ->
  main lm fuel can_open r path argv = Ok (out, code) ->
  exists keep, (forall x, In x tagged_tests -> (keep x = true <->
       match filters (read argv) with
       | [] => ~ hidden (snd x)
       | fs => selected (full_name_of (id_name (t_id (fst x))) (id_type (t_id (fst x)))) (snd x) fs
       end)) /\
    let run := map fst (filter keep tagged_tests) in
    started (events_of out) = map (fun t => (t_id t, t_line t)) run /\ map (fun x => fst (fst x)) (ended (events_of out)) = map t_id run.
Proof.
  intros L ACC AR SR F N LIB G W M. unfold main in M. destruct (parse_arguments_spec (cli_of lm) path argv L) as (printed & args & P & A & _). rewrite P in M. cbn [bind] in M.
  destruct (A ACC) as (E & _). rewrite E in *. clear E A. match type of P with _ = Ok (_, Some ?a) => set (ar := a) in * end. clearbody ar.
  destruct (configure lm can_open r ar) as [[r1 out1]|] eqn:C; cbn [bind] in M; [|discriminate].
  destruct (run_tests lm fuel r1 ar) as [[[r2 out2] s]|] eqn:R; cbn [bind] in M; [|discriminate]. injection M as <- <-.
  destruct (choice lm file duration can_open r path argv printed ar r1 out1 L P C) as (T & _ & _ & CH). cbv zeta in CH.
  destruct (CH arg SR) as (_ & CH1). destruct (CH1 i p F N) as (_ & CH2). destruct (CH2 LIB) as (V & _).
  destruct (parsed_options (cli_of lm) _ _ _ _ L P) as [GO FE].
  assert (NA : forall n, In n (quote "--list-tests" :: actions) -> get_option ar n = None).
  { intros n Hn. assert (NE : n <> []) by (cbn in Hn; intuition (subst; discriminate)). specialize (GO n NE). rewrite (AR n Hn) in GO. destruct (get_option ar n); [discriminate|reflexivity]. }
  destruct (session_runs lm fuel r1 ar (filters (read argv)) tagged_tests r2 out2 s (fun n H => NA n (or_intror H)) (NA _ (or_introl eq_refl)) FE) as (keep & parts & K & PS & EV & _); [congruence|exact W|exact R|].
  exists keep. split; [destruct (filters (read argv)); exact K|]. cbv zeta. rewrite !events_of_app, events_of_printed, (configure_events _ _ _ _ _ _ C), EV. cbn [app].
  destruct (visible_tests (g_verbose r1) ([TestRunStarted (executable ar) (filters (read argv))] ++ List.concat parts ++ [summary_of (executable ar) (filters (read argv)) (ended (List.concat parts))])) as [V1 V2].
  { rewrite V. apply at_least_level. }
  cbn [app] in V1, V2. rewrite V1, V2. change (?a :: ?b ++ ?c) with ([a] ++ b ++ c). rewrite !started_app, !ended_app, !map_app. destruct (parts_tests _ _ PS) as [-> ->]. unfold summary_of.
  cbn [started ended flat_map app map]. rewrite !app_nil_r. split; reflexivity.
Qed.

(** ** The last event *)
Lemma run_last v tests name fs predicate events success : vlevel Normal <= vlevel v ->
  run_selected_tests lm fuel v tests name fs predicate = Ok (events, success) ->
  exists l run failed allowed skipped c, events = l ++ [TestRunEnded name fs run failed allowed skipped c success] /\ (failed = 0 <-> success = true).
Proof.
  intros V R. rewrite run_selected_verbosity in R. destruct (run_selected_tests lm fuel Full _ _ _ _) as [[ev su]|] eqn:RF; [|discriminate]. injection R as <- <-.
  destruct (summary_kept lm fuel _ _ _ _ _ _ RF) as (keep & parts & _ & _ & -> & ->). rewrite !filter_app. unfold summary_of at 1. cbn [filter].
  unfold Events.visible at 3. cbn [min_verbosity]. destruct (Nat.leb_spec (vlevel Normal) (vlevel v)); [|lia].
  rewrite app_assoc. do 6 eexists. split; [reflexivity|]. symmetry. apply Nat.eqb_eq.
Qed.

Lemma code_success (s : bool) : ((if s then 0 else 1) =? 0) = s.
Proof. destruct s; reflexivity. Qed.

Lemma main_events printed out1 r1 (events : list event) can_open r args : configure lm can_open r args = Ok (r1, out1) ->
  events_of (map Printed printed ++ out1 ++ map (Reported (g_reporter r1)) events ++ closing r1) = events.
Proof. intros C. rewrite !events_of_app, events_of_printed, (configure_events _ _ _ _ _ _ C), events_of_reported, events_closing. apply app_nil_r. Qed.

(** ** C62: the console reporter *)
Notation id_full := (fun id => full_name_of (id_name id) (id_type id)).
Notation event_shown := (event_text id_name id_type id_full id_tags file duration decimal (l_version lm)).
Notation event_fits := (displayable id_name id_type id_full duration decimal (l_version lm)).

Lemma console_reports_app l1 l2 b c c2 t : console_reports (mm lm) (mn lm) (l_version lm) b file duration c (l1 ++ l2) = Ok (c2, t) ->
  exists c1 t1 t2, console_reports (mm lm) (mn lm) (l_version lm) b file duration c l1 = Ok (c1, t1) /\
    console_reports (mm lm) (mn lm) (l_version lm) b file duration c1 l2 = Ok (c2, t2) /\ t = t1 ++ t2.
Proof.
  revert c t. induction l1 as [|e l1 IH]; intros c t; cbn [app console_reports].
  - intros H. exists c, [], t. auto.
  - destruct (console_report _ _ _ _ _ _ c e) as [[c3 o3]|]; cbn [bind]; [|discriminate].
    destruct (console_reports _ _ _ _ _ _ c3 (l1 ++ l2)) as [[c4 o4]|] eqn:E; cbn [bind]; [|discriminate]. intros [= <- <-].
    destruct (IH _ _ E) as (c1 & t1 & t2 & -> & E2 & ->). cbn [bind]. exists c1, (o3 ++ t1), t2. rewrite <- app_assoc. auto.
Qed.

Lemma console_said b c events c' texts l e : 32 <= mm lm ->
  console_reports (mm lm) (mn lm) (l_version lm) b file duration c events = Ok (c', texts) ->
  (Forall (event_fits (painted b) (mm lm) (mn lm)) events -> List.concat texts = flat_map (event_shown (painted b)) events) /\
  (events = l ++ [e] -> event_fits (painted b) (mm lm) (mn lm) e -> exists before, List.concat texts = before ++ event_shown (painted b) e).
Proof.
  intros H E. split.
  - intros D. destruct (events_look (mm lm) (mn lm) (l_version lm) b file duration H events c D) as (t & E2 & C). rewrite E in E2. injection E2 as _ ->. exact C.
  - intros -> D. destruct (console_reports_app _ _ _ _ _ _ E) as (c1 & t1 & t2 & _ & E2 & ->).
    destruct (events_look (mm lm) (mn lm) (l_version lm) b file duration H [e] c1 (Forall_cons _ D (Forall_nil _))) as (t & E3 & C). rewrite E2 in E3. injection E3 as _ ->.
    exists (List.concat t1). rewrite concat_app, C. cbn [flat_map]. now rewrite app_nil_r.
Qed.

(** Without --reporter (and no other reporter chosen before), or with --reporter console. *)
Notation console_asked := (console_asked lm file duration).

Lemma colour_step_none parse r before r' b out : colour_step parse None r before = Ok (r', b, out) -> r' = r /\ b = before.
Proof. cbn [colour_step]. intros [= <- <- <-]. auto. Qed.

Lemma no_colour_in_file can_open r args r' out : configure lm can_open r args = Ok (r', out) ->
  get_option args (lit "--out") <> None -> get_option args (lit "--color") = None -> get_option args (lit "--colour-mode") = None ->
  get_option args (lit "--reporter") = None -> g_with_color r' = false.
Proof.
  intros H O C1 C2 R. apply configure_steps in H as (r1 & b1 & o1 & r2 & b2 & o2 & r3 & o3 & r4 & o4 & o5 & S1 & S2 & S3 & S4 & S5 & ->).
  rewrite C2 in S1. rewrite C1 in S2. apply colour_step_none in S1 as [-> ->]. apply colour_step_none in S2 as [-> ->].
  rewrite R in S5. cbn [reporter_step] in S5. injection S5 as <- <-.
  destruct (get_option args (lit "--out")) as [a|]; [|contradiction]. cbn [ConfigProofs.file_step] in S4.
  destruct (value_of a); cbn [bind] in S4; [|discriminate]. destruct (open_file _ _ _); cbn [bind] in S4; [|discriminate]. injection S4 as <- <-. reflexivity.
Qed.

Theorem console_program can_open r path argv out code out' code' :
  length argv <= l_max_command_line_args lm -> acceptable argv -> asks_run (setting (read argv)) -> g_to_file r = false ->
  console_asked r argv -> 32 <= mm lm ->
  main_program can_open r path argv = Ok (out, code) -> main lm fuel can_open r path argv = Ok (out', code') ->
  code = code' /\
  exists (colours : bool) (report : text),
    report_goes lm r argv out report /\
    (Forall (event_fits (painted colours) (mm lm) (mn lm)) (events_of out') -> report = flat_map (event_shown (painted colours)) (events_of out')) /\
    (vlevel Normal <= vlevel (asked_verbosity (setting (read argv) (quote "--verbosity")) (g_verbose r)) ->
     exists before e name fs run failed allowed skipped c,
       events_of out' = before ++ [e] /\ e = TestRunEnded name fs run failed allowed skipped c (code =? 0) /\ (failed = 0 <-> code = 0) /\
       (event_fits (painted colours) (mm lm) (mn lm) e -> exists first,
          report = first ++ rule ++ summary_text duration decimal (painted colours) e run failed skipped c (code =? 0))) /\
    report_colours r argv colours.
Proof.
  intros L ACC AR TF CA H M M'. destruct (main_runs can_open r path argv out code L ACC AR TF M)
    as (printed & args & r1 & out1 & fs & pr & events & success & r3 & texts & P & C & RS & RL & -> & MM & -> & G).
  rewrite MM in M'. injection M' as <- <-. split; [reflexivity|].
  rewrite (main_events printed out1 r1 events _ _ _ C).
  destruct (choice lm file duration can_open r path argv printed args r1 out1 L P C) as (_ & _ & CH1 & CH2). cbv zeta in CH1, CH2.
  assert (Q : g_verbose r1 = asked_verbosity (setting (read argv) (quote "--verbosity")) (g_verbose r) /\
              exists c c', console_reports (mm lm) (mn lm) (l_version lm) (g_with_color r1) file duration c events = Ok (c', texts)).
  { destruct CA as [(N & GR)|(arg & i & SR & N & F)].
    - destruct (CH1 N) as (V & R1 & S1). split; [exact V|]. rewrite GR in R1. destruct (default_reports _ _ _ _ R1 RL) as (c & c' & E & _). eauto.
    - destruct (CH2 arg SR) as (_ & K). destruct (K i _ F N) as (K1 & _). destruct (K1 eq_refl) as (V & R1). split; [exact V|].
      apply configure_prepared in C as (r4 & o4 & o5 & (_ & P2 & _) & S & _). 
      destruct (parsed_options (cli_of lm) _ _ _ _ L P) as [GO _]. specialize (GO (quote "--reporter") ltac:(discriminate)). rewrite SR in GO. change quote with lit in *.
      destruct (get_option args (lit "--reporter")) as [a|]; [|discriminate]. cbn [option_map reporter_step] in *. unfold value_of in S. destruct (a_value a) as [w|]; [|discriminate].
      injection GO as ->. cbn [bind] in S. rewrite <- P2 in F. destruct (console_chosen lm file duration _ _ _ _ _ F N S) as (col & ->).
      edestruct (console_selected_reports events) as (c' & E); [| |exact RL|]; [reflexivity|reflexivity|]. eauto. }
  destruct Q as (V & c & c' & E). exists (g_with_color r1), (List.concat texts). split; [exact G|]. split; [|split].
  - intros D. eapply (proj1 (console_said _ _ _ _ _ [] (User 0) H E)); exact D.
  - intros VN. rewrite <- V in VN. destruct (run_last _ _ _ _ _ _ _ VN RS) as (l & run & failed & allowed & skipped & cs & -> & FS).
    exists l. do 8 eexists. split; [reflexivity|]. rewrite code_success. split; [reflexivity|]. split; [rewrite FS; destruct success; intuition discriminate|].
    intros D. exact (proj2 (console_said _ _ _ _ _ _ _ H E) eq_refl D).
  - exact (colours_chosen lm file duration can_open r path argv printed args r1 out1 L P C CA).
Qed.

(** ** C63: the other reporters *)
Lemma chosen_registry can_open r path argv printed args r1 out1 arg p :
  length argv <= l_max_command_line_args lm -> parse_arguments (cli_of lm) path argv = Ok (printed, Some args) -> configure lm can_open r args = Ok (r1, out1) ->
  setting (read argv) (quote "--reporter") = Some (Some arg) -> (exists i, first_named (g_reporters r) i p) -> names arg (r_name p) ->
  (p = xml_reporter lm file duration -> exists i, g_reporter r1 = Some i /\ g_storage r1 = Holds (xml_reporter lm file duration) 0) /\
  (p = teamcity_reporter lm file duration -> exists i, g_reporter r1 = Some i /\ g_storage r1 = Holds (teamcity_reporter lm file duration) tt).
Proof.
  intros L P C SR (i & F) N. apply configure_prepared in C as (r4 & o4 & o5 & (_ & P2 & _) & S & _).
  destruct (parsed_options (cli_of lm) _ _ _ _ L P) as [GO _]. specialize (GO (quote "--reporter") ltac:(discriminate)). rewrite SR in GO. change quote with lit in *.
  destruct (get_option args (lit "--reporter")) as [a|]; [|discriminate]. cbn [option_map reporter_step] in *. unfold value_of in S. destruct (a_value a) as [w|]; [|discriminate].
  injection GO as ->. cbn [bind] in S. rewrite <- P2 in F. split; intros ->.
  - rewrite (xml_chosen lm file duration _ _ _ _ _ F N S). exists i. split; reflexivity.
  - rewrite (teamcity_chosen lm file duration _ _ _ _ _ F N S). exists i. split; reflexivity.
Qed.

Theorem xml_program can_open r path argv out code out' code' arg :
  length argv <= l_max_command_line_args lm -> acceptable argv -> asks_run (setting (read argv)) -> g_to_file r = false ->
  setting (read argv) (quote "--reporter") = Some (Some arg) -> names arg (quote "xml") ->
  (exists i, first_named (g_reporters r) i (xml_reporter lm file duration)) ->
  Forall (tidy lm fuel) (g_tests r) -> harmless (l_version lm) ->
  main_program can_open r path argv = Ok (out, code) -> main lm fuel can_open r path argv = Ok (out', code') ->
  Forall (readable id_full id_tags id_fixture file duration (mm lm) (mn lm)) (events_of out') ->
  code = code' /\
  exists root report name fs run failed allowed skipped c,
    told_run id_full id_tags file duration decimal (l_version lm) (events_of out') root /\
    report_goes lm r argv out report /\ document root report /\
    hd_error (rev (events_of out')) = Some (TestRunEnded name fs run failed allowed skipped c (code =? 0)) /\ (failed = 0 <-> code = 0).
Proof.
  intros L ACC AR TF SR N (i & F) T HV M M' D. destruct (main_runs can_open r path argv out code L ACC AR TF M)
    as (printed & args & r1 & out1 & fs & pr & events & success & r3 & texts & P & C & RS & RL & -> & MM & -> & G).
  rewrite MM in M'. injection M' as <- <-. split; [reflexivity|].
  rewrite (main_events printed out1 r1 events _ _ _ C) in *.
  destruct (choice lm file duration can_open r path argv printed args r1 out1 L P C) as (T1 & _ & _ & CH2). cbv zeta in CH2.
  destruct (CH2 arg SR) as (_ & K). destruct (K i _ F N) as (_ & K1). destruct (K1 (or_introl eq_refl)) as (V & _).
  destruct (chosen_registry can_open r path argv printed args r1 out1 arg (xml_reporter lm file duration) L P C SR (ex_intro _ i F) N) as (X & _).
  destruct (X eq_refl) as (i' & R1 & S1). destruct (xml_selected_reports _ _ _ _ _ _ R1 S1 RL) as (k & E).
  assert (VH : vlevel High <= vlevel (g_verbose r1)) by (rewrite V; apply at_least_level).
  rewrite <- T1 in T. destruct (run_told (l_version lm) file duration lm fuel _ _ _ _ _ _ _ VH T RS) as (root & KR).
  destruct (run_document (mm lm) (mn lm) (l_version lm) file duration events root KR D HV) as (o & E1 & E2). rewrite E in E1. injection E1 as -> ->.
  assert (VN : vlevel Normal <= vlevel (g_verbose r1)) by (cbn in *; lia).
  destruct (run_last _ _ _ _ _ _ _ VN RS) as (l & run & failed & allowed & skipped & cs & EV & FS).
  exists root, (List.concat o). do 7 eexists. split; [exact KR|]. split; [exact G|]. split; [exact E2|].
  rewrite EV, rev_app_distr, code_success. split; [reflexivity|]. rewrite FS. destruct success; intuition discriminate.
Qed.

Theorem teamcity_program can_open r path argv out code out' code' arg :
  length argv <= l_max_command_line_args lm -> acceptable argv -> asks_run (setting (read argv)) -> g_to_file r = false ->
  setting (read argv) (quote "--reporter") = Some (Some arg) -> names arg (quote "teamcity") ->
  (exists i, first_named (g_reporters r) i (teamcity_reporter lm file duration)) ->
  main_program can_open r path argv = Ok (out, code) -> main lm fuel can_open r path argv = Ok (out', code') ->
  Forall (telling id_full file duration decimal (mm lm) (mn lm)) (events_of out') ->
  code = code' /\
  exists report, report_goes lm r argv out report /\ message_lines (flat_map (messages_of id_full file duration decimal) (events_of out')) report.
Proof.
  intros L ACC AR TF SR N (i & F) M M' D. destruct (main_runs can_open r path argv out code L ACC AR TF M)
    as (printed & args & r1 & out1 & fs & pr & events & success & r3 & texts & P & C & RS & RL & -> & MM & -> & G).
  rewrite MM in M'. injection M' as <- <-. split; [reflexivity|].
  rewrite (main_events printed out1 r1 events _ _ _ C) in *.
  destruct (chosen_registry can_open r path argv printed args r1 out1 arg (teamcity_reporter lm file duration) L P C SR (ex_intro _ i F) N) as (_ & X).
  destruct (X eq_refl) as (i' & R1 & S1). pose proof (teamcity_selected_reports _ _ _ _ _ R1 S1 RL) as E.
  exists (List.concat texts). split; [exact G|].
  destruct (reports_told (mm lm) (mn lm) file duration events D) as (t & (o & E1 & E3) & E2). rewrite E in E1. injection E1 as ->. rewrite E3. exact E2.
Qed.
End Whole.
