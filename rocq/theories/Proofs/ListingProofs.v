(** Programs that list their tests (C109). *)
From Coq Require Import NArith Lia.
From Verif.Spec Require Import TextSpec FilterSpec PrintSpec NumberSpec EscapeSpec RunSpec TreeSpec Events VerdictSpec SessionSpec ProgramSpec XmlSpec ServiceSpec ConsoleSpec CutSpec CutServiceSpec CutXmlSpec CliSpec ListingSpec.
From Verif.Model Require Import Base Vector StringUtil Print Filter Run Cli File Session Reporters Program.
From Verif.Spec Require Import ProgramClaims LinkClaims ListingClaims.
From Verif.Proofs Require Import Lists FilterProofs CliProofs CliFacts SessionProofs SessionFacts ConfigProofs ProgramProofs EndToEndProofs ChoiceProofs ReportExamples WholeProofs ProgramFacts CutProofs CutProgram CutService CutXml TotalProofs LinkProofs AddProofs WarningProofs.
Local Open Scope string_scope.
Local Open Scope list_scope.
Local Open Scope nat_scope.

Section Listing.
Variable lm : Session.limits.
Variable fuel : nat.
Variable file : event -> text.
Variable duration : event -> option text.
Notation main_program := (main_program lm fuel file duration).
Notation report_list := (report_list lm file duration).

Lemma positional_given args fs : for_each_positional_argument args (lit "test regex") = Ok fs ->
  (get_positional_argument args (lit "test regex") = None <-> fs = []).
Proof.
  unfold get_positional_argument, for_each_positional_argument. revert fs. induction (arguments args) as [|b l IH]; cbn [positional_values List.find]; intros fs F; [injection F as <-; tauto|].
  destruct (_ && _); [|eauto]. destruct (a_value b); [|discriminate F]. destruct (positional_values _ l); cbn [bind] in F; [|discriminate F]. injection F as <-. split; discriminate.
Qed.

Definition lister (argv : list text) (id : test_id) : res bool :=
  match setting (read argv) (lit "--list-tests-with-tag") with
  | Some (Some tag) => do m <- is_filter_match_tags (l_max_tag_length lm) (id_tags id) tag ;; Ok (included m)
  | _ => match filters (read argv) with [] => Ok true | fs => cli_selects (l_max_tag_length lm) (l_max_test_name_length lm) fs id end
  end.
Definition listed_by (argv : list text) (t : test_case) : bool := match lister argv (t_id t) with Ok b => b | Err _ => false end.

Lemma the_listed_by argv : the_listed lm argv (listed_by argv).
Proof.
  intros t tags E W L. unfold listed_by, lister, in_list. change quote with lit in *.
  destruct (setting (read argv) (lit "--list-tests-with-tag")) as [[tag|]|].
  - rewrite E. destruct (tags_filter_spec (l_max_tag_length lm) tags tag W) as (m & -> & I & _). exact I.
  - destruct (filters (read argv)) as [|f fs]; [tauto|].
    destruct (cli_selects_spec (l_max_tag_length lm) (l_max_test_name_length lm) (f :: fs) (t_id t) tags E W ltac:(discriminate) (L ltac:(discriminate))) as (b & -> & B).
    rewrite B. intuition discriminate.
  - destruct (filters (read argv)) as [|f fs]; [tauto|].
    destruct (cli_selects_spec (l_max_tag_length lm) (l_max_test_name_length lm) (f :: fs) (t_id t) tags E W ltac:(discriminate) (L ltac:(discriminate))) as (b & -> & B).
    rewrite B. intuition discriminate.
Qed.

Lemma listing_impl r args argv out success :
  (forall name, name <> [] -> option_map a_value (get_option args name) = setting (read argv) name) ->
  for_each_positional_argument args (quote "test regex") = Ok (filters (read argv)) -> asks_list (setting (read argv)) ->
  run_tests_impl lm fuel r args = Ok (out, success) ->
  success = true /\ exists events, list_events (g_tests r) (lister argv) = Ok events /\ out = map (Reported (g_reporter r)) events.
Proof.
  change quote with lit. intros G FE (H & AL) R. change quote with lit in *.
  assert (GN : forall n, n <> [] -> setting (read argv) n = None -> get_option args n = None).
  { intros n NE Q. specialize (G n NE). rewrite Q in G. now destruct (get_option args n). }
  unfold run_tests_impl in R. rewrite (GN (lit "--help") ltac:(discriminate) H) in R.
  pose proof (G (lit "--list-tests-with-tag") ltac:(discriminate)) as G1. unfold lister. rewrite <- G1.
  destruct (get_option args (lit "--list-tests-with-tag")) as [a|] eqn:TG; cbn [option_map] in *.
  - unfold value_of in R. destruct (a_value a) as [tag|]; cbn [bind] in R; [|discriminate]. fold (mt lm).
    destruct (list_events _ _) as [l|] eqn:LE; cbn [bind] in R; [|discriminate]. injection R as <- <-. eauto.
  - destruct AL as [AL|(AL & LT)]; [congruence|]. 
    rewrite (GN (lit "--list-tags") ltac:(discriminate)), (GN (lit "--list-reporters") ltac:(discriminate)) in R by (apply AL; cbn; auto).
    pose proof (G (lit "--list-tests") ltac:(discriminate)) as G2. pose proof (positional_given _ _ FE) as PG.
    destruct (get_option args (lit "--list-tests")) as [b|]; [|cbn [option_map] in G2; congruence].
    destruct (get_positional_argument args (lit "test regex")) as [c|].
    + rewrite FE in R. cbn [bind] in R. destruct (filters (read argv)) as [|f fs]; [destruct PG as (_ & PG); discriminate (PG eq_refl)|].
      fold (mt lm) (mn lm). destruct (list_events _ _) as [l|] eqn:LE; cbn [bind] in R; [|discriminate]. injection R as <- <-. eauto.
    + rewrite (proj1 PG eq_refl). destruct (list_events _ _) as [l|] eqn:LE; cbn [bind] in R; [|discriminate]. injection R as <- <-. eauto.
Qed.

Theorem main_lists can_open r path argv out code :
  length argv <= l_max_command_line_args lm -> acceptable argv -> asks_list (setting (read argv)) -> g_to_file r = false ->
  main_program can_open r path argv = Ok (out, code) ->
  exists printed args r1 out1 r3 texts,
    parse_arguments (cli_of lm) path argv = Ok (printed, Some args) /\ configure lm can_open r args = Ok (r1, out1) /\
    report_list r1 (listing_events (map (fun t => (t_id t, t_line t)) (filter (listed_by argv) (g_tests r)))) = Ok (r3, texts) /\ code = 0 /\
    report_goes lm r argv out (List.concat texts).
Proof.
  intros L ACC AR TF M. destruct (main_program_inv lm fuel file duration can_open r path argv out code L ACC M)
    as (printed & args & r1 & out1 & r2 & out2 & r3 & out3 & success & P & C & R & PF & -> & -> & MM).
  destruct (parsed_options (cli_of lm) _ _ _ _ L P) as [G FE].
  destruct (choice lm (fun _ => []) (fun _ => None) can_open r path argv printed args r1 out1 L P C) as (T & _).
  destruct (run_tests_inv lm fuel _ _ _ _ _ R) as (o & RI & _ & -> & _).
  destruct (listing_impl _ _ _ _ _ G FE AR RI) as (-> & events & LE & ->).
  destruct (list_events_select _ _ _ LE) as (EV & _ & _). rewrite T in EV.
  pose proof (configure_effect _ _ _ _ _ _ C) as CE.
  assert (W : writable r1 /\ g_to_file r1 = has_file argv).
  { unfold writable, has_file. rewrite <- (G (quote "--out") ltac:(discriminate)). change quote with lit. destruct (get_option args (lit "--out")).
    - destruct CE as (b & f & p' & v & _ & _ & _ & _ & _ & F & T'). rewrite F, T'. split; [intros _; discriminate|reflexivity].
    - destruct CE as (_ & _ & T'). rewrite T', TF. split; [discriminate|reflexivity]. }
  destruct W as [W WF]. rewrite (perform_reported lm file duration) in PF by exact W.
  destruct (report_list r1 events) as [[r4 texts]|] eqn:RL; cbn [bind] in PF; [|discriminate].
  assert (SS : g_reporter r1 = g_reporter r4 /\ g_file r1 = g_file r4).
  { destruct (report_list_storage _ _ _ _ _ _ _ RL) as [->|(x & ->)]; auto. }
  rewrite (perform_closing lm file duration r1 r4) in PF by apply SS. cbn [bind] in PF. injection PF as <- <-.
  assert (CL : closing r4 = closing r1) by (unfold closing; destruct SS as [-> ->]; reflexivity). rewrite CL.
  exists printed, args, r1, out1, r4, texts. do 2 (split; [assumption|]). split.
  { unfold listing_events. rewrite map_map. cbn [fst snd]. change (filter (listed_by argv) (g_tests r)) with (select (lister argv) (g_tests r)). now rewrite <- EV. }
  split; [reflexivity|]. destruct (closing_text r1) as [K1 K2]. apply (goes lm can_open r path argv printed args r1 out1 _ _ L ACC P C).
  rewrite !console_text_app, !file_text_app, console_text_printed, file_text_printed, console_text_put, file_text_put, K1, K2, (configure_file_text _ _ _ _ _ _ C), WF, !app_nil_r. cbn [app].
  destruct (has_file argv); rewrite ?app_nil_r, <- ?app_assoc; auto.
Qed.
End Listing.

(** ** The three reporters *)
Theorem console_lists :
  exists shown : nat -> text, (forall n, (N.of_nat n < 2 ^ 64)%N -> writes 10 (shown n) (N.of_nat n)) /\
  forall (lm : Session.limits) (fuel : nat) (file : event -> text) (duration : event -> option text) (can_open : text -> bool)
    (r : registry) (path : text) (argv : list text) (out : list output) (code : nat),
  length argv <= l_max_command_line_args lm -> acceptable argv -> asks_list (setting (read argv)) -> g_to_file r = false ->
  console_asked lm file duration r argv -> main_program lm fuel file duration can_open r path argv = Ok (out, code) ->
  exists colours : bool, report_colours r argv colours /\
    lists_tests (cut_listing (l_max_message_length lm) (l_max_test_name_length lm) colours id_name id_type (fun id => full_name_of (id_name id) (id_type id)) id_tags
                   file duration shown (l_version lm)) lm r argv out code.
Proof.
  exists decimal. split; [exact decimal_reads|]. intros lm fuel file duration can_open r path argv out code L ACC AL TF CA M.
  destruct (main_lists lm fuel file duration can_open r path argv out code L ACC AL TF M) as (printed & args & r1 & out1 & r3 & texts & P & C & RL & -> & G).
  destruct (choice lm file duration can_open r path argv printed args r1 out1 L P C) as (_ & _ & CH1 & CH2). cbv zeta in CH1, CH2.
  set (tests := map _ _) in *.
  assert (Q : exists c c', console_reports (l_max_message_length lm) (l_max_test_name_length lm) (l_version lm) (g_with_color r1) file duration c (listing_events tests) = Ok (c', texts)).
  { destruct CA as [(N & GR)|(arg & i & SR & N & F)].
    - destruct (CH1 N) as (V & R1 & S1). rewrite GR in R1. destruct (default_reports lm file duration _ _ _ _ R1 RL) as (c & c' & E & _). eauto.
    - destruct (CH2 arg SR) as (_ & K). destruct (K i _ F N) as (K1 & _). destruct (K1 eq_refl) as (V & R1).
      apply configure_prepared in C as (r4 & o4 & o5 & (_ & P2 & _) & S & _).
      destruct (parsed_options (cli_of lm) _ _ _ _ L P) as [GO _]. specialize (GO (quote "--reporter") ltac:(discriminate)). rewrite SR in GO. change quote with lit in *.
      destruct (get_option args (lit "--reporter")) as [a|]; [|discriminate]. cbn [option_map reporter_step] in *. unfold value_of in S. destruct (a_value a) as [w|]; [|discriminate].
      injection GO as ->. cbn [bind] in S. rewrite <- P2 in F. destruct (console_chosen lm file duration _ _ _ _ _ F N S) as (col & ->).
      edestruct (console_selected_reports lm file duration (listing_events tests)) as (c' & E); [| |exact RL|]; [reflexivity|reflexivity|]. eauto. }
  destruct Q as (c & c' & E). exists (g_with_color r1). split; [exact (colours_chosen lm file duration can_open r path argv printed args r1 out1 L P C CA)|]. exists (listed_by lm argv). split; [apply the_listed_by|]. split; [|reflexivity].
  destruct (listing_gives (l_max_message_length lm) (l_max_test_name_length lm) (l_version lm) (g_with_color r1) file duration c tests) as (c2 & o & E' & K).
  unfold listing_events in E. cbn [app] in E. rewrite E in E'. injection E' as _ <-. rewrite K in G. exact G.
Qed.

Theorem teamcity_lists :
  exists name_of : nat -> test_id -> text,
  (forall n id, cut_field teamcity_code n (firstn n (full_name_of (id_name id) (id_type id))) (name_of n id)) /\
  forall (lm : Session.limits) (fuel : nat) (file : event -> text) (duration : event -> option text) (can_open : text -> bool)
    (r : registry) (path : text) (argv : list text) (out : list output) (code : nat),
  length argv <= l_max_command_line_args lm -> acceptable argv -> asks_list (setting (read argv)) -> g_to_file r = false ->
  reporter_asked (teamcity_reporter lm file duration) r argv -> main_program lm fuel file duration can_open r path argv = Ok (out, code) ->
  lists_tests (flat_map (fun t => name_of (l_max_test_name_length lm) (fst t) ++ [ascii_of_nat 10])) lm r argv out code.
Proof.
  exists tc_name. split; [apply name_made|]. intros lm fuel file duration can_open r path argv out code L ACC AL TF (arg & i & SR & N & F) M.
  destruct (main_lists lm fuel file duration can_open r path argv out code L ACC AL TF M) as (printed & args & r1 & out1 & r3 & texts & P & C & RL & -> & G).
  set (tests := map _ _) in *.
  destruct (chosen_registry lm file duration can_open r path argv printed args r1 out1 arg (teamcity_reporter lm file duration) L P C SR (ex_intro _ i F) N) as (_ & X).
  destruct (X eq_refl) as (i' & R1 & S1). pose proof (teamcity_selected_reports lm file duration _ _ _ _ _ R1 S1 RL) as E.
  exists (listed_by lm argv). split; [apply the_listed_by|]. split; [|reflexivity].
  destruct (services_given (l_max_message_length lm) (l_max_test_name_length lm) file duration (listing_events tests)) as (o & E1 & E2). unfold mm, mn in E. rewrite E in E1. injection E1 as ->. rewrite E2 in G.
  fold tests. replace (flat_map (fun t => tc_name (l_max_test_name_length lm) (fst t) ++ [ascii_of_nat 10]) tests) with
    (flat_map (service_text (l_max_message_length lm) (tc_field (l_max_message_length lm)) (tc_name (l_max_test_name_length lm)) (tc_suite (l_max_message_length lm)) file duration decimal) (listing_events tests)); [exact G|].
  unfold listing_events. rewrite !flat_map_app. cbn [flat_map service_text app]. rewrite app_nil_r. clear. induction tests as [|t tests IH]; [reflexivity|]. cbn [map flat_map]. now rewrite IH.
Qed.

Theorem xml_lists :
  exists (shown : nat -> text) (field : nat -> text -> text) (name_of : nat -> test_id -> text),
  (forall n, (N.of_nat n < 2 ^ 64)%N -> writes 10 (shown n) (N.of_nat n)) /\
  (forall n s, cut_field xml_entities n (fit n s) (field n s)) /\
  (forall n id, cut_field xml_entities n (firstn n (full_name_of (id_name id) (id_type id))) (name_of n id)) /\
  forall (lm : Session.limits) (fuel : nat) (file : event -> text) (duration : event -> option text) (can_open : text -> bool)
    (r : registry) (path : text) (argv : list text) (out : list output) (code : nat),
  length argv <= l_max_command_line_args lm -> acceptable argv -> asks_list (setting (read argv)) -> g_to_file r = false ->
  reporter_asked (xml_reporter lm file duration) r argv -> main_program lm fuel file duration can_open r path argv = Ok (out, code) ->
  lists_tests (drawn_listing (field (l_max_message_length lm)) (name_of (l_max_test_name_length lm)) id_tags id_fixture file shown) lm r argv out code.
Proof.
  exists decimal, xml_field, xml_full. split; [exact decimal_reads|]. split; [apply xml_field_made|]. split; [apply xml_name_made|].
  intros lm fuel file duration can_open r path argv out code L ACC AL TF (arg & i & SR & N & F) M.
  destruct (main_lists lm fuel file duration can_open r path argv out code L ACC AL TF M) as (printed & args & r1 & out1 & r3 & texts & P & C & RL & -> & G).
  set (tests := map _ _) in *.
  destruct (chosen_registry lm file duration can_open r path argv printed args r1 out1 arg (xml_reporter lm file duration) L P C SR (ex_intro _ i F) N) as (X & _).
  destruct (X eq_refl) as (i' & R1 & S1). destruct (xml_selected_reports lm file duration _ _ _ _ _ _ R1 S1 RL) as (k & E).
  exists (listed_by lm argv). split; [apply the_listed_by|]. split; [|reflexivity]. fold tests.
  unfold mm, mn in E. apply draws_reports in E. unfold listing_events in E.
  rewrite !flat_map_app in E. cbn [flat_map xml_lines app] in E. unfold drawn_listing.
  replace (flat_map _ tests) with (flat_map (xml_lines (xml_field (l_max_message_length lm)) (xml_full (l_max_test_name_length lm)) (xml_filters (l_max_message_length lm)) id_tags id_fixture file duration decimal (l_version lm))
     (map (fun t => TestCaseListed (fst t) (snd t)) tests)).
  2:{ clear. induction tests as [|t tests IH]; [reflexivity|]. cbn [map flat_map]. now rewrite IH. }
  cbn [app]. rewrite E. exact G.
Qed.

(** ** What the tests do is irrelevant *)
Lemma list_bodies p : forall tests tests', map (fun t => (t_id t, t_line t)) tests = map (fun t => (t_id t, t_line t)) tests' ->
  list_events tests p = list_events tests' p.
Proof.
  intros tests tests' E. unfold list_events. f_equal. revert tests' E. induction tests as [|t tests IH]; intros [|t' tests'] E; try discriminate; [reflexivity|].
  cbn [map] in E. injection E as EI EL E. cbn [list_loop]. rewrite EI, EL, (IH _ E). reflexivity.
Qed.
Lemma impl_bodies lm fuel fuel' l r args n : In n (lit "--list-tests" :: actions) -> get_option args n <> None ->
  map (fun t => (t_id t, t_line t)) l = map (fun t => (t_id t, t_line t)) (g_tests r) ->
  run_tests_impl lm fuel r args = run_tests_impl lm fuel' (with_tests l r) args.
Proof.
  intros I NN E. unfold run_tests_impl. cbn [g_tests with_tests g_reporter g_verbose g_with_color g_reporters].
  destruct (get_option args (lit "--help")) eqn:O1; [reflexivity|].
  destruct (get_option args (lit "--list-tests-with-tag")) as [opt|] eqn:O2.
  { destruct (value_of opt); cbn [bind]; [|reflexivity]. now rewrite (list_bodies _ _ _ E). }
  destruct (get_option args (lit "--list-tags")) eqn:O3.
  { replace (map t_id l) with (map t_id (g_tests r)); [reflexivity|]. apply (f_equal (map fst)) in E. rewrite !map_map in E. symmetry. exact E. }
  destruct (get_option args (lit "--list-reporters")) eqn:O4; [reflexivity|].
  destruct (get_option args (lit "--list-tests")) eqn:O5.
  - destruct (get_positional_argument args (lit "test regex")).
    + destruct (for_each_positional_argument _ _); cbn [bind]; [|reflexivity]. now rewrite (list_bodies _ _ _ E).
    + now rewrite (list_bodies _ _ _ E).
  - exfalso. cbn [In actions] in I. change quote with lit in I. destruct I as [<-|[<-|[<-|[<-|[<-|[]]]]]]; congruence.
Qed.
Theorem bodies_ignored lm fuel fuel' file duration can_open r r' path argv :
  length argv <= l_max_command_line_args lm -> ~ asks_run (setting (read argv)) -> same_but_bodies r r' ->
  main_program lm fuel file duration can_open r path argv = main_program lm fuel' file duration can_open r' path argv.
Proof.
  intros L NR (S & E). rewrite (same_with _ _ S). unfold main_program. destruct (parse_arguments (cli_of lm) path argv) as [[printed [args|]]|] eqn:P; cbn [bind]; [|reflexivity|reflexivity].
  rewrite configure_with. destruct (configure lm can_open r args) as [[r1 out1]|] eqn:C; cbn [lift bind]; [|reflexivity].
  destruct (choice lm (fun _ => []) (fun _ => None) can_open r path argv printed args r1 out1 L P C) as (T & _).
  destruct (parsed_options (cli_of lm) _ _ _ _ L P) as [G _].
  assert (N : exists n, In n (lit "--list-tests" :: actions) /\ get_option args n <> None).
  { destruct (existsb (fun n => match get_option args n with Some _ => true | None => false end) (lit "--list-tests" :: actions)) eqn:X.
    - apply existsb_exists in X as (n & I & Q). exists n. split; [exact I|]. intros K. rewrite K in Q. discriminate.
    - exfalso. apply NR. intros n I. change quote with lit in I. assert (NE : n <> []) by (cbn in I; intuition (subst; discriminate)).
      rewrite <- (G n NE). destruct (get_option args n) eqn:Q; [|reflexivity]. exfalso.
      assert (Y : existsb (fun n => match get_option args n with Some _ => true | None => false end) (lit "--list-tests" :: actions) = true) by (apply existsb_exists; exists n; rewrite Q; auto). congruence. }
  destruct N as (n & I & NN). unfold run_program. rewrite !run_tests_impl_eq.
  rewrite (impl_bodies lm fuel fuel' (g_tests r') r1 args n I NN) by (rewrite T; symmetry; exact E).
  destruct (run_tests_impl lm fuel' (with_tests (g_tests r') r1) args) as [[o su]|]; cbn [bind]; [|reflexivity].
  change (closing (with_tests (g_tests r') r1)) with (closing r1). rewrite perform_with. destruct (perform lm file duration r1 _) as [[r2 o2]|]; reflexivity.
Qed.

(** A program that is not asked to run its tests does not fail because of them. *)
Theorem listing_completes lm fuel file duration can_open r path argv (tests : list (test_case * list text)) :
  length argv <= l_max_command_line_args lm -> ~ asks_run (setting (read argv)) -> g_reporter r = None -> g_to_file r = false ->
  g_tests r = map fst tests ->
  Forall (fun x => id_tags (t_id (fst x)) = tag_string (snd x) /\ well_formed (l_max_tag_length lm) (snd x) /\
                   length (full_name_of (id_name (t_id (fst x))) (id_type (t_id (fst x)))) <= l_max_test_name_length lm) tests ->
  listable lm argv tests ->
  (forall f, setting (read argv) (quote "--out") = Some (Some f) -> ~ In zero f /\ length f <= l_max_path_length lm /\ can_open f = true) ->
  Forall (fun p => starts p /\ (speaks p \/ p = xml_reporter lm file duration)) (g_reporters r) ->
  exists out code, main_program lm fuel file duration can_open r path argv = Ok (out, code) /\ code <= 1.
Proof.
  intros L NR GR TF T F LT OF RP. set (tests' := map (fun x : test_case * list text => (mktest (t_id (fst x)) (t_line (fst x)) Nil, snd x)) tests).
  set (r' := with_tests (map fst tests') r).
  rewrite (bodies_ignored lm fuel 1 file duration can_open r r' path argv L NR).
  2:{ split; [repeat split|]. cbn [g_tests with_tests r']. rewrite T. unfold tests'. rewrite !map_map. reflexivity. }
  apply never_fails with (tests := tests'); auto.
  - unfold tests'. apply Forall_map. eapply Forall_impl; [|exact F]. intros x (E & W & LE). unfold able. cbn [fst snd t_id t_body].
    split; [exact E|]. split; [exact W|]. split.
    { exists (if in_dec (list_eq_dec ascii_dec) (quote "[!mayfail]") (tags_of (snd x)) then true else false), (if in_dec (list_eq_dec ascii_dec) (quote "[!shouldfail]") (tags_of (snd x)) then true else false).
      split; destruct (in_dec _ _ _); intuition discriminate. }
    split; [exact LE|]. cbn. repeat split; lia.
  - destruct LT as [LT|(D & all & LA & I)]; [left; exact LT|right]. unfold tests'. split.
    + apply Forall_map. cbn [snd]. exact D.
    + exists all. split; [exact LA|]. intros x t Hx. apply in_map_iff in Hx as (y & <- & Hy). cbn [snd]. eauto.
Qed.
