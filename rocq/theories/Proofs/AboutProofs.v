(** Reports name the test that they are about (C114). *)
From Coq Require Import NArith Permutation Lia.
From Verif.Spec Require Import TextSpec FilterSpec NumberSpec PrintSpec Events VerdictSpec XmlSpec TreeSpec SessionSpec ProgramSpec ShardSpec EscapeSpec ServiceSpec CutSpec CutServiceSpec CutXmlSpec CliSpec AboutSpec.
From Verif.Model Require Import Base Vector StringUtil Print Filter Run Cli File Session Reporters Program.
From Verif.Spec Require Import ProgramClaims LinkClaims FailureClaims.
From Verif.Proofs Require Import Lists RunFacts ScopeProofs SessionProofs SessionFacts ConfigProofs ChoiceProofs ShardProofs LinkTexts OutputProofs AddProofs FailureProofs EndToEndProofs CutService CutXml.
Local Open Scope list_scope.
Local Open Scope nat_scope.

Lemma tags_decided (tags : list text) : exists may should, tagged tags may should.
Proof.
  assert (D : forall x y : text, {x = y} + {x <> y}) by (apply list_eq_dec; exact ascii_dec).
  exists (if in_dec D (quote "[!mayfail]") (tags_of tags) then true else false), (if in_dec D (quote "[!shouldfail]") (tags_of tags) then true else false).
  unfold tagged. destruct (in_dec D (quote "[!mayfail]") (tags_of tags)), (in_dec D (quote "[!shouldfail]") (tags_of tags)); intuition discriminate.
Qed.

(** One test. *)
Theorem run_speaks cf fuel t before st : cf_verbosity cf = Full -> run cf fuel t before = Ok st ->
  exists body c s may should,
    trace st = before ++ [TestCaseStarted (t_id t) (t_line t)] ++ body ++ [TestCaseEnded (t_id t) (t_line t) c s] /\
    Forall (speaks_of (t_id t) may should) body /\ s = VerdictSpec.verdict body /\
    forall tags, id_tags (t_id t) = tag_string tags -> well_formed (cf_max_tag_length cf) tags -> tagged tags may should.
Proof.
  intros V R. destruct (fail_flags (cf_max_tag_length cf) (id_tags (t_id t))) as [[may should]|] eqn:FF.
  2:{ unfold run in R. rewrite FF in R. discriminate. }
  destruct (run_shape cf V fuel t before st may should FF R) as (body & last & X). cbv zeta in X. destruct X as (X1 & _ & _ & X4 & _ & X6).
  exists (body ++ last), (tally (body ++ last)), (VerdictSpec.verdict (body ++ last)), may, should. split; [rewrite X1; now rewrite <- !app_assoc|]. split.
  - apply Forall_app. split.
    + eapply Forall_impl; [|exact X4]. intros e. destruct e; cbn; intuition.
    + rewrite X6. destruct should; cbn [andb]; [|constructor]. destruct (negb _); [|constructor]. constructor; [|constructor].
      destruct (VerdictSpec.verdict body); cbn; auto.
  - split; [reflexivity|]. intros tags E W. destruct (tags_decided tags) as (may' & should' & T). pose proof (flags_of _ _ _ _ _ E W T) as F. rewrite FF in F. injection F as -> ->. exact T.
Qed.

Section Program.
Variable lm : Session.limits.
Variable fuel : nat.


(** What is reported about a test, at full verbosity. *)
Definition told (x : test_case * list event) : Prop :=
  exists body c s may should,
    snd x = [TestCaseStarted (t_id (fst x)) (t_line (fst x))] ++ body ++ [TestCaseEnded (t_id (fst x)) (t_line (fst x)) c s] /\
    Forall (speaks_of (t_id (fst x)) may should) body /\ s = VerdictSpec.verdict body /\
    forall tags, id_tags (t_id (fst x)) = tag_string tags -> well_formed (l_max_tag_length lm) tags -> tagged tags may should.

Lemma happened_told parts : what_happened lm fuel parts -> Forall told parts.
Proof.
  apply Forall_impl. intros [t part] (st & R & T). cbn [fst snd] in *.
  destruct (run_speaks (config_of lm Full) fuel t [] st eq_refl R) as (body & c & s & may & should & E & S & SV & G).
  exists body, c, s, may, should. cbn [fst snd]. rewrite <- T, E. auto.
Qed.

Theorem program_speaks can_open r path argv out code : length argv <= l_max_command_line_args lm -> acceptable argv -> asks_run (setting (read argv)) ->
  main lm fuel can_open r path argv = Ok (out, code) ->
  exists (v : verbosity) (name : text) (is_run : test_case -> bool) (parts : list (test_case * list event)),
    the_chosen lm argv is_run /\ map fst parts = filter is_run (g_tests r) /\
    events_of out = filter (Events.visible v) (events_of_run name (filters (read argv)) (map snd parts)) /\
    Forall (fun x => exists body c s may should,
      snd x = [TestCaseStarted (t_id (fst x)) (t_line (fst x))] ++ body ++ [TestCaseEnded (t_id (fst x)) (t_line (fst x)) c s] /\
      Forall (speaks_of (t_id (fst x)) may should) body /\ s = VerdictSpec.verdict body /\
      forall tags, id_tags (t_id (fst x)) = tag_string tags -> well_formed (l_max_tag_length lm) tags -> tagged tags may should) parts.
Proof.
  intros L ACC AR M. destruct (main_ran lm fuel can_open r path argv out code L ACC AR M) as (events & success & v & T & _ & EV & _).
  unfold tested in T. destruct (tested_failed lm fuel _ _ _ _ _ _ T) as (parts & MF & WH & -> & _).
  exists v, (extract_executable path), (kept (picks lm (filters (read argv)))), parts. split; [apply picks_chosen|]. split; [exact MF|]. split; [exact EV|].
  exact (happened_told parts WH).
Qed.

Variable file : event -> text.
Variable duration : event -> option text.

Lemma service_events p can_open r path argv out code : p = teamcity_reporter lm file duration \/ p = xml_reporter lm file duration -> length argv <= l_max_command_line_args lm -> acceptable argv -> asks_run (setting (read argv)) ->
  reporter_asked p r argv -> main lm fuel can_open r path argv = Ok (out, code) ->
  exists v events success, vlevel High <= vlevel v /\ tested lm fuel r path (filters (read argv)) = Ok (events, success) /\ events_of out = filter (Events.visible v) events /\ code = (if success then 0 else 1).
Proof.
  intros PP L ACC AR RA M. destruct (main_reads lm fuel can_open r path argv L ACC AR) as (printed & args & P & E). rewrite E in M. clear E.
  destruct (configure lm can_open r args) as [[r1 out1]|] eqn:C; [|discriminate].
  destruct (tested lm fuel r path (filters (read argv))) as [[events success]|]; [|discriminate]. injection M as <- <-.
  exists (g_verbose r1), events, success. split; [|split; [reflexivity|split; [|reflexivity]]].
  - pose proof (choice lm file duration can_open r path argv printed args r1 out1 L P C) as CH. cbv zeta in CH. destruct CH as (_ & _ & _ & A).
    destruct RA as (arg & i & S & NA & FI). destruct (A arg S) as (_ & K). destruct (K i _ FI NA) as (_ & K1). destruct K1 as [K1 _]; [tauto|].
    rewrite K1. unfold at_least. destruct (asked_verbosity _ _); cbn; auto.
  - now rewrite !events_of_app, events_of_printed, (configure_events _ _ _ _ _ _ C), events_of_reported, events_closing, app_nil_r.
Qed.
End Program.

Section Lines.
Variable mm : nat.
Variable field : text -> text.
Variable name_of : test_id -> text.
Variable suite_of : text -> list text -> text.
Variable file : event -> text.
Variable duration : event -> option text.
Variable shown : nat -> text.
Notation lines := (service_text mm field name_of suite_of file duration shown).

Definition kinds (l : list event) (messages : list (text * list (text * text))) : Prop :=
  (In (quote "testFailed") (map fst messages) <-> exists e, In e l /\ VerdictSpec.says e = Failed) /\
  (In (quote "testIgnored") (map fst messages) <-> exists e, In e l /\ VerdictSpec.says e = Skipped).
Lemma kinds_hidden (e : event) l ms : VerdictSpec.says e <> Failed -> VerdictSpec.says e <> Skipped -> kinds l ms -> kinds (e :: l) ms.
Proof.
  intros A B (K1 & K2). split; [rewrite K1|rewrite K2]; (split; [intros (x & I & S); exists x; split; [now right|exact S]|intros (x & [<-|I] & S); [contradiction|eauto]]).
Qed.
Lemma kinds_shown (e : event) l m ms : (fst m = quote "testFailed" <-> VerdictSpec.says e = Failed) -> (fst m = quote "testIgnored" <-> VerdictSpec.says e = Skipped) -> kinds l ms -> kinds (e :: l) (m :: ms).
Proof.
  intros A B (K1 & K2). cbn [kinds map]. split; cbn [map In]; [rewrite K1, A|rewrite K2, B]; (split; [intros [S|(x & I & S)]; [exists e; split; [now left|exact S]|exists x; split; [now right|exact S]]|intros (x & [<-|I] & S); [now left|right; eauto]]).
Qed.
Lemma seen v (e : event) : VerdictSpec.says e = Failed \/ VerdictSpec.says e = Skipped -> Events.visible v e = true.
Proof. destruct e; cbn [VerdictSpec.says]; try (intros [H|H]; discriminate); intros _; destruct v; reflexivity. Qed.

Lemma told_lines id may should v l : Forall (speaks_of id may should) l ->
  exists messages, flat_map lines (filter (Events.visible v) l) = flat_map (fun m => service_line (fst m) (snd m)) messages /\ Forall (message_about (name_of id)) messages /\ kinds l messages.
Proof.
  induction 1 as [|e l S F (ms & E & A & K)]; [exists []; split; [reflexivity|split; [constructor|split; (split; [intros []|intros (x & [] & _)])]]|]. cbn [filter].
  destruct (Events.visible v e) eqn:V.
  2:{ exists ms. split; [exact E|]. split; [exact A|]. apply kinds_hidden; [| |exact K]; intros X; rewrite (seen v e) in V; auto; discriminate. }
  cbn [flat_map]. rewrite E.
  destruct (match e with User _ => true | _ => false end) eqn:U.
  { destruct e; try discriminate. exists ms. split; [reflexivity|]. split; [exact A|]. apply kinds_hidden; [discriminate|discriminate|exact K]. }
  assert (X : exists m, lines e = service_line (fst m) (snd m) /\ message_about (name_of id) m /\ (fst m = quote "testFailed" <-> VerdictSpec.says e = Failed) /\ (fst m = quote "testIgnored" <-> VerdictSpec.says e = Skipped)).
  { clear E A F K. destruct e; cbn [speaks_of service_text VerdictSpec.says] in *; try contradiction; try discriminate.
    - eexists (_, _). split; [reflexivity|]. split; [right; cbn; auto|]. split; split; discriminate.
    - eexists (_, _). split; [reflexivity|]. split; [right; cbn; auto|]. split; split; discriminate.
    - destruct S as (-> & _). destruct (_ || _); (eexists (_, _); split; [reflexivity|split; [left; split; [cbn; auto|eexists; reflexivity]|]]); split; split; (discriminate || reflexivity).
    - subst. eexists (_, _). split; [reflexivity|]. split; [left; split; [cbn; auto|eexists; reflexivity]|]. split; split; discriminate.
    - subst. eexists (_, _). split; [reflexivity|]. split; [left; split; [cbn; auto|eexists; reflexivity]|]. split; split; (discriminate || reflexivity). }
  destruct X as (m & X1 & X2 & X3 & X4). exists (m :: ms). split; [cbn [flat_map]; now rewrite X1|]. split; [now constructor|]. now apply kinds_shown.
Qed.

Lemma test_lines lm v x : vlevel High <= vlevel v -> told lm x -> exists messages,
  lines_about (name_of (t_id (fst x))) messages (flat_map lines (filter (Events.visible v) (snd x))) /\ kinds (snd x) messages.
Proof.
  intros V (body & c & s & may & should & -> & S & _). destruct (told_lines _ _ _ v _ S) as (ms & E & A & K1 & K2).
  exists ms. split.
  - eexists. split; [|exact A]. rewrite !filter_app, !flat_map_app, E. f_equal; [|f_equal].
    + cbn [filter]. unfold Events.visible at 1. cbn [min_verbosity]. rewrite (proj2 (Nat.leb_le _ _) V). cbn [flat_map service_text]. now rewrite app_nil_r.
    + cbn [filter]. unfold Events.visible at 1. cbn [min_verbosity]. rewrite (proj2 (Nat.leb_le _ _) V). cbn [flat_map service_text]. rewrite app_nil_r. reflexivity.
  - assert (W : forall w, w <> Success -> (exists e, In e body /\ VerdictSpec.says e = w) <->
      exists e, In e ([TestCaseStarted (t_id (fst x)) (t_line (fst x))] ++ body ++ [TestCaseEnded (t_id (fst x)) (t_line (fst x)) c s]) /\ VerdictSpec.says e = w).
    { intros w NW. split; intros (e & I & F); exists e; (split; [|exact F]).
      - apply in_or_app. right. apply in_or_app. now left.
      - apply in_app_or in I as [[<-|[]]|I]; [cbn in F; congruence|]. apply in_app_or in I as [I|[<-|[]]]; [exact I|cbn in F; congruence]. }
    split; [rewrite K1|rewrite K2]; apply W; discriminate.
Qed.

Lemma run_lines lm v name fs parts : vlevel High <= vlevel v -> Forall (told lm) parts ->
  exists texts, flat_map lines (filter (Events.visible v) (events_of_run name fs (map snd parts))) =
    service_line (quote "testSuiteStarted") [(quote "name", suite_of name fs)] ++ List.concat texts ++ service_line (quote "testSuiteFinished") [(quote "name", suite_of name fs)] /\
    Forall2 (fun x lines => exists messages, lines_about (name_of (t_id (fst x))) messages lines /\ kinds (snd x) messages) parts texts.
Proof.
  intros V F. exists (map (fun x => flat_map lines (filter (Events.visible v) (snd x))) parts). split.
  - unfold events_of_run. rewrite !filter_app, !flat_map_app. assert (N : vlevel Normal <= vlevel v) by (cbn in *; lia). f_equal; [|f_equal].
    + cbn [filter]. unfold Events.visible at 1. cbn [min_verbosity]. rewrite (proj2 (Nat.leb_le _ _) N). cbn [flat_map service_text]. now rewrite app_nil_r.
    + clear F. induction parts as [|x parts IH]; [reflexivity|]. cbn [map List.concat]. now rewrite filter_app, flat_map_app, IH.
    + unfold summary_of. cbn [filter]. unfold Events.visible at 1. cbn [min_verbosity]. rewrite (proj2 (Nat.leb_le _ _) N). cbn [flat_map service_text]. now rewrite app_nil_r.
  - induction F as [|x parts T F IH]; constructor; [|exact IH]. eapply test_lines; eauto.
Qed.
End Lines.

Section XmlLines.
Variable field : text -> text.
Variable name_of : test_id -> text.
Variable filters_of : list text -> text.
Variable file : event -> text.
Variable duration : event -> option text.
Variable shown : nat -> text.
Variable version : text.
Notation lines := (xml_lines field name_of filters_of id_tags id_fixture file duration shown version).

Lemma check_inside e captures l what success : Forall xml_inside (check_lines field file shown e captures l what success).
Proof.
  unfold check_lines. apply Forall_app. split.
  - induction captures as [|c captures IH]; [constructor|]. cbn [flat_map]. apply Forall_app. split; [|exact IH]. repeat (apply Forall_cons || apply Forall_nil); cbn; auto 12.
  - destruct what; [destruct success|]; repeat (apply Forall_cons || apply Forall_nil); cbn; auto 12.
Qed.
Lemma told_xml id may should v l : Forall (speaks_of id may should) l -> Forall xml_inside (flat_map lines (filter (Events.visible v) l)).
Proof.
  induction 1 as [|e l S F IH]; [constructor|]. cbn [filter]. destruct (Events.visible v e); [|exact IH]. cbn [flat_map]. apply Forall_app. split; [|exact IH].
  destruct e; cbn [speaks_of xml_lines] in *; try contradiction; try apply check_inside; repeat (apply Forall_cons || apply Forall_nil); cbn; auto 12.
Qed.
Lemma test_xml lm v x : vlevel High <= vlevel v -> told lm x ->
  exists success, xml_about (name_of (t_id (fst x))) success (flat_map lines (filter (Events.visible v) (snd x))) /\
    (success = false <-> exists e, In e (snd x) /\ VerdictSpec.says e = Failed).
Proof.
  intros V (body & c & s & may & should & E & S & SV & _). exists (match s with Failed => false | _ => true end). split.
  - rewrite E. pose proof (told_xml _ _ _ v _ S) as A. eexists _, _, _. split; [|exact A]. rewrite !filter_app, !flat_map_app. f_equal; [|f_equal].
    + cbn [filter]. unfold Events.visible at 1. cbn [min_verbosity]. rewrite (proj2 (Nat.leb_le _ _) V). cbn [flat_map xml_lines app]. reflexivity.
    + cbn [filter]. unfold Events.visible at 1. cbn [min_verbosity]. rewrite (proj2 (Nat.leb_le _ _) V). cbn [flat_map xml_lines app]. reflexivity.
  - transitivity (s = Failed); [destruct s; intuition discriminate|]. rewrite SV, FailureProofs.verdict_failed, E. split; intros (e & I & F).
    + exists e. split; [|exact F]. apply in_or_app. right. apply in_or_app. now left.
    + exists e. split; [|exact F]. apply in_app_or in I as [[<-|[]]|I]; [discriminate|]. apply in_app_or in I as [I|[<-|[]]]; [exact I|discriminate].
Qed.
Lemma run_xml lm v name fs parts : vlevel High <= vlevel v -> Forall (told lm) parts ->
  exists declared about results cases tests, flat_map lines (filter (Events.visible v) (events_of_run name fs (map snd parts))) =
    [Contents declared; Start (quote "Catch2TestRun") about] ++ List.concat tests ++
    [Empty (quote "OverallResults") results; Empty (quote "OverallResultsCases") cases; Stop (quote "Catch2TestRun")] /\
    Forall2 (fun x lines => exists success, xml_about (name_of (t_id (fst x))) success lines /\
      (success = false <-> exists e, In e (snd x) /\ VerdictSpec.says e = Failed)) parts tests.
Proof.
  intros V F. eexists _, _, _, _, (map (fun x => flat_map lines (filter (Events.visible v) (snd x))) parts). split.
  - unfold events_of_run. rewrite !filter_app, !flat_map_app. assert (N : vlevel Normal <= vlevel v) by (cbn in *; lia). f_equal; [|f_equal].
    + cbn [filter]. unfold Events.visible at 1. cbn [min_verbosity]. rewrite (proj2 (Nat.leb_le _ _) N). cbn [flat_map xml_lines app]. reflexivity.
    + clear F. induction parts as [|x parts IH]; [reflexivity|]. cbn [map List.concat]. now rewrite filter_app, flat_map_app, IH.
    + unfold summary_of. cbn [filter]. unfold Events.visible at 1. cbn [min_verbosity]. rewrite (proj2 (Nat.leb_le _ _) N). cbn [flat_map xml_lines app]. reflexivity.
  - induction F as [|x parts T F IH]; constructor; [|exact IH]. eapply test_xml; eauto.
Qed.
End XmlLines.

Theorem teamcity_speaks :
  exists (name_of : nat -> test_id -> text) (suite_of : nat -> text -> list text -> text),
  (forall n id, cut_field teamcity_code n (firstn n (full_name_of (id_name id) (id_type id))) (name_of n id)) /\
  (forall n name filters, cut_field teamcity_code n (fit n (suite_name name filters)) (suite_of n name filters)) /\
  forall (lm : Session.limits) (fuel : nat) (file : event -> text) (duration : event -> option text) (can_open : text -> bool)
    (r : registry) (path : text) (argv : list text) (out : list output) (code : nat),
  length argv <= l_max_command_line_args lm -> acceptable argv -> asks_run (setting (read argv)) -> g_to_file r = false ->
  reporter_asked (teamcity_reporter lm file duration) r argv ->
  main_program lm fuel file duration can_open r path argv = Ok (out, code) ->
  exists (name : text) (is_run : test_case -> bool) (parts : list (test_case * list event)) (tests : list text),
    let suite := suite_of (l_max_message_length lm) name (filters (read argv)) in
    the_chosen lm argv is_run /\ map fst parts = filter is_run (g_tests r) /\ what_happened lm fuel parts /\
    report_goes lm r argv out
      (service_line (quote "testSuiteStarted") [(quote "name", suite)] ++ List.concat tests ++ service_line (quote "testSuiteFinished") [(quote "name", suite)]) /\
    Forall2 (fun x lines => exists messages, lines_about (name_of (l_max_test_name_length lm) (t_id (fst x))) messages lines /\
      (In (quote "testFailed") (map fst messages) <-> exists e, In e (snd x) /\ VerdictSpec.says e = Failed) /\
      (In (quote "testIgnored") (map fst messages) <-> exists e, In e (snd x) /\ VerdictSpec.says e = Skipped)) parts tests /\
    (code = 0 \/ code = 1) /\ (code = 1 <-> a_check_failed parts).
Proof.
  destruct service_exact as (sh & fi & na & su & _ & _ & NA & SU & _ & S). exists na, su. split; [exact NA|]. split; [exact SU|].
  intros lm fuel file duration can_open r path argv out code L ACC AR TF RA M.
  destruct (main_program_inv lm fuel file duration can_open r path argv out code L ACC M) as (? & ? & ? & ? & ? & ? & ? & ? & ? & _ & _ & _ & _ & _ & _ & N).
  destruct (S lm fuel file duration can_open r path argv _ _ _ _ L ACC AR TF RA M N) as (_ & G).
  destruct (service_events lm fuel file duration _ can_open r path argv _ _ (or_introl eq_refl) L ACC AR RA N) as (v & events & success & V & T & EV & CO).
  unfold tested in T. destruct (tested_failed lm fuel _ _ _ _ _ _ T) as (parts & MF & WH & -> & SU1). rewrite EV in G.
  destruct (run_lines (l_max_message_length lm) (fi (l_max_message_length lm)) (na (l_max_test_name_length lm)) (su (l_max_message_length lm)) file duration sh lm v (extract_executable path) (filters (read argv)) parts V (happened_told lm fuel parts WH))
    as (texts & E & F). rewrite E in G.
  exists (extract_executable path), (kept (picks lm (filters (read argv)))), parts, texts. split; [apply picks_chosen|]. split; [exact MF|]. split; [exact WH|]. split; [exact G|].
  split; [exact F|]. rewrite <- SU1, CO. destruct success; split; auto; split; congruence.
Qed.

Theorem xml_speaks :
  exists name_of : nat -> test_id -> text,
  (forall n id, cut_field xml_entities n (firstn n (full_name_of (id_name id) (id_type id))) (name_of n id)) /\
  forall (lm : Session.limits) (fuel : nat) (file : event -> text) (duration : event -> option text) (can_open : text -> bool)
    (r : registry) (path : text) (argv : list text) (out : list output) (code : nat),
  length argv <= l_max_command_line_args lm -> acceptable argv -> asks_run (setting (read argv)) -> g_to_file r = false ->
  reporter_asked (xml_reporter lm file duration) r argv ->
  main_program lm fuel file duration can_open r path argv = Ok (out, code) ->
  exists (is_run : test_case -> bool) (parts : list (test_case * list event)) (tests : list (list xml_line))
    (declared : text) (about results cases : list (text * text)),
    the_chosen lm argv is_run /\ map fst parts = filter is_run (g_tests r) /\ what_happened lm fuel parts /\
    report_goes lm r argv out (snd (drawn 0
      ([Contents declared; Start (quote "Catch2TestRun") about] ++ List.concat tests ++
       [Empty (quote "OverallResults") results; Empty (quote "OverallResultsCases") cases; Stop (quote "Catch2TestRun")]))) /\
    Forall2 (fun x lines => exists success, xml_about (name_of (l_max_test_name_length lm) (t_id (fst x))) success lines /\
      (success = false <-> exists e, In e (snd x) /\ VerdictSpec.says e = Failed)) parts tests /\
    (code = 0 \/ code = 1) /\ (code = 1 <-> a_check_failed parts).
Proof.
  destruct xml_exact as (sh & fi & na & fs & _ & _ & NA & _ & _ & S). exists na. split; [exact NA|].
  intros lm fuel file duration can_open r path argv out code L ACC AR TF RA M.
  destruct (main_program_inv lm fuel file duration can_open r path argv out code L ACC M) as (? & ? & ? & ? & ? & ? & ? & ? & ? & _ & _ & _ & _ & _ & _ & N).
  destruct (S lm fuel file duration can_open r path argv _ _ _ _ L ACC AR TF RA M N) as (_ & G).
  destruct (service_events lm fuel file duration _ can_open r path argv _ _ (or_intror eq_refl) L ACC AR RA N) as (v & events & success & V & T & EV & CO).
  unfold tested in T. destruct (tested_failed lm fuel _ _ _ _ _ _ T) as (parts & MF & WH & -> & SU1). rewrite EV in G.
  destruct (run_xml (fi (l_max_message_length lm)) (na (l_max_test_name_length lm)) (fs (l_max_message_length lm)) file duration sh (l_version lm) lm v (extract_executable path) (filters (read argv)) parts V (happened_told lm fuel parts WH))
    as (declared & about & results & cases & texts & E & F). rewrite E in G.
  exists (kept (picks lm (filters (read argv)))), parts, texts, declared, about, results, cases. split; [apply picks_chosen|]. split; [exact MF|]. split; [exact WH|]. split; [exact G|].
  split; [exact F|]. rewrite <- SU1, CO. destruct success; split; auto; split; congruence.
Qed.
