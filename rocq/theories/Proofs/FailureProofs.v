(** A failed check is never silent (C105). *)
From Coq Require Import Lia.
From Verif.Spec Require Import TextSpec NumberSpec FilterSpec PrintSpec CliSpec EscapeSpec Events XmlSpec ServiceSpec ConsoleSpec VerdictSpec RunSpec TreeSpec SessionSpec ProgramSpec ShardSpec FailureSpec.
From Verif.Model Require Import Base Vector StringUtil Integer Print Filter Run Cli File Session Reporters Program.
From Verif.Spec Require Import ProgramClaims LinkClaims FailureClaims.
From Verif.Proofs Require Import Lists FilterProofs RunProofs RunFacts SessionProofs SessionFacts ConfigProofs CliProofs CliFacts ProgramProofs PrintProofs EscapeProofs EndToEndProofs ChoiceProofs WholeProofs HistoryProofs OutputProofs XmlProofs ReportProofs ServiceProofs ConsoleProofs XmlLevel ShardProofs LinkProofs LinkTexts AddProofs WarningProofs.
Local Open Scope list_scope.

Lemma verdict_failed {ID} (l : list (Events.event ID)) : VerdictSpec.verdict l = Failed <-> exists e, In e l /\ VerdictSpec.says e = Failed.
Proof.
  unfold VerdictSpec.verdict. assert (G : forall s, fold_left (fun s e => worst s (VerdictSpec.says e)) l s = Failed <-> s = Failed \/ exists e, In e l /\ VerdictSpec.says e = Failed).
  { induction l as [|x l IH]; intros s; cbn [fold_left].
    - split; [auto|]. intros [H|(e & [] & _)]. exact H.
    - rewrite IH. assert (W : worst s (VerdictSpec.says x) = Failed <-> s = Failed \/ VerdictSpec.says x = Failed) by (destruct s, (VerdictSpec.says x); cbn; intuition congruence).
      rewrite W. split.
      + intros [[H|H]|(e & I & H)]; [auto|right; exists x; split; [now left|exact H]|right; exists e; split; [now right|exact H]].
      + intros [H|(e & [<-|I] & H)]; [auto|auto|right; exists e; auto]. }
  rewrite G. split; [intros [H|H]; [discriminate|exact H]|auto].
Qed.
Lemma failed_visible v (e : event) : VerdictSpec.says e = Failed -> Events.visible v e = true.
Proof. destruct e; cbn [VerdictSpec.says]; try discriminate. intros _. destruct v; reflexivity. Qed.

Section Failure.
Variable lm : Session.limits.
Variable fuel : nat.
Variable file : event -> str.
Variable duration : event -> option str.
Notation report := (Program.report lm file duration).
Notation report_list := (EndToEndProofs.report_list lm file duration).
Notation mm := (l_max_message_length lm).
Notation mn := (l_max_test_name_length lm).

(** ** Runs *)
Lemma tested_failed p tests name fs events success : run_selected_tests lm fuel Full tests name fs p = Ok (events, success) ->
  exists parts, map fst parts = filter (kept p) tests /\ what_happened lm fuel parts /\ events = events_of_run name fs (map snd parts) /\
    (success = false <-> a_check_failed parts).
Proof.
  intros RS. destruct (cases lm fuel p tests) as [l|] eqn:C; [|rewrite run_selected, C in RS; discriminate].
  destruct (tested_parts lm fuel p tests name fs l C) as (parts0 & M & _ & _ & _ & E). rewrite E in RS. injection RS as <- <-. rewrite M. clear E M parts0.
  exists (map (fun x => (fst x, trace (snd x))) l). assert (MS : map snd (map (fun x : test_case * state => (fst x, trace (snd x))) l) = map (fun x => trace (snd x)) l) by (rewrite map_map; reflexivity).
  rewrite MS. destruct (cases_select _ _ _ _ _ C) as (E & R & _). split; [rewrite map_map; exact E|]. rewrite Forall_forall in R.
  split; [|split; [reflexivity|]].
  - apply Forall_forall. intros x I. apply in_map_iff in I as ([t st] & <- & I). specialize (R _ I). cbn [fst snd] in *. exists st. auto.
  - rewrite <- not_true_iff_false, no_failure. split.
    + intros H. clear MS. unfold a_check_failed.
      assert (X : exists q, In q l /\ exists e, In e (trace (snd q)) /\ VerdictSpec.says e = Failed).
      { clear C E. induction l as [|q l IH]; [exfalso; apply H; intros x []|].
        destruct (run_alone lm fuel (fst q) (snd q) (R q (or_introl eq_refl))) as (body & c & s & T & IN & _ & _ & SV).
        assert (D : VerdictSpec.verdict body = Failed \/ VerdictSpec.verdict body <> Failed) by (destruct (VerdictSpec.verdict body); intuition congruence). destruct D as [D|D].
        - exists q. split; [now left|]. apply verdict_failed in D as (e & I & S). exists e. split; [|exact S]. rewrite T. right. apply in_or_app. now left.
        - destruct IH as (q' & I & Y); [intros y I; apply R; now right| |exists q'; split; [now right|exact Y]].
          intros Z. apply H. intros x I. cbn [map List.concat] in I. rewrite ended_app in I. apply in_app_or in I as [I|I]; [|auto].
          rewrite T in I. unfold ended in I. cbn [flat_map] in I. cbn [app] in I. rewrite flat_map_app in I. apply in_app_or in I as [I|I].
          + exfalso. apply in_flat_map in I as (e & I & J). rewrite Forall_forall in IN. specialize (IN e I). destruct e; try destruct J; discriminate.
          + cbn in I. destruct I as [<-|[]]. cbn [snd]. subst s. destruct (VerdictSpec.verdict body); try reflexivity. congruence. }
      destruct X as (q & I & e & J & S). exists (fst q, trace (snd q)), e. split; [apply in_map_iff; exists q; auto|auto].
    + intros (x & e & I & J & S) H. apply in_map_iff in I as (q & <- & I). cbn [snd] in J.
      destruct (run_alone lm fuel (fst q) (snd q) (R q I)) as (body & c & s & T & IN & _ & _ & SV).
      assert (V : s = Failed).
      { rewrite SV. apply verdict_failed. exists e. split; [|exact S]. rewrite T in J. destruct J as [<-|J]; [discriminate|]. apply in_app_or in J as [J|[<-|[]]]; [exact J|discriminate]. }
      assert (K : In (t_id (fst q), c, s) (ended (List.concat (map (fun x => trace (snd x)) l)))).
      { unfold ended. apply in_flat_map. exists (TestCaseEnded (t_id (fst q)) (t_line (fst q)) c s). split; [|now left].
        apply in_concat. exists (trace (snd q)). split; [apply in_map_iff; exists q; auto|]. rewrite T. right. apply in_or_app. right. now left. }
      specialize (H _ K). cbn [snd] in H. rewrite V in H. discriminate.
Qed.

Lemma failures_reported v name fs (parts : list (test_case * list event)) p e : In p parts -> In e (snd p) -> VerdictSpec.says e = Failed ->
  In e (filter (Events.visible v) (events_of_run name fs (map snd parts))).
Proof.
  intros I J S. apply filter_In. split; [|now apply failed_visible]. unfold events_of_run. apply in_or_app. right. apply in_or_app. left.
  apply in_concat. exists (snd p). split; [now apply in_map|exact J].
Qed.

Theorem failure_exit can_open r path argv out code : length argv <= l_max_command_line_args lm -> acceptable argv -> asks_run (setting (read argv)) ->
  main lm fuel can_open r path argv = Ok (out, code) ->
  exists (v : verbosity) (name : text) (is_run : test_case -> bool) (parts : list (test_case * list event)) (before after : list output) (k : option nat),
    the_chosen lm argv is_run /\ map fst parts = filter is_run (g_tests r) /\ what_happened lm fuel parts /\
    out = before ++ map (Reported k) (filter (Events.visible v) (events_of_run name (filters (read argv)) (map snd parts))) ++ after /\
    (forall p e, In p parts -> In e (snd p) -> VerdictSpec.says e = Failed -> In (Reported k e) out) /\
    (code = 0 \/ code = 1) /\ (code = 1 <-> a_check_failed parts).
Proof.
  intros L ACC AR M. destruct (main_reads lm fuel can_open r path argv L ACC AR) as (printed & args & P & E). rewrite E in M. clear E.
  destruct (configure lm can_open r args) as [[r1 out1]|]; [|discriminate]. unfold tested in M.
  destruct (run_selected_tests lm fuel Full (g_tests r) _ _ _) as [[events success]|] eqn:RS; [|discriminate].
  destruct (tested_failed _ _ _ _ _ _ RS) as (parts & MF & WH & -> & S).
  exists (g_verbose r1), (extract_executable path), (kept (picks lm (filters (read argv)))), parts, (map Printed printed ++ out1), (closing r1), (g_reporter r1).
  split; [apply picks_chosen|]. split; [exact MF|]. split; [exact WH|]. injection M as <- <-.
  split; [now rewrite <- !app_assoc|]. split; [|split; [destruct success; auto|rewrite <- S; destruct success; split; congruence]].
  intros p e I J F. rewrite !in_app_iff. right. right. left. apply in_map. eapply failures_reported; eauto.
Qed.

(** ** The texts of the events *)
Lemma list_pieces (K : registry -> Prop) (Q : event -> text -> Prop) l : (forall r e r' t, K r -> report r e = Ok (r', t) -> K r' /\ Q e (List.concat t)) ->
  forall r r' ts, K r -> report_list r l = Ok (r', ts) -> exists pieces, List.concat ts = List.concat pieces /\ Forall2 Q l pieces.
Proof.
  intros H. induction l as [|e l IH]; intros r r' ts A; cbn [EndToEndProofs.report_list].
  - intros [= _ <-]. exists []. split; [reflexivity|constructor].
  - destruct (report r e) as [[r1 t]|] eqn:E; cbn [bind]; [|discriminate]. destruct (report_list r1 l) as [[r2 t2]|] eqn:E2; cbn [bind]; [|discriminate]. intros [= _ <-].
    destruct (H _ _ _ _ A E) as (A1 & X). destruct (IH _ _ _ A1 E2) as (pieces & C & F). exists (List.concat t :: pieces). split; [|now constructor].
    rewrite concat_app. cbn [List.concat]. congruence.
Qed.

(** Console. *)
Lemma prints_app a b out : console_prints mm (a ++ b) = Ok out -> exists o1 o2, console_prints mm a = Ok o1 /\ console_prints mm b = Ok o2 /\ out = o1 ++ o2.
Proof.
  revert out. induction a as [|c a IH]; intros out; cbn [app console_prints].
  - intros E. exists [], out. auto.
  - unfold tc_then. destruct (registry_print mm c) as [o1|]; cbn [bind]; [|discriminate]. destruct (console_prints mm (a ++ b)) as [o2|] eqn:E; cbn [bind]; [|discriminate].
    intros [= <-]. destruct (IH _ eq_refl) as (x & y & -> & Y & ->). cbn [bind]. exists (o1 ++ x), y. rewrite app_assoc. auto.
Qed.
Lemma prints_one c out : Forall (printable mm) c -> console_prints mm [c] = Ok out -> List.concat out = List.concat (map rendered c).
Proof.
  intros P E. destruct (look_prints mm [c] (List.concat (map rendered c))) as (o & E' & C).
  - split; [repeat constructor; exact P|]. cbn [List.concat]. now rewrite app_nil_r.
  - rewrite E in E'. injection E' as <-. exact C.
Qed.
Lemma number_short n : 32 <= mm -> in_range n -> printable mm (Number (decimal n)) /\ writes 10 (decimal n) (N.of_nat n).
Proof. intros B R. destruct (decimal_short n R) as ((_ & L) & _ & W). split; [|exact W]. cbn [printable]. unfold text, str in *. lia. Qed.

Lemma location_split colours e id sections captures l : exists a b, print_location colours file e id sections captures l =
  a ++ [[Text margin; Text (location_label (loc_type l)); Text (lit " "); Text (file e); Text (lit ":"); Number (decimal (loc_line l)); Text line_feed]] ++ b.
Proof. unfold print_location. eexists (_ :: _), _. cbn [app]. reflexivity. Qed.

Lemma console_failure colours counter counter' e out : 32 <= mm -> console_report mm mn (l_version lm) colours file duration counter e = Ok (counter', out) ->
  VerdictSpec.says e = Failed -> in_range (failure_line e) -> shown_by_console file colours e (List.concat out).
Proof.
  intros B E S R. destruct e; cbn [VerdictSpec.says] in S; try discriminate. destruct expected, allowed; cbn [orb] in S; try discriminate. cbn [failure_line] in R.
  unfold console_report in E. cbn [console_calls] in E. destruct (print_message mm colours what) as [m|]; cbn [bind] in E; [|discriminate].
  set (e := AssertionFailed id sections captures l what false false) in *. destruct (location_split colours e id sections captures l) as (a & b & X). rewrite X in E. clear X.
  destruct (console_prints mm _) as [o|] eqn:P; cbn [bind] in E; [|discriminate]. injection E as _ <-.
  destruct (number_short _ B R) as (PN & W).
  rewrite <- app_assoc in P. match type of P with console_prints mm (?c :: ?rest) = _ => change (c :: rest) with ([c] ++ rest) in P end.
  apply prints_app in P as (o1 & o2 & P1 & P2 & ->). apply prints_app in P2 as (o3 & o4 & _ & P2 & ->). rewrite <- app_assoc in P2. apply prints_app in P2 as (o5 & o6 & P2 & _ & ->).
  apply prints_one in P1.
  2:{ constructor; [|constructor]. apply (printable_colored mm colours B Bad). apply (short_label mm colours B Bad). cbn; lia. }
  apply prints_one in P2.
  2:{ repeat (apply Forall_cons; [first [exact PN|exact I]|]). apply Forall_nil. }
  cbn [map List.concat] in P1. rewrite app_nil_r in P1. rewrite (rendered_colored colours Bad) in P1.
  exists (decimal (loc_line l)), (List.concat (o3 ++ o5 ++ o6)). split; [exact W|]. split; [rewrite concat_app, P1; reflexivity|].
  rewrite !concat_app, P2. cbn [map rendered List.concat]. rewrite app_nil_r. exists (List.concat o3 ++ margin ++ location_label (loc_type l)), (List.concat o6).
  unfold text, str. rewrite <- !app_assoc. reflexivity.
Qed.

(** TeamCity. *)
Lemma then_ok a b out : tc_then a b = Ok out -> exists o1 o2, a = Ok o1 /\ b = Ok o2 /\ out = o1 ++ o2.
Proof. unfold tc_then. destruct a; cbn [bind]; [|discriminate]. destruct b; cbn [bind]; [|discriminate]. intros [= <-]. eauto. Qed.
Lemma print_ok l out : Forall (printable mm) l -> tc_print mm l = Ok out -> List.concat out = List.concat (map rendered l).
Proof. intros P E. destruct (tells_print mm l P) as (o & E' & C). rewrite E in E'. injection E' as <-. exact C. Qed.
Ltac texts := repeat (apply Forall_cons; [first [assumption|exact I]|]); apply Forall_nil.

Lemma teamcity_failure e out : 32 <= mm -> tc_report mm mn file duration e = Ok out ->
  VerdictSpec.says e = Failed -> in_range (failure_line e) -> shown_by_teamcity file mm e (List.concat out).
Proof.
  intros B E S R. destruct e; cbn [VerdictSpec.says] in S; try discriminate. destruct expected, allowed; cbn [orb] in S; try discriminate. cbn [failure_line] in R.
  cbn [tc_report orb] in E. unfold tc_text in E at 1. destruct (tc_full_name mn id) as [n|]; cbn [bind] in E; [|discriminate].
  set (e := AssertionFailed id sections captures l what false false) in *.
  destruct (number_short _ B R) as (PN & W).
  unfold tc_send_message in E. cbn [tc_args] in E.
  apply then_ok in E as (o1 & o2 & E1 & E2 & ->). apply then_ok in E2 as (o3 & o4 & E2 & E4 & ->).
  apply then_ok in E2 as (o5 & o6 & E5 & E6 & ->). apply then_ok in E6 as (o7 & o8 & E7 & E8 & ->). apply then_ok in E8 as (o9 & o10 & E9 & E10 & ->). apply then_ok in E10 as (o11 & o12 & E11 & _ & ->).
  unfold tc_print_assertion in E11. apply then_ok in E11 as (o13 & o14 & E13 & _ & ->). unfold tc_text in E13.
  destruct (tc_make_escaped mm (file e)) as [f|] eqn:ME; cbn [bind] in E13; [|discriminate].
  apply print_ok in E1; [|texts]. apply print_ok in E5; [|texts]. apply print_ok in E7; [|texts]. apply print_ok in E9; [|texts]. apply print_ok in E13; [|texts].
  exists (decimal (loc_line l)), f, (n ++ apostrophe ++ lit " " ++ lit "message" ++ lit "=" ++ apostrophe ++ f ++ lit ":" ++ decimal (loc_line l) ++ lit "|n" ++ List.concat o14 ++ List.concat o12 ++ List.concat o4). split; [exact W|]. split.
  { intros RO. destruct (room_escaped mm _ RO) as (g & MG & NG). rewrite ME in MG. injection MG as <-. exact NG. }
  rewrite !concat_app, E1, E5, E7, E9, E13. cbn [map rendered List.concat]. unfold text, str. rewrite !app_nil_r, <- !app_assoc. split; [reflexivity|].
  exists (n ++ apostrophe), (List.concat o14 ++ List.concat o12 ++ List.concat o4). rewrite <- !app_assoc. reflexivity.
Qed.

(** XML. *)
Lemma andthen_ok a b k k' out : andthen a b k = Ok (k', out) -> exists k1 o1 o2, a k = Ok (k1, o1) /\ b k1 = Ok (k', o2) /\ out = o1 ++ o2.
Proof.
  unfold andthen. destruct (a k) as [[k1 o1]|]; cbn [bind]; [|discriminate]. destruct (b k1) as [[k2 o2]|] eqn:E; cbn [bind]; [|discriminate]. intros [= <- <-]. exists k1, o1, o2. auto.
Qed.
Lemma emits_ok a k k' k1 out t : emits a k k' t -> a k = Ok (k1, out) -> List.concat out = t.
Proof. intros (o & E & C) E'. rewrite E in E'. injection E' as _ <-. exact C. Qed.
Lemma with_ok t f k x : with_text t f k = Ok x -> exists s, t = Ok s /\ f s k = Ok x.
Proof. unfold with_text. destruct t; cbn [bind]; [eauto|discriminate]. Qed.

Lemma xml_failure k k' e out : xml_report mm mn (l_version lm) file duration e k = Ok (k', out) ->
  VerdictSpec.says e = Failed -> in_range (failure_line e) -> shown_by_xml file mm e (List.concat out).
Proof.
  intros E S R. destruct e; cbn [VerdictSpec.says] in S; try discriminate. destruct expected, allowed; cbn [orb] in S; try discriminate. cbn [failure_line] in R.
  cbn [xml_report] in E. set (e := AssertionFailed id sections captures l what false false) in *.
  destruct (decimal_short _ R) as (_ & _ & W). destruct (decimal_string _ R) as (DS & _).
  unfold xml_report_assertion in E. apply andthen_ok in E as (k1 & o1 & o2 & _ & E2 & ->).
  assert (FE : forall f, xml_make_escaped mm (file e) = Ok f -> fits mm (file e) -> encoded xml_entities (file e) f).
  { intros f ME FI. destruct (escaped_fits mm _ FI) as (g & MG & NG). rewrite ME in MG. injection MG as <-. exact NG. }
  destruct what as [m|macro ex ac].
  - apply andthen_ok in E2 as (k3 & o3 & o4 & E3 & _ & ->). apply with_ok in E3 as (f & ME & E3). apply with_ok in E3 as (n & MN & E3). rewrite DS in MN. injection MN as <-.
    apply (emits_ok _ _ _ _ _ _ (emits_open mm _ _ _)) in E3.
    exists (decimal (loc_line l)), f. split; [exact W|]. split; [now apply FE|]. unfold e. rewrite !concat_app, E3.
    exists (List.concat o1 ++ get_indent k1), ([ascii_of_nat 10] ++ List.concat o4). unfold attrs. cbn [flat_map fst snd]. unfold text, str, double_quote. rewrite !app_nil_r, <- !app_assoc. reflexivity.
  - apply andthen_ok in E2 as (k3 & o3 & o4 & E3 & _ & ->). apply with_ok in E3 as (f & ME & E3). apply with_ok in E3 as (n & MN & E3). rewrite DS in MN. injection MN as <-.
    apply (emits_ok _ _ _ _ _ _ (emits_open mm _ _ _)) in E3.
    exists (decimal (loc_line l)), f. split; [exact W|]. split; [now apply FE|]. unfold e. rewrite !concat_app, E3.
    exists (List.concat o1 ++ get_indent k1), ([ascii_of_nat 10] ++ List.concat o4). unfold attrs. cbn [flat_map fst snd]. unfold text, str, double_quote. rewrite !app_nil_r, <- !app_assoc. reflexivity.
Qed.

(** ** Programs *)
Theorem failure_shown (shown : event -> text -> Prop) can_open r path argv out code : length argv <= l_max_command_line_args lm -> acceptable argv -> asks_run (setting (read argv)) -> g_to_file r = false ->
  (forall printed args r1 out1, parse_arguments (cli_of lm) path argv = Ok (printed, Some args) -> configure lm can_open r args = Ok (r1, out1) ->
     exists K : registry -> Prop, K r1 /\ forall r2 e r3 t, K r2 -> report r2 e = Ok (r3, t) -> K r3 /\ (VerdictSpec.says e = Failed -> in_range (failure_line e) -> shown e (List.concat t))) ->
  main_program lm fuel file duration can_open r path argv = Ok (out, code) -> every_failure_is_shown shown lm fuel r argv out code.
Proof.
  intros L ACC AR TF H M. destruct (program_reads lm fuel file duration can_open r path argv L ACC AR TF) as (printed & args & PA & E). rewrite E in M. clear E.
  destruct (configure lm can_open r args) as [[r1 out1]|] eqn:C; [|discriminate]. unfold tested in M.
  destruct (run_selected_tests lm fuel Full (g_tests r) _ _ _) as [[events success]|] eqn:RS; [|discriminate].
  destruct (tested_failed _ _ _ _ _ _ RS) as (parts & MF & WH & -> & S).
  destruct (report_list r1 _) as [[r3 ts]|] eqn:RP; [|discriminate]. injection M as <- <-.
  destruct (H _ _ _ _ PA C) as (K & K1 & KR). destruct (list_pieces K (fun e p => VerdictSpec.says e = Failed -> in_range (failure_line e) -> shown e p) _ KR _ _ _ K1 RP) as (pieces & CP & F2).
  exists (g_verbose r1), (extract_executable path), (kept (picks lm (filters (read argv)))), parts, pieces. cbv zeta.
  split; [apply picks_chosen|]. split; [exact MF|]. split; [exact WH|]. split; [|split; [exact F2|split; [|split; [destruct success; auto|rewrite <- S; destruct success; split; congruence]]]].
  - rewrite <- CP. pose proof (configure_effect _ _ _ _ _ _ C) as CE. destruct (parsed_options (cli_of lm) _ _ _ _ L PA) as [G _].
    assert (WF : g_to_file r1 = has_file argv).
    { unfold has_file. rewrite <- (G (quote "--out") ltac:(discriminate)). change quote with lit. destruct (get_option args (lit "--out")).
      - destruct CE as (b & f & p' & v' & _ & _ & _ & _ & _ & F & T). now rewrite T.
      - destruct CE as (_ & _ & T). now rewrite T, TF. }
    destruct (closing_text r1) as [Q1 Q2]. apply (goes lm can_open r path argv printed args r1 out1 _ _ L ACC PA C).
    rewrite !console_text_app, !file_text_app, console_text_printed, file_text_printed, console_text_put, file_text_put, Q1, Q2, (configure_file_text _ _ _ _ _ _ C), WF, !app_nil_r; cbn [app].
    destruct (has_file argv); rewrite ?app_nil_r, <- ?app_assoc; auto.
  - intros p e I J F. eapply failures_reported; eauto.
Qed.

Theorem console_shown can_open r path argv out code : 32 <= mm -> length argv <= l_max_command_line_args lm -> acceptable argv -> asks_run (setting (read argv)) -> g_to_file r = false ->
  console_asked lm file duration r argv -> main_program lm fuel file duration can_open r path argv = Ok (out, code) ->
  exists colours, report_colours r argv colours /\ every_failure_is_shown (shown_by_console file colours) lm fuel r argv out code.
Proof.
  intros B L ACC AR TF CA M. destruct (program_reads lm fuel file duration can_open r path argv L ACC AR TF) as (printed & args & PA & E).
  destruct (configure lm can_open r args) as [[r1 out1]|] eqn:C; [|rewrite E in M; discriminate].
  exists (g_with_color r1). split; [exact (colours_chosen lm file duration can_open r path argv printed args r1 out1 L PA C CA)|]. eapply failure_shown; eauto. intros printed' args' r1' out1' PA' C'. rewrite PA in PA'. injection PA' as <- <-. rewrite C in C'. injection C' as <- <-. clear E M.
  destruct (choice lm file duration can_open r path argv printed args r1 out1 L PA C) as (_ & _ & CH1 & CH2). cbv zeta in CH1, CH2.
  destruct (parsed_options (cli_of lm) _ _ _ _ L PA) as [GO _]. specialize (GO (quote "--reporter") ltac:(discriminate)).
  destruct CA as [(N & GR)|(arg & i & SR & N & F)].
  - destruct (CH1 N) as (_ & R1 & _). rewrite GR in R1. exists (fun r => exists x, r = set_storage r1 x). split; [exists (g_storage r1); now destruct r1|].
    intros r2 e r3 t (x & ->). unfold Program.report. cbn [g_reporter set_storage g_storage g_with_color]. rewrite R1.
    destruct (console_report _ _ _ _ _ _ _ e) as [[c1 o1]|] eqn:RE; cbn [bind]; [|discriminate]. intros [= <- <-]. split; [exists (Default c1); reflexivity|].
    intros S R. eapply console_failure; eauto.
  - rewrite SR in GO. destruct (CH2 arg SR) as (_ & H). destruct (H i _ F N) as (H1 & _). destruct (H1 eq_refl) as (_ & R1).
    pose proof C as C'. apply configure_prepared in C' as (r4 & o4 & o5 & (_ & P2 & _) & S & _). change quote with lit in *.
    destruct (get_option args (lit "--reporter")) as [a|]; [|discriminate]. cbn [option_map reporter_step] in *. unfold value_of in S. destruct (CliSpec.a_value a) as [w|]; [|discriminate].
    injection GO as ->. cbn [bind] in S. rewrite <- P2 in F. destruct (console_chosen lm file duration _ _ _ _ _ F N S) as (col & E1).
    assert (S1 : g_storage r1 = Holds (console_reporter lm file duration) 0) by now rewrite E1.
    exists (fun r => exists c, r = set_storage r1 (Holds (console_reporter lm file duration) c)). split; [exists 0; rewrite <- S1; now destruct r1|].
    intros r2 e r3 t (x & ->). unfold Program.report. cbn [g_reporter set_storage g_storage]. rewrite R1. cbn [r_report console_reporter modes_of m_color g_with_color set_storage].
    destruct (console_report _ _ _ _ _ _ _ e) as [[c1 o1]|] eqn:RE; cbn [bind]; [|discriminate]. intros [= <- <-]. split; [exists c1; reflexivity|].
    intros X R. eapply console_failure; eauto.
Qed.
Theorem teamcity_shown can_open r path argv out code : 32 <= mm -> length argv <= l_max_command_line_args lm -> acceptable argv -> asks_run (setting (read argv)) -> g_to_file r = false ->
  reporter_asked (teamcity_reporter lm file duration) r argv -> main_program lm fuel file duration can_open r path argv = Ok (out, code) ->
  every_failure_is_shown (shown_by_teamcity file mm) lm fuel r argv out code.
Proof.
  intros B L ACC AR TF (arg & i & SR & N & F). apply failure_shown; auto. intros printed args r1 out1 PA C.
  destruct (chosen_registry lm file duration can_open r path argv printed args r1 out1 arg _ L PA C SR (ex_intro _ i F) N) as (_ & H2). destruct (H2 eq_refl) as (j & R2 & S1).
  exists (fun r => r = r1). split; [reflexivity|]. intros r2 e r3 t ->. unfold Program.report. rewrite R2, S1. cbn [r_report teamcity_reporter].
  destruct (tc_report _ _ _ _ e) as [o|] eqn:RE; cbn [bind]; [|discriminate]. intros [= <- <-]. split; [rewrite <- S1; now destruct r1|]. intros S R. now apply teamcity_failure.
Qed.
Theorem xml_shown can_open r path argv out code : length argv <= l_max_command_line_args lm -> acceptable argv -> asks_run (setting (read argv)) -> g_to_file r = false ->
  reporter_asked (xml_reporter lm file duration) r argv -> main_program lm fuel file duration can_open r path argv = Ok (out, code) ->
  every_failure_is_shown (shown_by_xml file mm) lm fuel r argv out code.
Proof.
  intros L ACC AR TF (arg & i & SR & N & F). apply failure_shown; auto. intros printed args r1 out1 PA C.
  destruct (chosen_registry lm file duration can_open r path argv printed args r1 out1 arg _ L PA C SR (ex_intro _ i F) N) as (H2 & _). destruct (H2 eq_refl) as (j & R2 & S1).
  exists (fun r => exists k, r = set_storage r1 (Holds (xml_reporter lm file duration) k)). split; [exists 0; rewrite <- S1; now destruct r1|].
  intros r2 e r3 t (k & ->). unfold Program.report. cbn [g_reporter set_storage g_storage]. rewrite R2. cbn [r_report xml_reporter].
  destruct (xml_report _ _ _ _ _ e k) as [[k1 o]|] eqn:RE; cbn [bind]; [|discriminate]. intros [= <- <-]. split; [exists k1; reflexivity|]. intros S R. eapply xml_failure; eauto.
Qed.
End Failure.
