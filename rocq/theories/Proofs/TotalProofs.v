(** Programs that never fail (C66). *)
From Verif.Spec Require Import TextSpec FilterSpec PrintSpec NumberSpec RunSpec TreeSpec Events VerdictSpec SessionSpec ProgramSpec XmlSpec CliSpec.
From Verif.Model Require Import Base Vector StringUtil Print Filter Run Cli File Session Reporters Program.
From Verif.Spec Require Import ProgramClaims.
From Verif.Proofs Require Import Lists TreeProofs AbortProofs BalanceProofs VectorProofs AppendProofs ReplaceProofs FilterProofs RunFacts PrintProofs CliProofs CliFacts SessionProofs SessionFacts RegistryProofs FileProofs ConfigProofs ReporterProofs ProgramProofs EndToEndProofs ChoiceProofs XmlProofs SoundProofs ReportProofs ServiceProofs ConsoleProofs WholeProofs LifetimeProofs.
From Coq Require Import Lia Sorted.
Local Open Scope list_scope.

(** ** Values of options *)
Lemma read_given argv : forall lo v, In (Given lo v) (read argv) -> exists arg, lookup options arg = Some (lo, option_map snd v).
Proof.
  rewrite read_gread. induction argv as [argv IH] using short_induction. destruct argv as [|a rest]; [intros lo v []|]. cbn [gread].
  assert (IH1 := IH rest ltac:(cbn [length]; lia)).
  intros lo v. destruct (dashed a).
  - destruct (lookup options a) as [[l [w|]]|] eqn:E.
    + destruct rest as [|x rest]; [intros [H|[]]; discriminate|]. intros [H|H]; [injection H as <- <-; now exists a|].
      eapply (IH rest); eauto. cbn [length]; lia.
    + intros [H|H]; [injection H as <- <-; now exists a|eauto].
    + destruct (existsb (same_text a) catch2_with_value).
      * destruct rest as [|x rest]; [intros [H|[]]; discriminate|]. intros [H|H]; [discriminate|]. eapply (IH rest); eauto. cbn [length]; lia.
      * intros [H|H]; [discriminate|eauto].
  - intros [H|H]; [discriminate|eauto].
Qed.
Definition needs_value (name : text) : bool :=
  forallb (fun x => negb (same_text (last (fst x) []) name) || match snd x with Some _ => true | None => false end) options.
Lemma lookup_value name : needs_value name = true -> forall arg, lookup options arg <> Some (name, None).
Proof.
  unfold needs_value. generalize options. induction l as [|[ns w] l IH]; intros H arg; cbn [lookup forallb fst snd] in *; [discriminate|].
  apply andb_true_iff in H as [H1 H2]. destruct (existsb (same_text arg) ns); [|auto]. intros [= E1 E2]. subst. rewrite same_text_refl in H1. discriminate.
Qed.
Lemma setting_given l name v : setting l name = Some v -> exists w, In (Given name w) l /\ v = option_map fst w.
Proof.
  induction l as [|i l IH]; [discriminate|]. cbn [setting].
  assert (IH' : setting l name = Some v -> exists w, In (Given name w) (i :: l) /\ v = option_map fst w) by (intros H; destruct (IH H) as (w & I1 & I2); exists w; split; [now right|exact I2]).
  destruct i; auto. destruct (same_text name long) eqn:E; auto. apply same_text_eq in E. subst long. intros [= <-]. exists value. split; [now left|reflexivity].
Qed.
Lemma setting_value argv name v : needs_value name = true -> setting (read argv) name = Some v -> exists w, v = Some w.
Proof.
  intros N H. apply setting_given in H as (w & I & ->). apply read_given in I as (arg & E). destruct w as [[x c]|]; [cbn; eauto|]. exfalso. exact (lookup_value _ N _ E).
Qed.

Section Total.
Variable lm : limits.
Variable fuel : nat.
Variable file : event -> str.
Variable duration : event -> option str.
Notation main_program := (main_program lm fuel file duration).
Notation run_program := (run_program lm fuel file duration).
Notation report_list := (report_list lm file duration).
Notation xml := (xml_reporter lm file duration).

(** ** Configuration *)
Lemma value_ok o v : option_map a_value o = Some (Some v) -> exists a, o = Some a /\ value_of a = Ok v.
Proof. destruct o as [a|]; [|discriminate]. intros [= E]. exists a. unfold value_of. rewrite E. auto. Qed.

Lemma parse_reporter_names r arg r' out : parse_reporter lm r arg = Ok (r', out) ->
  r' = r \/ exists i p m memory, nth_error (g_reporters r) i = Some p /\ names arg (r_name p) /\ r' = set_reporter r i m (Holds p memory) /\
     forall P : modes -> r_memory p -> Prop, (forall memory1 m1 said, r_initialize p (modes_of r) = Ok (memory1, m1, said) -> P m1 memory1) ->
       (forall m0 memory0 k v memory1 m1 said known, r_configure p m0 memory0 k v = Ok (memory1, m1, said, known) -> P m0 memory0 -> P m1 memory1) -> P m memory.
Proof.
  unfold parse_reporter. destruct (match arg with [] => true | c :: _ => aeqb c ":"%char end).
  - destruct (cli_print _ _) as [s|]; cbn [bind]; [|discriminate]. intros [= <- <-]. auto.
  - assert (NM : exists name options, match Base.find arg (lit "::") with Some option_pos => (firstn option_pos arg, skipn option_pos arg) | None => (arg, []) end = (name, options) /\ names arg name).
    { destruct (Base.find arg (lit "::")) as [n|] eqn:F.
      - destruct (find_some _ _ _ F) as (a & b & -> & LA & _). eexists _, _. split; [reflexivity|]. right. exists b. rewrite <- LA, firstn_app, Nat.sub_diag, firstn_all. cbn [firstn]. now rewrite app_nil_r.
      - eexists _, _. split; [reflexivity|]. now left. }
    destruct NM as (name & options & -> & NM).
    destruct (find_reporter 0 (g_reporters r) name) as [[i p]|] eqn:FR.
    + destruct (r_initialize p _) as [[[memory m] said]|] eqn:N; cbn [bind]; [|discriminate].
      match goal with |- context [bind ?x _] => destruct x as [[[m' memory'] o]|] eqn:E end; cbn [bind]; [|discriminate].
      intros H. apply (f_equal (fun x => match x with Ok (a, _) => a | Err _ => r end)) in H. subst r'.
      apply find_reporter_in in FR as (_ & FR & <-). rewrite Nat.sub_0_r in FR. right. exists i, p, m', memory'. split; [exact FR|]. split; [exact NM|]. split; [reflexivity|].
      intros P P1 P2. specialize (P1 _ _ _ N). destruct (Base.find options (lit "::")); [|injection E as <- <- <-; exact P1].
      exact (option_loop_keeps lm p P _ _ P2 _ _ _ _ _ _ E P1).
    + destruct (prints _ _) as [o|]; cbn [bind]; [|discriminate]. intros [= <- <-]. auto.
Qed.

Lemma parse_color_total d r v : (forall c v, exists x, d c v = Ok x) -> exists r' b out, parse_color d r v = Ok (r', b, out) /\ g_reporters r' = g_reporters r.
Proof. intros H. unfold parse_color. destruct (H (g_with_color r) v) as ([[c b] o] & ->). cbn [bind]. eexists _, _, _. split; reflexivity. Qed.
Lemma configure_total can_open r argv args path printed :
  length argv <= l_max_command_line_args lm -> parse_arguments (cli_of lm) path argv = Ok (printed, Some args) ->
  (forall f, setting (read argv) (quote "--out") = Some (Some f) -> open_file (l_max_path_length lm) can_open f = Ok f) ->
  Forall starts (g_reporters r) -> exists r' out, configure lm can_open r args = Ok (r', out).
Proof.
  intros L P O S. destruct (parsed_options (cli_of lm) _ _ _ _ L P) as [G _]. unfold configure.
  assert (GV : forall n, n <> [] -> needs_value n = true -> get_option args n = None \/ exists a v, get_option args n = Some a /\ value_of a = Ok v /\ setting (read argv) n = Some (Some v)).
  { intros n NE NV. specialize (G n NE). destruct (get_option args n) as [a|]; [|now left]. right. cbn [option_map] in G. symmetry in G.
    destruct (setting_value _ _ _ NV G) as (w & E). exists a, w. split; [reflexivity|]. unfold value_of. rewrite E in *. auto. }
  assert (C1 : exists r1 b1 o1, match get_option args (lit "--colour-mode") with Some opt => do v <- value_of opt ;; parse_colour_mode_option lm r v | None => Ok (r, false, []) end = Ok (r1, b1, o1) /\ g_reporters r1 = g_reporters r).
  { destruct (GV (lit "--colour-mode") ltac:(discriminate) eq_refl) as [->|(a & v & -> & V & _)]; [eauto 6|]. rewrite V. cbn [bind].
    apply parse_color_total. intros c w. apply color_directive_total. }
  destruct C1 as (r1 & b1 & o1 & -> & R1). cbn [bind].
  assert (C2 : exists r2 b2 o2, match get_option args (lit "--color") with Some opt => do v <- value_of opt ;; do (r', b, out) <- parse_color_option lm r1 v ;; Ok (r', b || b1, out) | None => Ok (r1, b1, []) end = Ok (r2, b2, o2) /\ g_reporters r2 = g_reporters r).
  { destruct (GV (lit "--color") ltac:(discriminate) eq_refl) as [->|(a & v & -> & V & _)]; [eauto 6|]. rewrite V. cbn [bind].
    destruct (parse_color_total (color_option_directive lm) r1 v) as (r2 & b & o & E & Q); [intros; apply color_directive_total|]. unfold parse_color_option. rewrite E. cbn [bind]. rewrite R1 in Q. eauto 6. }
  destruct C2 as (r2 & b2 & o2 & -> & R2). cbn [bind].
  match goal with |- context [bind ?x _] => assert (C3 : exists r3 o3, x = Ok (r3, o3) /\ g_reporters r3 = g_reporters r) end.
  { destruct (GV (lit "--verbosity") ltac:(discriminate) eq_refl) as [->|(a & v & -> & V & _)]; [eauto|]. rewrite V. cbn [bind].
    destruct (seqb v (lit "quiet")); [eauto|]. destruct (seqb v (lit "normal")); [eauto|]. destruct (seqb v (lit "high")); [eauto|]. destruct (seqb v (lit "full")); [eauto|].
    match goal with |- context [cli_print ?m ?l] => destruct (cli_print_total m l) as (s & E & _) end. rewrite E. cbn [bind]. eauto. }
  destruct C3 as (r3 & o3 & -> & R3). cbn [bind].
  match goal with |- context [bind ?x _] => assert (C4 : exists r4 o4, x = Ok (r4, o4) /\ g_reporters r4 = g_reporters r) end.
  { destruct (GV (lit "--out") ltac:(discriminate) eq_refl) as [->|(a & v & -> & V & E)]; [eauto|]. rewrite V. cbn [bind]. rewrite (O v E). cbn [bind].
    eexists _, _. split; [reflexivity|]. destruct b2; exact R3. }
  destruct C4 as (r4 & o4 & -> & R4). cbn [bind].
  match goal with |- context [bind ?x _] => assert (C5 : exists r5 o5, x = Ok (r5, o5)) end.
  { destruct (GV (lit "--reporter") ltac:(discriminate) eq_refl) as [->|(a & v & -> & V & E)]; [eauto|]. rewrite V. cbn [bind].
    rewrite <- R4 in S. destruct (parse_reporter_total lm r4 v S) as ([r5 o5] & X). eauto. }
  destruct C5 as (r5 & o5 & ->). cbn [bind]. eauto.
Qed.

(** ** Tests that can run *)
Notation able := (able lm fuel).

Lemma able_runs x v tr : able x -> exists st, run (config_of lm v) fuel (fst x) tr = Ok st.
Proof.
  intros (T & W & (may & should & F) & _ & R & N & SC & C & L). destruct x as [[id line p] tags]. cbn [fst snd t_id t_body] in *.
  eapply (terminates (config_of lm v)); eauto.
Qed.
Lemma run_loop_total v predicate tests : forall s events, Forall able tests -> (forall x, In x tests -> exists b, predicate (t_id (fst x)) = Ok b) ->
  exists x, run_loop fuel (config_of lm v) predicate (map fst tests) s events = Ok x.
Proof.
  induction tests as [|t l IH]; intros s events A P; cbn [map run_loop]; [eauto|]. inversion A; subst.
  destruct (P t (or_introl eq_refl)) as ([|] & ->); cbn [bind].
  - destruct (able_runs t v events) as (st & ->); [assumption|]. cbn [bind]. apply IH; auto. intros; apply P; now right.
  - apply IH; auto. intros; apply P; now right.
Qed.
Lemma run_selected_total v predicate tests name filters : Forall able tests -> (forall x, In x tests -> exists b, predicate (t_id (fst x)) = Ok b) ->
  exists events success, run_selected_tests lm fuel v (map fst tests) name filters predicate = Ok (events, success).
Proof.
  intros A P. unfold run_selected_tests. match goal with |- context [run_loop ?f ?c ?p ?t ?s ?e] => destruct (run_loop_total v p tests s e A P) as ([s' e'] & ->) end. cbn [bind]. eauto.
Qed.
Lemma list_events_total predicate (tests : list (test_case * list text)) : (forall x, In x tests -> exists b, predicate (t_id (fst x)) = Ok b) ->
  exists l, list_events (map fst tests) predicate = Ok (ListTestRunStarted :: map (fun t => TestCaseListed (t_id t) (t_line t)) l ++ [ListTestRunEnded]).
Proof.
  intros P. unfold list_events. rewrite (list_loop_select predicate); [cbn [bind]; eauto|]. apply Forall_map, Forall_forall. exact P.
Qed.

Lemma before_irreflexive s : ~ before s s.
Proof. induction s as [|c s IH]; intros H; inversion H; subst; [lia|auto]. Qed.
Lemma sorted_nodup l : StronglySorted before l -> NoDup l.
Proof.
  induction 1 as [|a l S IH F]; constructor; auto. intros I. rewrite Forall_forall in F. exact (before_irreflexive _ (F _ I)).
Qed.
Lemma tags_total (tests : list (test_case * list text)) all : Forall able tests -> Forall (fun x => Forall (fun t => dotted t = true -> t = quote ".") (snd x)) tests ->
  length all <= l_max_unique_tags lm -> (forall x t, In x tests -> In t (tags_of (snd x)) -> In t all) ->
  exists out, list_all_tags (mm lm) (mt lm) (l_max_unique_tags lm) (map t_id (map fst tests)) = Ok out.
Proof.
  intros A D L I. destruct (list_all_tags_spec (mm lm) (mt lm) (l_max_unique_tags lm) (map t_id (map fst tests)) (map snd tests)) as (l & S & M & E).
  - induction A as [|x l (T & _) _ IH]; cbn [map]; constructor; auto. apply IH; [now inversion D|intros; eapply I; [right; eassumption|assumption]].
  - apply Forall_map. eapply Forall_impl; [|exact A]. intros x (_ & W & _). exact W.
  - apply Forall_map. exact D.
  - assert (LL : length l <= length all).
    { apply NoDup_incl_length; [now apply sorted_nodup|]. intros t Ht. apply M in Ht as (tags & Ht & It). apply in_map_iff in Ht as (x & <- & Hx). eauto. }
    rewrite E. destruct (Nat.leb_spec (length l) (l_max_unique_tags lm)); [eauto|lia].
Qed.

(** What can be reported: the events of a run, or of a listing. *)
Notation listable := (listable lm).
Definition run_or_listing (v : verbosity) (tests : list test_case) (l : list event) : Prop :=
  l = [] \/ (exists name filters predicate success, run_selected_tests lm fuel v tests name filters predicate = Ok (l, success)) \/
  (exists ts, l = ListTestRunStarted :: map (fun t => TestCaseListed (t_id t) (t_line t)) ts ++ [ListTestRunEnded]).

Lemma run_tests_total r argv path printed args tests :
  length argv <= l_max_command_line_args lm -> parse_arguments (cli_of lm) path argv = Ok (printed, Some args) ->
  g_tests r = map fst tests -> Forall able tests -> listable argv tests ->
  exists r' out success, run_tests lm fuel r args = Ok (r', out, success) /\ run_or_listing (g_verbose r) (g_tests r) (events_of out).
Proof.
  intros L P G A LT. destruct (parsed_options (cli_of lm) _ _ _ _ L P) as [GO GF].
  assert (D : exists out success, run_tests_impl lm fuel r args = Ok (out, success) /\ run_or_listing (g_verbose r) (g_tests r) (events_of out)).
  { unfold run_tests_impl. rewrite G. assert (NONE : forall l, run_or_listing (g_verbose r) (map fst tests) (events_of (map (@Printed test_id) l))) by (intros l; left; apply events_of_printed).
    assert (LIST : forall p, (forall x, In x tests -> exists b, p (t_id (fst x)) = Ok b) -> exists out success,
      (do l <- list_events (map fst tests) p ;; Ok (map (Reported (g_reporter r)) l, true)) = Ok (out, success) /\ run_or_listing (g_verbose r) (map fst tests) (events_of out)).
    { intros p H. destruct (list_events_total p tests H) as (l & E). rewrite E. cbn [bind]. eexists _, _. split; [reflexivity|]. rewrite events_of_reported. right; right. eauto. }
    assert (RUN : forall p name fs, (forall x, In x tests -> exists b, p (t_id (fst x)) = Ok b) -> exists out success,
      (do (l, success) <- run_selected_tests lm fuel (g_verbose r) (map fst tests) name fs p ;; Ok (map (Reported (g_reporter r)) l, success)) = Ok (out, success) /\
      run_or_listing (g_verbose r) (map fst tests) (events_of out)).
    { intros p name fs H. destruct (run_selected_total (g_verbose r) p tests name fs A H) as (l & s & E). rewrite E. cbn [bind]. eexists _, _. split; [reflexivity|]. rewrite events_of_reported. right; left. eauto. }
    rewrite Forall_forall in A.
    destruct (get_option args (lit "--help")).
    { destruct (print_help_total (cli_of lm) (executable args) (g_with_color r)) as (h & ->). cbn [bind]. eauto. }
    pose proof (GO (lit "--list-tests-with-tag") ltac:(discriminate)) as G1. destruct (get_option args (lit "--list-tests-with-tag")) as [a|].
    { cbn [option_map] in G1. symmetry in G1. destruct (setting_value argv (lit "--list-tests-with-tag") _ eq_refl G1) as (w & V). unfold value_of. rewrite V. cbn [bind].
      apply LIST. intros x Hx. destruct (A x Hx) as (T & W & _). destruct (tags_filter_spec (l_max_tag_length lm) (snd x) w W) as (m & M & _). rewrite T. unfold mt. rewrite M. cbn [bind]. eauto. }
    pose proof (GO (lit "--list-tags") ltac:(discriminate)) as G2. destruct (get_option args (lit "--list-tags")) as [a|].
    { destruct LT as [LT|(D & all & LA & I)]; [change quote with lit in LT; rewrite LT in G2; discriminate|].
      destruct (tags_total tests all) as (o & E); auto; [now apply Forall_forall|]. rewrite E. cbn [bind]. eauto. }
    destruct (get_option args (lit "--list-reporters")).
    { match goal with |- context [prints ?m ?l] => destruct (prints_total m l) as (o & E) end. rewrite E. cbn [bind]. eauto. }
    destruct (get_positional_argument args (lit "test regex")) as [a|] eqn:PA.
    - change quote with lit in GF. rewrite GF. cbn [bind].
      assert (NE : filters (read argv) <> []).
      { unfold get_positional_argument, for_each_positional_argument in *. clear - GF PA. revert GF PA. generalize (filters (read argv)).
        induction (arguments args) as [|b l IH]; cbn [positional_values List.find]; intros fs F Q; [discriminate Q|].
        destruct (_ && _); [|eauto]. destruct (a_value b); [|discriminate F]. destruct (positional_values _ l); cbn [bind] in F; [|discriminate F]. injection F as <-. discriminate. }
      assert (SEL : forall x, In x tests -> exists b, cli_selects (mt lm) (mn lm) (filters (read argv)) (t_id (fst x)) = Ok b).
      { intros x Hx. destruct (A x Hx) as (T & W & _ & LE & _). destruct (cli_selects_spec _ _ _ _ _ T W NE LE) as (b & E & _). eauto. }
      destruct (get_option args (lit "--list-tests")); auto.
    - destruct (get_option args (lit "--list-tests")); [apply LIST; eauto|]. unfold run_default. apply RUN.
      intros x Hx. destruct (A x Hx) as (T & W & _). destruct (default_selects_spec _ _ _ T W) as (b & E & _). eauto. }
  destruct D as (out & success & E & Q). unfold run_tests. rewrite E. cbn [bind]. eexists _, _, _. split; [reflexivity|].
  rewrite events_of_app. replace (events_of ([Finished _] ++ _)) with (@nil event) by (destruct (g_file r); reflexivity). rewrite app_nil_r. exact Q.
Qed.

(** ** The XML reporter *)
Lemma works_app l1 l2 k k1 k2 : works (xml_reports (mm lm) (mn lm) (l_version lm) file duration l1) k k1 -> works (xml_reports (mm lm) (mn lm) (l_version lm) file duration l2) k1 k2 ->
  works (xml_reports (mm lm) (mn lm) (l_version lm) file duration (l1 ++ l2)) k k2.
Proof.
  revert k. induction l1 as [|e l IH]; intros k (o & E) W; cbn [app xml_reports] in *.
  - unfold nothing in E. injection E as <- <-. exact W.
  - unfold andthen in E. destruct (xml_report _ _ _ _ _ e k) as [[k' o']|] eqn:X; cbn [bind] in E; [|discriminate].
    destruct (xml_reports _ _ _ _ _ l k') as [[k'' o'']|] eqn:Y; cbn [bind] in E; [|discriminate]. injection E as <- <-.
    eapply works_then; [exists o'; exact X|]. apply IH; [now exists o''|exact W].
Qed.
Lemma works_cons e l k k1 k2 : works (xml_report (mm lm) (mn lm) (l_version lm) file duration e) k k1 -> works (xml_reports (mm lm) (mn lm) (l_version lm) file duration l) k1 k2 ->
  works (xml_reports (mm lm) (mn lm) (l_version lm) file duration (e :: l)) k k2.
Proof. apply works_then. Qed.
Lemma listed_works ts : works (xml_reports (mm lm) (mn lm) (l_version lm) file duration (ListTestRunStarted :: map (fun t => TestCaseListed (t_id t) (t_line t)) ts ++ [ListTestRunEnded])) 0 0.
Proof.
  eapply works_cons; [apply listing_works|]. apply (works_app _ _ _ 1).
  - induction ts as [|t l IH]; [now exists []|]. eapply works_cons; [apply report_works; exact I|]. exact IH.
  - eapply works_cons; [apply report_works; exact I|]. now exists [].
Qed.
Lemma xml_reportable l : forall r i k k', g_reporter r = Some i -> g_storage r = Holds xml k -> works (xml_reports (mm lm) (mn lm) (l_version lm) file duration l) k k' ->
  reportable lm file duration r l.
Proof.
  induction l as [|e l IH]; intros r i k k' N S (o & E); unfold reportable in *; cbn [EndToEndProofs.report_list xml_reports] in *; [eauto|].
  unfold andthen in E. destruct (xml_report _ _ _ _ _ e k) as [[k1 o1]|] eqn:X; cbn [bind] in E; [|discriminate].
  destruct (xml_reports _ _ _ _ _ l k1) as [[k2 o2]|] eqn:Y; cbn [bind] in E; [|discriminate].
  unfold Program.report. rewrite N, S. cbn [r_report xml_reporter]. rewrite X. cbn [bind].
  destruct (IH (set_storage r (Holds xml k1)) i k1 k2) as (r2 & t2 & Q); [exact N|reflexivity|now exists o2|]. rewrite Q. cbn [bind]. eauto.
Qed.

(** Sections that are left open do not matter. *)
Lemma balanced_run x st body c s : able x -> run (config_of lm Full) fuel (fst x) [] = Ok st ->
  trace st = [TestCaseStarted (t_id (fst x)) (t_line (fst x))] ++ body ++ [TestCaseEnded (t_id (fst x)) (t_line (fst x)) c s] ->
  forall f, exists k, climb f 0 (brackets body) = Some k.
Proof.
  intros (T & W & (may & should & F) & _ & R & N & SC & C & L) RU E f. destruct x as [[id line p] tags]. cbn [fst snd t_id t_body t_line] in *.
  destruct (follows_specification (config_of lm Full) fuel id line p [] tags may should eq_refl T W F R N SC C L) as (st' & R' & E').
  rewrite RU in R'. injection R' as <-. cbn [app] in E'. rewrite E in E'.
  destruct (balanced_case f id may should (cf_max_capture_length (config_of lm Full)) (cf_max_message_length (config_of lm Full)) line p R) as (body' & c' & s' & k & E2 & K).
  rewrite E2 in E'. cbn [fst app] in E'. injection E' as E'. apply app_inj_tail in E' as [-> _]. eauto.
Qed.
Notation xml_works l := (works (xml_reports (mm lm) (mn lm) (l_version lm) file duration l)).
Lemma body_works l : Forall (fun e => inner e = true) l -> Forall sound_event l -> forall k k', climb (fun _ => true) k (brackets l) = Some k' ->
  forall m, xml_works l (S (k + m)) (S (k' + m)).
Proof.
  induction 1 as [|e l I _ IH]; intros S k k' H m; [cbn in H; injection H as <-; now exists []|]. inversion S; subst.
  assert (C : exists k1, level_after e (Datatypes.S (k + m)) = Datatypes.S (k1 + m) /\ climb (fun _ => true) k1 (brackets l) = Some k').
  { destruct e; try discriminate I; cbn [level_after brackets flat_map app climb weight] in *; eauto.
    - exists (Datatypes.S k). auto.
    - destruct (1 <=? k) eqn:LE; [|discriminate]. apply Nat.leb_le in LE. exists (k - 1). split; [lia|exact H]. }
  destruct C as (k1 & E & C). eapply works_cons; [apply report_works; assumption|]. rewrite E. apply IH; assumption.
Qed.
Lemma cases_works v tests parts : vlevel High <= vlevel v -> Forall2 (case_part lm fuel) (map fst tests) parts -> Forall able tests ->
  forall k, exists k', xml_works (filter (Events.visible v) (List.concat parts)) (S k) (S k').
Proof.
  intros V. revert parts. induction tests as [|x tests IH]; intros parts F A k; inversion F as [|t part ts ps P F']; subst; [exists k; now exists []|].
  inversion A as [|y ys Ax A']; subst. destruct P as (st & body & c & s & R & E & -> & I).
  pose proof (good_run _ _ _ _ _ (Forall_nil _) R) as (_ & _ & _ & S). rewrite E in S. inversion S as [|y ys _ S1]; subst. apply Forall_app in S1 as [S1 _].
  destruct (balanced_run _ _ _ _ _ Ax R E (fun _ => true)) as (n & K). cbn [List.concat]. rewrite !filter_app.
  assert (Vs : forall e : event, min_verbosity e = High -> filter (Events.visible v) [e] = [e]).
  { intros e M. cbn [filter]. unfold Events.visible. rewrite M. apply Nat.leb_le in V. now rewrite V. }
  rewrite (Vs (TestCaseStarted _ _) eq_refl), (Vs (TestCaseEnded _ _ _ _) eq_refl). rewrite <- !app_assoc. cbn [app].
  destruct (IH ps F' A' (n + k)) as (k' & W). exists k'.
  eapply works_cons; [apply (report_works _ _ _ _ _ (TestCaseStarted _ _) _ Logic.I)|]. cbn [level_after].
  eapply works_app.
  - rewrite <- (brackets_visible v) in K by exact V. apply (body_works (filter (Events.visible v) body)) with (m := Datatypes.S k) in K; auto using Forall_filter. cbn [plus] in K. exact K.
  - rewrite Nat.add_succ_r. eapply works_cons; [apply case_end_works|]. exact W.
Qed.
Lemma run_works v tests name filters predicate events success : vlevel High <= vlevel v -> Forall able tests ->
  run_selected_tests lm fuel v (map fst tests) name filters predicate = Ok (events, success) -> exists k, xml_works events 0 k.
Proof.
  intros V A. rewrite run_selected_verbosity. destruct (run_selected_tests lm fuel Full _ name filters predicate) as [[ev b]|] eqn:R; [|discriminate].
  intros [= <- <-]. destruct (summary_kept _ _ _ _ _ _ _ _ R) as (keep & parts & _ & F & -> & _). rewrite !filter_app.
  assert (FM : filter keep (map fst tests) = map fst (filter (fun x => keep (fst x)) tests)).
  { clear. induction tests as [|x l IH]; [reflexivity|]. cbn [map filter]. destruct (keep (fst x)); cbn [map]; now rewrite IH. }
  rewrite FM in F. pose proof (cases_sound _ _ _ _ F) as S. destruct (cases_works v _ _ V F) with (k := 0) as (k & W); [now apply Forall_filter|].
  assert (Vs : forall e : event, min_verbosity e = Normal -> filter (Events.visible v) [e] = [e]).
  { intros e M. cbn [filter]. unfold Events.visible. rewrite M. cbn [vlevel] in *. assert (1 <=? vlevel v = true) as -> by (apply Nat.leb_le; lia). reflexivity. }
  rewrite (Vs (TestRunStarted _ _) eq_refl), (Vs (summary_of _ _ _) eq_refl). cbn [app]. exists k.
  eapply works_cons; [apply starting_works|]. eapply works_app; [exact W|]. eapply works_cons; [|now exists []].
  destruct (summary_sound name filters _ (ended_sound _ S)) as [S1 S2]. unfold sound in S1. apply run_end_works; cbn [n_all n_failed n_allowed] in *; lia.
Qed.

(** *** C66 *)
Theorem never_fails can_open r path argv tests :
  length argv <= l_max_command_line_args lm -> g_reporter r = None -> g_to_file r = false ->
  g_tests r = map fst tests -> Forall able tests -> listable argv tests ->
  (forall f, setting (read argv) (quote "--out") = Some (Some f) -> ~ In zero f /\ length f <= l_max_path_length lm /\ can_open f = true) ->
  Forall (fun p => starts p /\ (speaks p \/ p = xml)) (g_reporters r) ->
  exists out code, main_program can_open r path argv = Ok (out, code) /\ code <= 1.
Proof.
  intros L N TF G A LT O S. unfold Program.main_program. destruct (parse_arguments_spec (cli_of lm) path argv L) as (printed & a & P & _ & _).
  rewrite P. cbn [bind]. destruct a as [args|]; [|eauto].
  assert (O' : forall f, setting (read argv) (quote "--out") = Some (Some f) -> open_file (l_max_path_length lm) can_open f = Ok f).
  { intros f Hf. destruct (O f Hf) as (Z & LE & C). rewrite open_file_good by (auto; lia). apply Nat.leb_le in LE. rewrite LE, C. reflexivity. }
  destruct (configure_total can_open r argv args path printed L P O') as (r1 & out1 & C). { eapply Forall_impl; [|exact S]. intros p [H _]; exact H. }
  rewrite C. cbn [bind].
  assert (T1 : g_tests r1 = g_tests r) by (apply (choice lm file duration _ _ _ _ _ _ _ _ L P) in C; apply C).
  rewrite <- T1 in G. destruct (run_tests_total r1 argv path printed args tests L P G A LT) as (r2 & out2 & success & R & Q).
  destruct (run_performs lm fuel file duration r1 args r2 out2 success (configure_writable _ _ _ _ _ _ TF C) R) as (r3 & out3 & PF).
  { pose proof C as C'. apply configure_prepared in C' as (r4 & o4 & o5 & (_ & P2 & _ & P4 & _) & ST & _).
    destruct (parsed_options (cli_of lm) _ _ _ _ L P) as [GO _]. specialize (GO (quote "--reporter") ltac:(discriminate)). change (quote "--reporter") with (lit "--reporter") in *.
    assert (RDY : ready r1 -> reportable lm file duration r1 (events_of out2)).
    { intros RD. destruct (report_list_ready lm file duration (events_of out2) r1 RD) as (r' & t & E & _). now exists r', t. }
    destruct (get_option args (lit "--reporter")) as [a|]; cbn [reporter_step option_map] in *.
    - unfold value_of in ST. destruct (a_value a) as [w|]; cbn [bind] in ST; [|discriminate]. symmetry in GO.
      apply parse_reporter_names in ST as [->|(i & p & m & memory & NP & NM & -> & K)]; [apply RDY; left; congruence|].
      rewrite P2 in NP. apply nth_error_In in NP. rewrite Forall_forall in S. destruct (S p NP) as (_ & [SP| ->]).
      + apply RDY. right. exists i, p, memory. auto.
      + cbn [r_memory xml_reporter] in *. specialize (K (fun m memory => vlevel High <= vlevel (m_verbose m) /\ memory = 0)). cbn beta in K.
        destruct K as [VH ->].
        { cbn [r_initialize xml_reporter]. intros memory1 m1 said [= <- <- <-]. split; [|reflexivity]. rewrite raise_at_least. apply at_least_level. }
        { cbn [r_configure xml_reporter]. intros m0 memory0 k v memory1 m1 said known [= <- <- <- <-]. auto. }
        assert (XW : exists k, xml_works (events_of out2) 0 k).
        { destruct Q as [->|[(name & fs & pr & su & RS)|(ts & ->)]]; [exists 0; now exists []| |exists 0; apply listed_works].
          rewrite G in RS. eapply run_works; eauto. }
        destruct XW as (k & XW). eapply xml_reportable; [reflexivity|reflexivity|exact XW].
    - injection ST as <- <-. apply RDY. left. congruence. }
  unfold Program.run_program. rewrite R. cbn [bind]. rewrite PF. cbn [bind]. destruct success; eauto.
Qed.
End Total.
