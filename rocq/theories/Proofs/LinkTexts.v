(** The order in which tests are registered, and the texts of reports (C103). *)
From Coq Require Import Permutation Sorting.Sorted Lia.
From Verif.Spec Require Import TextSpec FilterSpec PrintSpec CliSpec Events VerdictSpec RunSpec TreeSpec SessionSpec ProgramSpec.
From Verif.Model Require Import Base Vector StringUtil Print Filter Run Cli File Session Reporters Program.
From Verif.Spec Require Import ProgramClaims LinkClaims.
From Verif.Proofs Require Import Lists RunProofs RunFacts SessionProofs SessionFacts ConfigProofs CliProofs CliFacts ProgramProofs EndToEndProofs ChoiceProofs WholeProofs HistoryProofs OutputProofs XmlProofs ReportProofs XmlLevel ShardProofs LinkProofs WarningProofs.
Local Open Scope list_scope.

Section Texts.
Variable lm : Session.limits.
Variable fuel : nat.
Variable file : event -> str.
Variable duration : event -> option str.
Notation report := (Program.report lm file duration).
Notation report_list := (EndToEndProofs.report_list lm file duration).

(** ** Reports of parts that leave the reporter as it was *)
Section Parts.
Variable K : registry -> Prop.

Definition told (part : list event) : Prop := forall r ra, K r -> K ra ->
  match report_list r part, report_list ra part with
  | Ok (a, t), Ok (b, t') => K a /\ K b /\ t = t'
  | Err _, Err _ => True
  | _, _ => False
  end.
Definition said (r : registry) (part : list event) : text := match report_list r part with Ok (_, t) => List.concat t | Err _ => [] end.

Lemma report_list_app a b : forall r, report_list r (a ++ b) = do (r1, t) <- report_list r a ;; do (r2, t') <- report_list r1 b ;; Ok (r2, t ++ t').
Proof.
  induction a as [|e a IH]; intros r; cbn [app EndToEndProofs.report_list bind].
  - destruct (report_list r b) as [[? ?]|]; reflexivity.
  - destruct (report r e) as [[r1 t]|]; cbn [bind]; [|reflexivity]. rewrite IH. destruct (report_list r1 a) as [[r2 t2]|]; cbn [bind]; [|reflexivity].
    destruct (report_list r2 b) as [[r3 t3]|]; cbn [bind]; [|reflexivity]. now rewrite app_assoc.
Qed.

Lemma told_list l : (forall e, In e l -> told [e]) -> told l.
Proof.
  induction l as [|e l IH]; intros H r ra A B; [cbn; auto|]. change (e :: l) with ([e] ++ l). rewrite !report_list_app.
  pose proof (H e (or_introl eq_refl) r ra A B) as X. destruct (report_list r [e]) as [[r1 t1]|], (report_list ra [e]) as [[r2 t2]|]; try contradiction; cbn [bind]; [|exact I].
  destruct X as (A1 & B1 & ->). pose proof (IH (fun x I => H x (or_intror I)) r1 r2 A1 B1) as Y.
  destruct (report_list r1 l) as [[r3 t3]|], (report_list r2 l) as [[r4 t4]|]; try contradiction; cbn [bind]; [|exact I].
  destruct Y as (A2 & B2 & ->). auto.
Qed.

Lemma told_each r0 parts : K r0 -> Forall told parts -> forall r x, K r -> report_list r (List.concat parts) = Ok x ->
  forall part, In part parts -> exists y, report_list r0 part = Ok y.
Proof.
  intros A. induction 1 as [|p parts T _ IH]; intros r x B E part I; [destruct I|]. cbn [List.concat] in E. rewrite report_list_app in E.
  pose proof (T r r0 B A) as X. destruct (report_list r p) as [[r1 t1]|] eqn:E1; cbn [bind] in E; [|discriminate].
  destruct (report_list r0 p) as [[r2 t2]|] eqn:E2; [|contradiction]. destruct X as (B1 & _).
  destruct (report_list r1 (List.concat parts)) as [[r3 t3]|] eqn:E3; cbn [bind] in E; [|discriminate].
  destruct I as [<-|I]; [eauto|]. exact (IH _ _ B1 E3 part I).
Qed.
Lemma told_concat r0 parts : K r0 -> Forall told parts -> (forall part, In part parts -> exists y, report_list r0 part = Ok y) ->
  forall r, K r -> exists r' ts, report_list r (List.concat parts) = Ok (r', ts) /\ K r' /\ List.concat ts = flat_map (said r0) parts.
Proof.
  intros A. induction 1 as [|p parts T _ IH]; intros H r B; [exists r, []; cbn; auto|]. cbn [List.concat flat_map]. rewrite report_list_app.
  pose proof (T r r0 B A) as X. destruct (H p (or_introl eq_refl)) as ([r2 t2] & E2). unfold said at 1. rewrite E2 in X |- *.
  destruct (report_list r p) as [[r1 t1]|]; [|contradiction]. destruct X as (B1 & _ & ->). cbn [bind].
  destruct (IH (fun q I => H q (or_intror I)) r1 B1) as (r3 & ts & -> & B3 & C). cbn [bind]. exists r3, (t2 ++ ts). rewrite concat_app, C. auto.
Qed.

(** The whole report: a beginning, the parts, and an end. *)
Lemma told_run r first last parts parts' r3 ts :
  (forall r1 t, report_list r first = Ok (r1, t) -> K r1) -> Forall told parts -> told last -> (forall x, In x parts' -> In x parts) ->
  report_list r (first ++ List.concat parts ++ last) = Ok (r3, ts) ->
  exists r0 before after r3' ts', List.concat ts = before ++ flat_map (said r0) parts ++ after /\
    report_list r (first ++ List.concat parts' ++ last) = Ok (r3', ts') /\ List.concat ts' = before ++ flat_map (said r0) parts' ++ after.
Proof.
  intros F T TL S E. rewrite report_list_app in E |- *. destruct (report_list r first) as [[r0 t0]|] eqn:E0; cbn [bind] in E |- *; [|discriminate].
  specialize (F _ _ eq_refl). rewrite report_list_app in E |- *. destruct (report_list r0 (List.concat parts)) as [[r1 t1]|] eqn:E1; cbn [bind] in E; [|discriminate].
  pose proof (told_each r0 parts F T r0 _ F E1) as EA. destruct (told_concat r0 parts F T EA r0 F) as (ra & ta & X & KA & CA). rewrite E1 in X. injection X as <- <-.
  assert (T' : Forall told parts') by (rewrite Forall_forall in *; auto).
  destruct (told_concat r0 parts' F T' (fun p I => EA p (S p I)) r0 F) as (rb & tb & -> & KB & CB). cbn [bind].
  pose proof (TL r1 rb KA KB) as Y. destruct (report_list r1 last) as [[r2 t2]|]; cbn [bind] in E; [|discriminate].
  destruct (report_list rb last) as [[r2' t2']|]; [|contradiction]. destruct Y as (_ & _ & <-). injection E as <- <-. cbn [bind].
  exists r0, (List.concat t0), (List.concat t2). eexists _, _. split; [|split; [reflexivity|]]; rewrite !concat_app; congruence.
Qed.
End Parts.

(** ** The reporters of the library *)
Lemma told_default r0 e : g_reporter r0 = None -> counted e = false -> told (fun r => exists x, r = set_storage r0 x) [e].
Proof.
  intros N C r ra (x & ->) (y & ->). cbn [EndToEndProofs.report_list]. unfold Program.report. cbn [g_reporter set_storage g_storage g_with_color]. rewrite N.
  pose proof (console_counter lm file duration (g_with_color r0) (match x with Default c => c | _ => 0 end) (match y with Default c => c | _ => 0 end) e C) as H.
  destruct (console_report _ _ _ _ _ _ _ e) as [[c1 o1]|], (console_report _ _ _ _ _ _ (match y with Default c => c | _ => 0 end) e) as [[c2 o2]|]; cbn [bind]; try contradiction; [|exact I].
  subst o2. split; [exists (Default c1); reflexivity|]. split; [exists (Default c2); reflexivity|reflexivity].
Qed.
Lemma told_console r0 i e : g_reporter r0 = Some i -> counted e = false -> told (fun r => exists c, r = set_storage r0 (Holds (console_reporter lm file duration) c)) [e].
Proof.
  intros N C r ra (x & ->) (y & ->). cbn [EndToEndProofs.report_list]. unfold Program.report. cbn [g_reporter set_storage g_storage]. rewrite N.
  cbn [r_report console_reporter modes_of m_color g_with_color set_storage].
  pose proof (console_counter lm file duration (g_with_color r0) x y e C) as H.
  destruct (console_report _ _ _ _ _ _ x e) as [[c1 o1]|], (console_report _ _ _ _ _ _ y e) as [[c2 o2]|]; cbn [bind]; try contradiction; [|exact I].
  subst o2. split; [exists c1; reflexivity|]. split; [exists c2; reflexivity|reflexivity].
Qed.
Lemma told_teamcity r0 i e : g_reporter r0 = Some i -> g_storage r0 = Holds (teamcity_reporter lm file duration) tt -> told (fun r => r = r0) [e].
Proof.
  intros N S r ra -> ->. cbn [EndToEndProofs.report_list]. unfold Program.report. rewrite N, S. cbn [r_report teamcity_reporter].
  destruct (tc_report _ _ _ _ e) as [o|]; cbn [bind]; [|exact I].
  assert (X : set_storage r0 (Holds (teamcity_reporter lm file duration) tt) = r0) by (rewrite <- S; now destruct r0). auto.
Qed.

Lemma xml_list l : forall r r' i k t, g_reporter r = Some i -> g_storage r = Holds (xml_reporter lm file duration) k -> report_list r l = Ok (r', t) ->
  exists k', r' = set_storage r (Holds (xml_reporter lm file duration) k') /\ k' + list_sum (map closes l) = k + list_sum (map opens l).
Proof.
  induction l as [|e l IH]; intros r r' i k t N S; cbn [EndToEndProofs.report_list].
  - intros [= <- _]. exists k. split; [rewrite <- S; now destruct r|cbn; lia].
  - unfold Program.report at 1. rewrite N, S. cbn [r_report xml_reporter].
    destruct (xml_report _ _ _ _ _ e k) as [[k1 o1]|] eqn:E; cbn [bind]; [|discriminate].
    destruct (report_list _ l) as [[r2 o2]|] eqn:R; cbn [bind]; [|discriminate]. intros [= <- _].
    apply moves_report in E. apply (IH _ _ i k1) in R as (k' & -> & L); [|exact N|reflexivity]. exists k'. split; [reflexivity|].
    cbn [map list_sum fold_right] in *. unfold list_sum in L. lia.
Qed.
Lemma told_xml r0 i k l : g_reporter r0 = Some i -> g_storage r0 = Holds (xml_reporter lm file duration) k -> list_sum (map closes l) = list_sum (map opens l) -> told (fun r => r = r0) l.
Proof.
  intros N S L r ra -> ->. destruct (report_list r0 l) as [[a t]|] eqn:E; [|exact I].
  destruct (xml_list l _ _ _ _ _ N S E) as (k' & -> & X). assert (k' = k) by lia. subst k'.
  assert (Y : set_storage r0 (Holds (xml_reporter lm file duration) k) = r0) by (rewrite <- S; now destruct r0). auto.
Qed.

(** ** Programs *)
Lemma report_with l r e : report (with_tests l r) e = lift l (report r e).
Proof.
  unfold Program.report. cbn [with_tests g_reporter g_storage g_with_color]. destruct (g_reporter r).
  - destruct (g_storage r) as [| |p m]; try reflexivity. change (modes_of (with_tests l r)) with (modes_of r). destruct (r_report p _ m e) as [[? ?]|]; reflexivity.
  - destruct (console_report _ _ _ _ _ _ _ e) as [[? ?]|]; reflexivity.
Qed.
Lemma report_list_with l ev : forall r, report_list (with_tests l r) ev = lift l (report_list r ev).
Proof.
  induction ev as [|e ev IH]; intros r; cbn [EndToEndProofs.report_list]; [reflexivity|]. rewrite report_with.
  destruct (report r e) as [[r1 t]|]; cbn [bind lift]; [|reflexivity]. rewrite IH. destruct (report_list r1 ev) as [[r2 t2]|]; reflexivity.
Qed.

Lemma program_reads can_open r path argv : length argv <= l_max_command_line_args lm -> acceptable argv -> asks_run (setting (read argv)) -> g_to_file r = false ->
  exists printed args, parse_arguments (cli_of lm) path argv = Ok (printed, Some args) /\
  main_program lm fuel file duration can_open r path argv =
  match configure lm can_open r args with
  | Ok (r1, out1) =>
    match tested lm fuel r path (filters (read argv)) with
    | Ok (events, success) =>
      match report_list r1 (filter (Events.visible (g_verbose r1)) events) with
      | Ok (_, texts) => Ok (map Printed printed ++ out1 ++ map (put r1) texts ++ closing r1, if success then 0 else 1)
      | Err e => Err e
      end
    | Err e => Err e
    end
  | Err e => Err e
  end.
Proof.
  intros L ACC AR TF. unfold main_program. destruct (parse_arguments_spec (cli_of lm) path argv L) as (printed & args & P & A & _). rewrite P.
  destruct (A ACC) as (E & _). subst args. clear A. match type of P with _ = Ok (_, Some ?a) => set (ar := a) in * end.
  exists printed, ar. split; [reflexivity|]. cbn [bind].
  destruct (configure lm can_open r ar) as [[r1 out1]|] eqn:C; cbn [bind]; [|reflexivity].
  destruct (choice lm (fun _ => []) (fun _ => None) can_open r path argv printed ar r1 out1 L P C) as (T & _).
  destruct (parsed_options (cli_of lm) _ _ _ _ L P) as [GO FE].
  assert (NA : forall n, In n (quote "--list-tests" :: actions) -> get_option ar n = None).
  { intros n Hn. assert (NE : n <> []) by (cbn in Hn; intuition (subst; discriminate)). specialize (GO n NE). rewrite (AR n Hn) in GO. destruct (get_option ar n); [discriminate|reflexivity]. }
  assert (W : writable r1).
  { pose proof (configure_effect _ _ _ _ _ _ C) as CE. unfold writable. destruct (get_option ar (lit "--out")).
    - destruct CE as (b & f & p' & v & _ & _ & _ & _ & _ & F & _). rewrite F. intros _. discriminate.
    - destruct CE as (_ & _ & T'). rewrite T', TF. discriminate. }
  unfold run_program. rewrite (run_eq lm fuel r1 ar _ NA FE), T. unfold tested. change (executable ar) with (extract_executable path).
  destruct (run_selected_tests lm fuel Full _ _ _ _) as [[ev su]|]; cbn [bind]; [|reflexivity].
  rewrite (perform_reported lm file duration) by exact W. destruct (report_list r1 _) as [[r4 texts]|] eqn:RL; cbn [bind]; [|reflexivity].
  assert (SS : g_reporter r1 = g_reporter r4 /\ g_file r1 = g_file r4).
  { destruct (report_list_storage _ _ _ _ _ _ _ RL) as [->|(x & ->)]; auto. }
  rewrite (perform_closing lm file duration r1 r4) by apply SS. cbn [bind].
  assert (CL : closing r4 = closing r1) by (unfold closing; destruct SS as [-> ->]; reflexivity). now rewrite CL.
Qed.

Definition kept (p : test_id -> res bool) (t : test_case) : bool := match p (t_id t) with Ok b => b | Err _ => false end.

(** What each part of a run looks like. *)
Lemma cases_parts p tests l : cases lm fuel p tests = Ok l ->
  map (fun x => trace (snd x)) l = map (fun t => match run (config_of lm Full) fuel t [] with Ok st => trace st | Err _ => [] end) (filter (kept p) tests) /\
  Forall (fun x => run (config_of lm Full) fuel (fst x) [] = Ok (snd x) /\ In (fst x) tests) l.
Proof.
  intros C. destruct (cases_select _ _ _ _ _ C) as (E & F & _). change (filter (kept p) tests) with (select p tests). rewrite <- E, map_map. split.
  - apply map_ext_in. intros x I. rewrite Forall_forall in F. now rewrite (F x I).
  - rewrite Forall_forall in *. intros x I. split; [auto|]. assert (J : In (fst x) (select p tests)) by (rewrite <- E; now apply in_map). now apply filter_In in J.
Qed.

Lemma concat_filter (f : event -> bool) l : filter f (List.concat l) = List.concat (map (filter f) l).
Proof. induction l as [|x l IH]; [reflexivity|]. cbn [List.concat map]. now rewrite filter_app, IH. Qed.

Lemma even_part v t st : vlevel High <= vlevel v -> ends_sections lm fuel t -> run (config_of lm Full) fuel t [] = Ok st ->
  let l := filter (Events.visible v) (trace st) in list_sum (map closes l) = list_sum (map opens l).
Proof.
  intros V EV R. specialize (EV st R). destruct (run_alone lm fuel t st R) as (body & c & s & T & I & _). rewrite T in *. cbv zeta.
  rewrite case_brackets_of in EV. change (TestCaseStarted (t_id t) (t_line t) :: body ++ ?x) with ([TestCaseStarted (t_id t) (t_line t)] ++ body ++ x). rewrite !filter_app.
  assert (Vs : forall e : event, min_verbosity e = High -> filter (Events.visible v) [e] = [e]).
  { intros e M. cbn [filter]. unfold Events.visible. rewrite M. apply Nat.leb_le in V. now rewrite V. }
  rewrite (Vs (TestCaseStarted _ _) eq_refl), (Vs (TestCaseEnded _ _ _ _) eq_refl), !sums_app.
  destruct (inner_level (filter (Events.visible v) body)) as [B1 B2]; [now apply ReportProofs.Forall_filter|].
  rewrite B1, B2, brackets_visible by exact V. cbn. unfold anything. lia.
Qed.

Lemma visible_in v (l : list event) e : In e (filter (Events.visible v) l) -> In e l.
Proof. intros I. now apply filter_In in I. Qed.

Lemma inside_uncounted t st e : run (config_of lm Full) fuel t [] = Ok st -> In e (trace st) -> counted e = false.
Proof.
  intros R I. destruct (run_alone lm fuel t st R) as (body & c & s & T & F & _). rewrite T in I. destruct I as [<-|I]; [reflexivity|].
  apply in_app_iff in I as [I|[<-|[]]]; [|reflexivity]. pose proof (inner_uncounted _ F) as U. rewrite Forall_forall in U. auto.
Qed.

Theorem texts_perm can_open r r' path argv out code :
  relinked r r' -> length argv <= l_max_command_line_args lm -> acceptable argv -> asks_run (setting (read argv)) -> g_to_file r = false ->
  (console_asked lm file duration r argv \/ reporter_asked (teamcity_reporter lm file duration) r argv \/
   (reporter_asked (xml_reporter lm file duration) r argv /\ Forall (ends_sections lm fuel) (g_tests r))) ->
  main_program lm fuel file duration can_open r path argv = Ok (out, code) ->
  exists (out' : list output) (keep : test_case -> bool) (piece : test_case -> text) (before after : text),
    main_program lm fuel file duration can_open r' path argv = Ok (out', code) /\
    report_goes lm r argv out (before ++ flat_map piece (filter keep (g_tests r)) ++ after) /\
    report_goes lm r' argv out' (before ++ flat_map piece (filter keep (g_tests r')) ++ after).
Proof.
  intros RL L ACC AR TF CA M.
  destruct (program_reads can_open r path argv L ACC AR TF) as (printed & args & PA & E). rewrite E in M. clear E.
  assert (TF' : g_to_file r' = false) by (rewrite (relinked_with _ _ RL); exact TF).
  assert (SG : forall o t, report_goes lm r argv o t -> report_goes lm r' argv o t) by (intros o t; apply same_goes; rewrite (relinked_with _ _ RL); reflexivity).
  destruct (program_reads can_open r' path argv L ACC AR TF') as (printed' & args' & PA' & E'). rewrite PA in PA'. injection PA' as <- <-.
  rewrite E'. clear E'. assert (CW : configure lm can_open r' args = lift (g_tests r') (configure lm can_open r args)) by (rewrite <- configure_with; f_equal; exact (relinked_with _ _ RL)).
  rewrite CW. clear CW.
  destruct (configure lm can_open r args) as [[r1 out1]|] eqn:C; [|discriminate]. cbn [lift].
  destruct RL as (P & _). set (fs := filters (read argv)) in *. unfold tested in *.
  destruct (run_selected_tests lm fuel Full (g_tests r) (extract_executable path) fs (picks lm fs)) as [[events success]|] eqn:RS; [|discriminate].
  rewrite run_selected in RS. rewrite run_selected. destruct (cases lm fuel (picks lm fs) (g_tests r)) as [l|] eqn:CS; [|discriminate]. cbv zeta in RS. injection RS as <- <-.
  destruct (cases_perm lm fuel _ _ _ P _ CS) as (l' & CS' & Q). rewrite CS'. cbv zeta.
  set (parts := map (fun x => trace (snd x)) l) in *. set (parts' := map (fun x => trace (snd x)) l').
  assert (QP : Permutation parts parts') by now apply Permutation_map.
  assert (EP : Permutation (ended (List.concat parts)) (ended (List.concat parts'))) by now apply ended_perm, concat_perm.
  rewrite <- (in_state_perm _ _ _ EP), <- (summary_perm _ _ _ _ EP). set (last := summary_of _ _ _) in *.
  rewrite visible_full in M. rewrite visible_full. unfold report_at in *. cbn [vlevel Nat.leb min_verbosity Events.visible] in *.
  match type of M with context [filter ?f ?l] => change l with ([TestRunStarted (extract_executable path) fs] ++ List.concat parts ++ [last]) in M end.
  match goal with |- context [filter (Events.visible ?v) ?l] => change l with ([TestRunStarted (extract_executable path) fs] ++ List.concat parts' ++ [last]) end.
  set (v := g_verbose r1) in *. change (g_verbose (with_tests (g_tests r') r1)) with v.
  rewrite filter_app, (filter_app _ (List.concat parts)), concat_filter in M. rewrite filter_app, (filter_app _ (List.concat parts')), concat_filter, report_list_with.
  set (first := filter (Events.visible v) [TestRunStarted (extract_executable path) fs]) in *. set (final := filter (Events.visible v) [last]) in *.
  destruct (report_list r1 (first ++ List.concat (map (filter (Events.visible v)) parts) ++ final)) as [[r3 ts]|] eqn:RP; [|discriminate]. injection M as <- <-.
  destruct (cases_parts _ _ _ CS) as (CP & FP). destruct (cases_parts _ _ _ CS') as (CP' & _). fold parts in CP. fold parts' in CP'.
  assert (X : exists r0 before after r3' ts', List.concat ts = before ++ flat_map (said r0) (map (filter (Events.visible v)) parts) ++ after /\
    report_list r1 (first ++ List.concat (map (filter (Events.visible v)) parts') ++ final) = Ok (r3', ts') /\
    List.concat ts' = before ++ flat_map (said r0) (map (filter (Events.visible v)) parts') ++ after).
  { assert (SUB : forall x, In x (map (filter (Events.visible v)) parts') -> In x (map (filter (Events.visible v)) parts)).
    { intros x I. eapply Permutation_in; [|exact I]. apply Permutation_map, Permutation_sym, QP. }
    assert (UNC : forall e, In e first \/ In e final -> counted e = false).
    { intros e [I|I]; apply visible_in in I; destruct I as [<-|[]]; reflexivity. }
    assert (UNP : forall part e, In part (map (filter (Events.visible v)) parts) -> In e part -> counted e = false).
    { intros part e I J. apply in_map_iff in I as (q & <- & I). apply visible_in in J. unfold parts in I. apply in_map_iff in I as (x & <- & I).
      rewrite Forall_forall in FP. destruct (FP x I) as (R & _). eapply inside_uncounted; eauto. }
    destruct (choice lm file duration can_open r path argv printed args r1 out1 L PA C) as (_ & _ & CH1 & CH2). cbv zeta in CH1, CH2.
    destruct (parsed_options (cli_of lm) _ _ _ _ L PA) as [GO _]. specialize (GO (quote "--reporter") ltac:(discriminate)).
    destruct CA as [[(N & GR)|(arg & i & SR & N & F)]|[(arg & i & SR & N & F)|[(arg & i & SR & N & F) EV]]].
    - destruct (CH1 N) as (_ & R1 & _). rewrite GR in R1.
      assert (T1 : forall e, counted e = false -> told (fun r => exists x, r = set_storage r1 x) [e]) by (intros e; now apply told_default).
      eapply (told_run (fun r => exists x, r = set_storage r1 x)); [|apply Forall_forall; intros part I; apply told_list; eauto|apply told_list; auto|exact SUB|exact RP].
      intros r2 t R2. destruct (report_list_storage _ _ _ _ _ _ _ R2) as [->|(x & ->)]; [exists (g_storage r1); now destruct r1|eauto].
    - rewrite SR in GO. destruct (CH2 arg SR) as (_ & H). destruct (H i _ F N) as (H1 & _). destruct (H1 eq_refl) as (_ & R1).
      pose proof C as C'. apply configure_prepared in C' as (r4 & o4 & o5 & (_ & P2 & _) & S & _). change quote with lit in *.
      destruct (get_option args (lit "--reporter")) as [a|]; [|discriminate]. cbn [option_map reporter_step] in *. unfold value_of in S. destruct (a_value a) as [w|]; [|discriminate].
      injection GO as ->. cbn [bind] in S. rewrite <- P2 in F. destruct (console_chosen lm file duration _ _ _ _ _ F N S) as (col & E1).
      assert (S1 : g_storage r1 = Holds (console_reporter lm file duration) 0) by now rewrite E1.
      assert (T1 : forall e, counted e = false -> told (fun r => exists c, r = set_storage r1 (Holds (console_reporter lm file duration) c)) [e]) by (intros e; now apply (told_console r1 i)).
      eapply (told_run (fun r => exists c, r = set_storage r1 (Holds (console_reporter lm file duration) c))); [|apply Forall_forall; intros part I; apply told_list; eauto|apply told_list; auto|exact SUB|exact RP].
      intros r2 t R2. assert (K1 : exists c, r1 = set_storage r1 (Holds (console_reporter lm file duration) c)) by (exists 0; rewrite <- S1; now destruct r1).
      assert (TF1 : told (fun r => exists c, r = set_storage r1 (Holds (console_reporter lm file duration) c)) first) by (apply told_list; auto).
      pose proof (TF1 r1 r1 K1 K1) as Y. rewrite R2 in Y. apply Y.
    - destruct (CH2 arg SR) as (_ & H). destruct (H i _ F N) as (_ & H1). destruct (H1 (or_intror eq_refl)) as (_ & R1).
      destruct (chosen_registry lm file duration can_open r path argv printed args r1 out1 arg _ L PA C SR (ex_intro _ i F) N) as (_ & H2). destruct (H2 eq_refl) as (j & R2 & S1).
      assert (T1 : forall e, told (fun r => r = r1) [e]) by (intros e; now apply (told_teamcity r1 i)).
      eapply (told_run (fun r => r = r1)); [|apply Forall_forall; intros part I; apply told_list; eauto|apply told_list; auto|exact SUB|exact RP].
      intros r2 t X. assert (TF1 : told (fun r => r = r1) first) by (apply told_list; auto). pose proof (TF1 r1 r1 eq_refl eq_refl) as Y. rewrite X in Y. apply Y.
    - destruct (CH2 arg SR) as (_ & H). destruct (H i _ F N) as (_ & H1). destruct (H1 (or_introl eq_refl)) as (V1 & R1).
      destruct (chosen_registry lm file duration can_open r path argv printed args r1 out1 arg _ L PA C SR (ex_intro _ i F) N) as (H2 & _). destruct (H2 eq_refl) as (j & R2 & S1).
      assert (V : vlevel High <= vlevel v) by (unfold v; rewrite V1; apply at_least_level).
      set (r0 := set_storage r1 (Holds (xml_reporter lm file duration) 1)).
      assert (XF : first = [TestRunStarted (extract_executable path) fs]).
      { unfold first. cbn [filter]. unfold Events.visible. cbn [min_verbosity]. cbn [vlevel] in *. assert (1 <=? vlevel v = true) as -> by (apply Nat.leb_le; lia). reflexivity. }
      (* the last event goes back to level 0: it is treated apart *)
      rewrite app_assoc, report_list_app in RP. destruct (report_list r1 (first ++ _)) as [[r5 t5]|] eqn:R5; cbn [bind] in RP; [|discriminate].
      destruct (report_list r5 final) as [[r6 t6]|] eqn:R6; cbn [bind] in RP; [|discriminate]. injection RP as <- <-.
      assert (R5' : report_list r1 (first ++ List.concat (map (filter (Events.visible v)) parts) ++ []) = Ok (r5, t5)) by now rewrite app_nil_r.
      assert (PT : forall part, In part (map (filter (Events.visible v)) parts) -> list_sum (map closes part) = list_sum (map opens part)).
      { intros part I. apply in_map_iff in I as (q & <- & I). unfold parts in I. apply in_map_iff in I as (x & <- & I).
        rewrite Forall_forall in FP. destruct (FP x I) as (R & J). rewrite Forall_forall in EV. apply (even_part v (fst x) (snd x) V (EV _ J) R). }
      edestruct (told_run (fun r => r = r0) r1 first [] (map (filter (Events.visible v)) parts) (map (filter (Events.visible v)) parts')) as (r7 & before & after & r8 & t8 & A1 & A2 & A3); [| | |exact SUB|exact R5'|].
      + intros r2 t X. rewrite XF in X. destruct (xml_list _ _ _ _ _ _ R1 S1 X) as (k' & -> & K'). cbn in K'. assert (k' = 1) by lia. subst k'. reflexivity.
      + apply Forall_forall. intros part I. apply (told_xml r0 i 1); auto.
      + intros r2 ra -> ->. cbn. auto.
      + rewrite app_nil_r in A2. assert (W5 : r5 = r8).
        { assert (LV : forall ps, (forall part, In part ps -> list_sum (map closes part) = list_sum (map opens part)) -> list_sum (map closes (List.concat ps)) = list_sum (map opens (List.concat ps))).
          { induction ps as [|q ps IH]; intros HH; [reflexivity|]. cbn [List.concat]. rewrite !sums_app, (IH (fun x I => HH x (or_intror I))), (HH q (or_introl eq_refl)). reflexivity. }
          destruct (xml_list _ _ _ _ _ _ R1 S1 R5) as (k1 & -> & L1). destruct (xml_list _ _ _ _ _ _ R1 S1 A2) as (k2 & -> & L2).
          rewrite !sums_app in L1, L2. rewrite (LV _ PT) in L1. rewrite (LV _ (fun q I => PT q (SUB q I))) in L2. assert (k1 = k2) by lia. congruence. }
        subst r8. exists r7, before, (after ++ List.concat t6), r6, (t8 ++ t6).
        split; [rewrite concat_app, A1, <- !app_assoc; reflexivity|]. split; [|rewrite concat_app, A3, <- !app_assoc; reflexivity].
        rewrite (app_assoc first), report_list_app, A2. cbn [bind]. now rewrite R6. }
  destruct X as (r0 & before & after & r3' & ts' & C1 & RP' & C2). rewrite RP'. cbn [lift].
  change (put (with_tests (g_tests r') r1)) with (put r1). change (closing (with_tests (g_tests r') r1)) with (closing r1).
  set (piece := fun t => said r0 (filter (Events.visible v) (match run (config_of lm Full) fuel t [] with Ok st => trace st | Err _ => [] end))).
  eexists _, (kept (picks lm fs)), piece, before, after. split; [reflexivity|].
  assert (PC : flat_map (said r0) (map (filter (Events.visible v)) parts) = flat_map piece (filter (kept (picks lm fs)) (g_tests r))).
  { rewrite CP, map_map, !flat_map_concat_map, map_map. reflexivity. }
  assert (PC' : flat_map (said r0) (map (filter (Events.visible v)) parts') = flat_map piece (filter (kept (picks lm fs)) (g_tests r'))).
  { rewrite CP', map_map, !flat_map_concat_map, map_map. reflexivity. }
  rewrite <- PC, <- PC', <- C1, <- C2.
  pose proof (configure_effect _ _ _ _ _ _ C) as CE. destruct (parsed_options (cli_of lm) _ _ _ _ L PA) as [G _].
  assert (WF : g_to_file r1 = has_file argv).
  { unfold has_file. rewrite <- (G (quote "--out") ltac:(discriminate)). change quote with lit. destruct (get_option args (lit "--out")).
    - destruct CE as (b & f & p' & v' & _ & _ & _ & _ & _ & F & T). now rewrite T.
    - destruct CE as (_ & _ & T). now rewrite T, TF. }
  destruct (closing_text r1) as [K1 K2].
  split; [|apply SG]; apply (goes lm can_open r path argv printed args r1 out1 _ _ L ACC PA C); rewrite !console_text_app, !file_text_app, console_text_printed, file_text_printed, console_text_put, file_text_put, K1, K2, (configure_file_text _ _ _ _ _ _ C), WF, !app_nil_r; cbn [app];
    destruct (has_file argv); rewrite ?app_nil_r, <- ?app_assoc; auto.
Qed.
End Texts.
