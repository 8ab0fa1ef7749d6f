(** Colours and the reports of whole programs (C112). *)
From Coq Require Import NArith.
From Verif.Spec Require Import TextSpec FilterSpec NumberSpec PrintSpec Events SessionSpec ProgramSpec ColourSpec XmlSpec ConsoleSpec CliSpec.
From Verif.Model Require Import Base Vector StringUtil Print Filter Run Cli File Session Reporters Program.
From Verif.Spec Require Import ProgramClaims LinkClaims.
From Verif.Proofs Require Import Lists CliProofs CliFacts SessionFacts ConfigProofs XmlProofs ConsoleProofs ChoiceProofs EndToEndProofs WholeProofs ProgramFacts OutputProofs CutService CutXml.
Local Open Scope list_scope.
Local Open Scope nat_scope.

Section Colours.
Variable lm : Session.limits.
Variable fuel : nat.
Variable file : event -> text.
Variable duration : event -> option text.
Notation main_program := (main_program lm fuel file duration).
Notation main := (main lm fuel).

Lemma same_events can_open can_open' r path argv argv' out code out' code' :
  length argv <= l_max_command_line_args lm -> acceptable argv -> asks_run (setting (read argv)) ->
  length argv' <= l_max_command_line_args lm -> acceptable argv' -> asks_run (setting (read argv')) ->
  filters (read argv') = filters (read argv) ->
  let v := asked_verbosity (setting (read argv) (quote "--verbosity")) (g_verbose r) in
  let v' := asked_verbosity (setting (read argv') (quote "--verbosity")) (g_verbose r) in
  (v' = v /\ console_asked lm file duration r argv /\ console_asked lm file duration r argv' \/
   (v = Full <-> v' = Full) /\ exists p, (p = teamcity_reporter lm file duration \/ p = xml_reporter lm file duration) /\ reporter_asked p r argv /\ reporter_asked p r argv') ->
  main can_open r path argv = Ok (out, code) -> main can_open' r path argv' = Ok (out', code') ->
  code' = code /\ events_of out' = events_of out.
Proof.
  cbv zeta. intros L ACC AR L' ACC' AR' F RE M M'.
  destruct (main_reads lm fuel can_open r path argv L ACC AR) as (printed & args & P & E). rewrite E in M. clear E.
  destruct (main_reads lm fuel can_open' r path argv' L' ACC' AR') as (printed' & args' & P' & E). rewrite E in M'. clear E. rewrite F in M'.
  destruct (configure lm can_open r args) as [[r1 out1]|] eqn:C; [|discriminate]. destruct (configure lm can_open' r args') as [[r1' out1']|] eqn:C'; [|discriminate].
  destruct (tested lm fuel r path (filters (read argv))) as [[events success]|]; [|discriminate]. injection M as <- <-. injection M' as <- <-. split; [reflexivity|].
  rewrite !events_of_app, !events_of_printed, (configure_events _ _ _ _ _ _ C), (configure_events _ _ _ _ _ _ C'), !events_of_reported, !events_closing, !app_nil_r. cbn [app].
  replace (g_verbose r1') with (g_verbose r1); [reflexivity|].
  pose proof (choice lm file duration can_open r path argv printed args r1 out1 L P C) as CH. pose proof (choice lm file duration can_open' r path argv' printed' args' r1' out1' L' P' C') as CH'. cbv zeta in CH, CH'.
  destruct CH as (_ & _ & N & A). destruct CH' as (_ & _ & N' & A').
  destruct RE as [(V & X & X')|(V & p & PP & X & X')].
  - transitivity (asked_verbosity (setting (read argv) (quote "--verbosity")) (g_verbose r)).
    + destruct X as [(NR & _)|(arg & i & S & NA & FI)]; [now apply N|]. destruct (A arg S) as (_ & K). destruct (K i _ FI NA) as (K1 & _). now apply K1.
    + rewrite <- V. symmetry. destruct X' as [(NR & _)|(arg & i & S & NA & FI)]; [now apply N'|]. destruct (A' arg S) as (_ & K). destruct (K i _ FI NA) as (K1 & _). now apply K1.
  - transitivity (at_least High (asked_verbosity (setting (read argv) (quote "--verbosity")) (g_verbose r))).
    + destruct X as (arg & i & S & NA & FI). destruct (A arg S) as (_ & K). destruct (K i _ FI NA) as (_ & K1). apply K1. tauto.
    + transitivity (at_least High (asked_verbosity (setting (read argv') (quote "--verbosity")) (g_verbose r))).
      { destruct (asked_verbosity (setting (read argv) _) _), (asked_verbosity (setting (read argv') _) _); try reflexivity; exfalso; destruct V as [V V']; try discriminate (V eq_refl); discriminate (V' eq_refl). }
      symmetry. destruct X' as (arg & i & S & NA & FI). destruct (A' arg S) as (_ & K). destruct (K i _ FI NA) as (_ & K1). apply K1. tauto.
Qed.

Lemma fits_uncoloured full_name version mm mn e : displayable id_name id_type full_name duration decimal version (painted true) mm mn e ->
  displayable id_name id_type full_name duration decimal version (painted false) mm mn e.
Proof.
  assert (P : forall k s, short_paint (painted true) mm k s -> short_paint (painted false) mm k s).
  { unfold short_paint, painted. intros k s L. rewrite !app_length in L. unfold text in *. lia. }
  assert (A : forall id sections captures loc what, displayable_assertion id_name id_type decimal (painted true) mm id sections captures loc what ->
              displayable_assertion id_name id_type decimal (painted false) mm id sections captures loc what).
  { intros id sections captures loc what (H1 & H2 & H3 & H4 & H5 & H6). repeat split; auto.
    - eapply Forall_impl; [|exact H2]. auto.
    - eapply Forall_impl; [|exact H5]. auto.
    - destruct what; cbn [displayable_payload] in *; intuition auto. }
  destruct e; cbn [displayable]; intuition auto.
Qed.

Theorem colours_only can_open can_open' r path argv argv' out code out' code' o c :
  let full_name := fun id => full_name_of (id_name id) (id_type id) in
  length argv <= l_max_command_line_args lm -> acceptable argv -> asks_run (setting (read argv)) -> console_asked lm file duration r argv ->
  length argv' <= l_max_command_line_args lm -> acceptable argv' -> asks_run (setting (read argv')) -> console_asked lm file duration r argv' ->
  filters (read argv') = filters (read argv) ->
  asked_verbosity (setting (read argv') (quote "--verbosity")) (g_verbose r) = asked_verbosity (setting (read argv) (quote "--verbosity")) (g_verbose r) ->
  setting (read argv) (quote "--reporter") = None \/ setting (read argv) (quote "--reporter") = Some (Some (quote "console")) ->
  setting (read argv') (quote "--reporter") = None \/ setting (read argv') (quote "--reporter") = Some (Some (quote "console")) ->
  run_colours (setting (read argv)) (g_with_color r) = true -> run_colours (setting (read argv')) (g_with_color r) = false ->
  g_to_file r = false -> 32 <= l_max_message_length lm ->
  main_program can_open r path argv = Ok (out, code) -> main_program can_open' r path argv' = Ok (out', code') ->
  main can_open r path argv = Ok (o, c) ->
  Forall (displayable id_name id_type full_name duration decimal (l_version lm) (painted true) (l_max_message_length lm) (l_max_test_name_length lm)) (events_of o) ->
  Forall (fun e => Forall colourless (texts_of id_name id_type full_name id_tags file duration (l_version lm) e)) (events_of o) ->
  code' = code /\ exists coloured plain, report_goes lm r argv out coloured /\ report_goes lm r argv' out' plain /\ uncoloured coloured plain /\ colourless plain.
Proof.
  cbv zeta. intros L ACC AR CA L' ACC' AR' CA' F V R R' RC RC' TF MM M M' N D T.
  destruct (main_program_inv lm fuel file duration can_open' r path argv' out' code' L' ACC' M') as (? & ? & ? & ? & ? & ? & ? & ? & ? & _ & _ & _ & _ & _ & _ & N').
  destruct (same_events _ _ _ _ _ _ _ _ _ _ L ACC AR L' ACC' AR' F (or_introl (conj V (conj CA CA'))) N N') as (-> & EV).
  destruct (console_program lm fuel file duration can_open r path argv _ _ _ _ L ACC AR TF CA MM M N) as (-> & colours & report & G & E & _ & K).
  destruct (console_program lm fuel file duration can_open' r path argv' _ _ _ _ L' ACC' AR' TF CA' MM M' N') as (_ & colours' & report' & G' & E' & _ & K').
  rewrite (K R), RC in E. rewrite (K' R'), RC', EV in E'. split; [reflexivity|]. exists report, report'. split; [exact G|]. split; [exact G'|].
  rewrite (E D), E'. 2:{ eapply Forall_impl; [|exact D]. intros e. apply fits_uncoloured. }
  match goal with |- uncoloured ?a ?b /\ _ => assert (U : uncoloured a b) end.
  { apply un_flat. intros e I. rewrite Forall_forall in T. apply un_event, T, I. }
  split; [exact U|]. eapply un_result, U.
Qed.

Theorem services_verbosity p can_open can_open' r path argv argv' out code out' code' :
  p = teamcity_reporter lm file duration \/ p = xml_reporter lm file duration ->
  length argv <= l_max_command_line_args lm -> acceptable argv -> asks_run (setting (read argv)) -> reporter_asked p r argv ->
  length argv' <= l_max_command_line_args lm -> acceptable argv' -> asks_run (setting (read argv')) -> reporter_asked p r argv' ->
  filters (read argv') = filters (read argv) ->
  (asked_verbosity (setting (read argv) (quote "--verbosity")) (g_verbose r) = Full <-> asked_verbosity (setting (read argv') (quote "--verbosity")) (g_verbose r) = Full) ->
  g_to_file r = false ->
  main_program can_open r path argv = Ok (out, code) -> main_program can_open' r path argv' = Ok (out', code') ->
  code' = code /\ exists report, report_goes lm r argv out report /\ report_goes lm r argv' out' report.
Proof.
  intros PP L ACC AR RA L' ACC' AR' RA' F V TF M M'.
  destruct (main_program_inv lm fuel file duration can_open r path argv out code L ACC M) as (? & ? & ? & ? & ? & ? & ? & ? & ? & _ & _ & _ & _ & _ & _ & N).
  destruct (main_program_inv lm fuel file duration can_open' r path argv' out' code' L' ACC' M') as (? & ? & ? & ? & ? & ? & ? & ? & ? & _ & _ & _ & _ & _ & _ & N').
  destruct (same_events _ _ _ _ _ _ _ _ _ _ L ACC AR L' ACC' AR' F (or_intror (conj V (ex_intro _ p (conj PP (conj RA RA'))))) N N') as (-> & EV). split; [reflexivity|].
  destruct PP as [->| ->].
  - destruct service_exact as (sh & fi & na & su & _ & _ & _ & _ & _ & S).
    destruct (S lm fuel file duration can_open r path argv _ _ _ _ L ACC AR TF RA M N) as (_ & G). destruct (S lm fuel file duration can_open' r path argv' _ _ _ _ L' ACC' AR' TF RA' M' N') as (_ & G').
    rewrite EV in G'. eauto.
  - destruct xml_exact as (sh & fi & na & su & _ & _ & _ & _ & _ & S).
    destruct (S lm fuel file duration can_open r path argv _ _ _ _ L ACC AR TF RA M N) as (_ & G). destruct (S lm fuel file duration can_open' r path argv' _ _ _ _ L' ACC' AR' TF RA' M' N') as (_ & G').
    rewrite EV in G'. eauto.
Qed.

Theorem services_colourless p can_open can_open' r path argv argv' out code out' code' :
  p = teamcity_reporter lm file duration \/ p = xml_reporter lm file duration ->
  length argv <= l_max_command_line_args lm -> acceptable argv -> asks_run (setting (read argv)) -> reporter_asked p r argv ->
  length argv' <= l_max_command_line_args lm -> acceptable argv' -> asks_run (setting (read argv')) -> reporter_asked p r argv' ->
  filters (read argv') = filters (read argv) ->
  asked_verbosity (setting (read argv') (quote "--verbosity")) (g_verbose r) = asked_verbosity (setting (read argv) (quote "--verbosity")) (g_verbose r) ->
  g_to_file r = false ->
  main_program can_open r path argv = Ok (out, code) -> main_program can_open' r path argv' = Ok (out', code') ->
  code' = code /\ exists report, report_goes lm r argv out report /\ report_goes lm r argv' out' report.
Proof.
  intros PP L ACC AR RA L' ACC' AR' RA' F V. apply (services_verbosity p can_open can_open' r path argv argv' out code out' code'); auto. rewrite V. tauto.
Qed.
(** One of them asks for everything. *)
Theorem services_full p can_open can_open' r path argv argv' out code out' code' :
  p = teamcity_reporter lm file duration \/ p = xml_reporter lm file duration ->
  length argv <= l_max_command_line_args lm -> acceptable argv -> asks_run (setting (read argv)) -> reporter_asked p r argv ->
  length argv' <= l_max_command_line_args lm -> acceptable argv' -> asks_run (setting (read argv')) -> reporter_asked p r argv' ->
  filters (read argv') = filters (read argv) ->
  asked_verbosity (setting (read argv) (quote "--verbosity")) (g_verbose r) <> Full ->
  asked_verbosity (setting (read argv') (quote "--verbosity")) (g_verbose r) = Full ->
  main can_open r path argv = Ok (out, code) -> main can_open' r path argv' = Ok (out', code') ->
  code' = code /\ events_of out = filter (fun e => match e with AssertionSucceeded _ _ _ _ _ => false | _ => true end) (events_of out').
Proof.
  intros PP L ACC AR RA L' ACC' AR' RA' F V V' M M'.
  destruct (main_reads lm fuel can_open r path argv L ACC AR) as (printed & args & P & E). rewrite E in M. clear E.
  destruct (main_reads lm fuel can_open' r path argv' L' ACC' AR') as (printed' & args' & P' & E). rewrite E in M'. clear E. rewrite F in M'.
  destruct (configure lm can_open r args) as [[r1 out1]|] eqn:C; [|discriminate]. destruct (configure lm can_open' r args') as [[r1' out1']|] eqn:C'; [|discriminate].
  destruct (tested lm fuel r path (filters (read argv))) as [[events success]|]; [|discriminate]. injection M as <- <-. injection M' as <- <-. split; [reflexivity|].
  rewrite !events_of_app, !events_of_printed, (configure_events _ _ _ _ _ _ C), (configure_events _ _ _ _ _ _ C'), !events_of_reported, !events_closing, !app_nil_r. cbn [app].
  pose proof (choice lm file duration can_open r path argv printed args r1 out1 L P C) as CH. pose proof (choice lm file duration can_open' r path argv' printed' args' r1' out1' L' P' C') as CH'. cbv zeta in CH, CH'.
  destruct CH as (_ & _ & _ & A). destruct CH' as (_ & _ & _ & A').
  assert (G : g_verbose r1 = High).
  { destruct RA as (arg & i & S & NA & FI). destruct (A arg S) as (_ & K). destruct (K i _ FI NA) as (_ & K1). destruct K1 as [K1 _]; try tauto. rewrite K1. destruct (asked_verbosity _ _); try reflexivity. now destruct V. }
  assert (G' : g_verbose r1' = Full).
  { destruct RA' as (arg & i & S & NA & FI). destruct (A' arg S) as (_ & K). destruct (K i _ FI NA) as (_ & K1). destruct K1 as [K1 _]; try tauto. rewrite K1, V'. reflexivity. }
  rewrite G, G'. clear. induction events as [|e l IH]; [reflexivity|]. destruct e; cbn in *; rewrite ?IH; reflexivity.
Qed.
End Colours.
