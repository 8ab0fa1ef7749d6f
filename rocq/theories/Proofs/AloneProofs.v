From Coq Require Import Lia.
From Verif.Spec Require Import TextSpec FilterSpec PrintSpec Events VerdictSpec SessionSpec ProgramSpec CliSpec DeclareSpec.
From Verif.Model Require Import Base Vector StringUtil Print Filter Run Cli File Session Reporters Program Declare.
From Verif.Spec Require Import ProgramClaims.
From Verif.Proofs Require Import SessionProofs SessionFacts ConfigProofs CliProofs CliFacts ReporterProofs ProgramProofs EndToEndProofs ChoiceProofs WholeProofs DeclareProofs.
Local Open Scope list_scope.


Lemma kept_cases (keep : test_case * list text -> bool) (p : test_case -> bool) l : (forall x, In x l -> keep x = p (fst x)) ->
  map fst (filter keep l) = filter p (map fst l).
Proof.
  induction l as [|x l IH]; intros H; [reflexivity|]. cbn [filter map]. rewrite <- (H x) by now left. rewrite <- IH by (intros y I; apply H; now right).
  destruct (keep x); reflexivity.
Qed.

Theorem runs_alone lm fuel can_open r path argv out code s (tagged_tests : list (test_case * list text)) :
  length argv <= l_max_command_line_args lm -> acceptable argv -> asks_run (setting (read argv)) ->
  setting (read argv) (quote "--reporter") = None -> filters (read argv) = [escaped s] -> s <> [] ->
  vlevel High <= vlevel (asked_verbosity (setting (read argv) (quote "--verbosity")) (g_verbose r)) ->
  g_tests r = map fst tagged_tests ->
  Forall (fun x => id_tags (t_id (fst x)) = tag_string (snd x) /\ well_formed (l_max_tag_length lm) (snd x) /\
                   length (full_name_of (id_name (t_id (fst x))) (id_type (t_id (fst x)))) <= l_max_test_name_length lm) tagged_tests ->
  main lm fuel can_open r path argv = Ok (out, code) ->
  let run := filter (fun t => same_text (full_name_of (id_name (t_id t)) (id_type (t_id t))) s) (g_tests r) in
  started (events_of out) = map (fun t => (t_id t, t_line t)) run /\ map (fun x => fst (fst x)) (ended (events_of out)) = map t_id run.
Proof.
  intros L ACC AR SR FI NE0 V0 G W M. unfold main in M. destruct (parse_arguments_spec (cli_of lm) path argv L) as (printed & args & P & A & _). rewrite P in M. cbn [bind] in M.
  destruct (A ACC) as (E & _). rewrite E in *. clear E A. match type of P with _ = Ok (_, Some ?a) => set (ar := a) in * end. clearbody ar.
  destruct (configure lm can_open r ar) as [[r1 out1]|] eqn:C; cbn [bind] in M; [|discriminate].
  destruct (run_tests lm fuel r1 ar) as [[[r2 out2] su]|] eqn:R; cbn [bind] in M; [|discriminate]. injection M as <- <-.
  destruct (choice lm (fun _ => []) (fun _ => None) can_open r path argv printed ar r1 out1 L P C) as (T & _ & CH & _). cbv zeta in CH.
  destruct (CH SR) as (V & _).
  destruct (parsed_options (cli_of lm) _ _ _ _ L P) as [GO FE].
  assert (NA : forall n, In n (quote "--list-tests" :: actions) -> get_option ar n = None).
  { intros n Hn. assert (NE : n <> []) by (cbn in Hn; intuition (subst; discriminate)). specialize (GO n NE). rewrite (AR n Hn) in GO. destruct (get_option ar n); [discriminate|reflexivity]. }
  destruct (session_runs lm fuel r1 ar (filters (read argv)) tagged_tests r2 out2 su (fun n H => NA n (or_intror H)) (NA _ (or_introl eq_refl)) FE) as (keep & parts & K & PS & EV & _); [congruence|exact W|exact R|].
  cbv zeta. rewrite FI in K. rewrite !events_of_app, events_of_printed, (configure_events _ _ _ _ _ _ C), EV. cbn [app].
  destruct (visible_tests (g_verbose r1) ([TestRunStarted (executable ar) (filters (read argv))] ++ List.concat parts ++ [summary_of (executable ar) (filters (read argv)) (ended (List.concat parts))])) as [V1 V2].
  { now rewrite V. }
  assert (Q : map fst (filter keep tagged_tests) = filter (fun t => same_text (full_name_of (id_name (t_id t)) (id_type (t_id t))) s) (g_tests r)).
  { rewrite G. apply kept_cases. intros x I. specialize (K x I). rewrite (escaped_selects _ (snd x) s NE0) in K. apply Bool.eq_true_iff_eq. rewrite K.
    unfold same_text. destruct (list_eq_dec _ _ _); split; congruence. }
  rewrite <- Q.
  cbn [app] in V1, V2. rewrite V1, V2. change (?a :: ?b ++ ?c) with ([a] ++ b ++ c). rewrite !started_app, !ended_app, !map_app. destruct (parts_tests _ _ _ _ PS) as [-> ->]. unfold summary_of.
  cbn [started ended flat_map app map]. rewrite !app_nil_r. split; reflexivity.
Qed.
