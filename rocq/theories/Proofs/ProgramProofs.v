(** What a whole run amounts to (C18). *)
From Verif.Spec Require Import TextSpec FilterSpec PrintSpec Events VerdictSpec SessionSpec CliSpec.
From Verif.Model Require Import Base Vector StringUtil Print Filter Run Cli File Session.
From Verif.Proofs Require Import Lists FilterProofs SessionProofs SessionFacts.

Section Program.
Variable lm : limits.
Variable fuel : nat.

(** The events of a test run alone. *)
Definition case_part (t : test_case) (part : list event) : Prop := exists st body c s,
  run (config_of lm Full) fuel t [] = Ok st /\ trace st = part /\
  part = [TestCaseStarted (t_id t) (t_line t)] ++ body ++ [TestCaseEnded (t_id t) (t_line t) c s] /\
  Forall (fun e => inner e = true) body.

Lemma select_filter predicate keep tests : Forall (fun t => predicate (t_id t) = Ok (keep t)) tests -> select predicate tests = filter keep tests.
Proof.
  unfold select. induction tests as [|t l IH]; intros H; [reflexivity|]. inversion H; subst. cbn [filter]. rewrite H2, (IH H3). destruct (keep t); reflexivity.
Qed.

Lemma summary_kept predicate tests name filters events success :
  run_selected_tests lm fuel Full tests name filters predicate = Ok (events, success) ->
  exists keep parts, let cases := concat parts in
    Forall (fun t => predicate (t_id t) = Ok (keep t)) tests /\
    Forall2 case_part (filter keep tests) parts /\
    events = [TestRunStarted name filters] ++ cases ++ [summary_of name filters (ended cases)] /\
    success = (in_state Failed (ended cases) =? 0).
Proof.
  intros R. destruct (run_summary lm fuel predicate _ _ _ _ _ R) as (parts & E & S' & P & F).
  exists (fun t => match predicate (t_id t) with Ok b => b | Err _ => false end), parts. cbv zeta in *.
  assert (K : Forall (fun t => predicate (t_id t) = Ok (match predicate (t_id t) with Ok b => b | Err _ => false end)) tests).
  { eapply Forall_impl; [|exact P]. intros t (b & ->). reflexivity. }
  repeat split; auto.
Qed.

Lemma session_runs r args fs (tagged_tests : list (test_case * list text)) r' out success :
  (forall n, In n actions -> get_option args n = None) -> get_option args (lit "--list-tests") = None ->
  for_each_positional_argument args (lit "test regex") = Ok fs ->
  g_tests r = map fst tagged_tests ->
  Forall (fun x => id_tags (t_id (fst x)) = tag_string (snd x) /\ well_formed (l_max_tag_length lm) (snd x) /\
                   length (full_name_of (id_name (t_id (fst x))) (id_type (t_id (fst x)))) <= l_max_test_name_length lm) tagged_tests ->
  run_tests lm fuel r args = Ok (r', out, success) ->
  exists keep parts, let cases := concat parts in
    (forall x, In x tagged_tests -> (keep x = true <->
       match fs with [] => ~ hidden (snd x) | _ => selected (full_name_of (id_name (t_id (fst x))) (id_type (t_id (fst x)))) (snd x) fs end)) /\
    Forall2 case_part (map fst (filter keep tagged_tests)) parts /\
    events_of out = filter (Events.visible (g_verbose r)) ([TestRunStarted (executable args) fs] ++ cases ++ [summary_of (executable args) fs (ended cases)]) /\
    success = (in_state Failed (ended cases) =? 0).
Proof.
  intros N L F G W R. rewrite run_tests_impl_eq, no_action, F, L in R by exact N. cbn [bind] in R.
  assert (C : exists predicate, (forall x, In x tagged_tests -> exists b, predicate (t_id (fst x)) = Ok b /\ (b = true <->
       match fs with [] => ~ hidden (snd x) | _ => selected (full_name_of (id_name (t_id (fst x))) (id_type (t_id (fst x)))) (snd x) fs end)) /\
     exists events, run_selected_tests lm fuel (g_verbose r) (g_tests r) (executable args) fs predicate = Ok (events, success) /\ events_of out = events).
  { rewrite Forall_forall in W. destruct (get_positional_argument args (lit "test regex")) as [a|] eqn:P.
    - assert (NE : fs <> []).
      { unfold get_positional_argument, for_each_positional_argument in *. clear - F P. revert fs F P.
        induction (arguments args) as [|b l IH]; cbn [positional_values List.find]; intros fs F P; [discriminate P|].
        destruct (_ && _); [|eauto]. destruct (a_value b); [|discriminate F]. destruct (positional_values _ l); cbn [bind] in F; [|discriminate F]. injection F as <-. discriminate. }
      exists (cli_selects (mt lm) (mn lm) fs). split.
      + intros x Hx. destruct (W x Hx) as (T & WF & LE). destruct (cli_selects_spec _ _ fs _ _ T WF NE LE) as (b & E & I). exists b. split; [exact E|]. destruct fs; [contradiction|exact I].
      + destruct (run_selected_tests _ _ _ _ _ _ _) as [[ev su]|]; cbn [bind] in R; [|discriminate]. injection R as <- <- <-. exists ev. split; [reflexivity|]. rewrite events_of_app, events_of_reported, events_closing. apply app_nil_r.
    - assert (NE : fs = []).
      { unfold get_positional_argument, for_each_positional_argument in *. clear - F P. revert fs F P.
        induction (arguments args) as [|b l IH]; cbn [positional_values List.find]; intros fs F P; [congruence|]. destruct (_ && _); [discriminate|]. eauto. }
      subst fs. exists (default_selects (mt lm)). split.
      + intros x Hx. destruct (W x Hx) as (T & WF & LE). exact (default_selects_spec _ _ _ T WF).
      + unfold run_default in R. destruct (run_selected_tests _ _ _ _ _ _ _) as [[ev su]|]; cbn [bind] in R; [|discriminate]. injection R as <- <- <-. exists ev. split; [reflexivity|]. rewrite events_of_app, events_of_reported, events_closing. apply app_nil_r. }
  destruct C as (predicate & HP & events & RS & ->). rewrite run_selected_verbosity in RS.
  destruct (run_selected_tests lm fuel Full _ _ _ _) as [[ev su]|] eqn:RF; [|discriminate]. injection RS as <- <-.
  destruct (summary_kept _ _ _ _ _ _ RF) as (keep & parts & K & PS & -> & ->). exists (fun x => keep (fst x)), parts. cbv zeta. repeat split.
  - intros KE. destruct (HP x H) as (b & E & I). apply I. rewrite Forall_forall in K. specialize (K (fst x)). rewrite G in K. rewrite K in E by (now apply in_map). congruence.
  - intros X. destruct (HP x H) as (b & E & I). apply I in X. subst. rewrite Forall_forall in K. specialize (K (fst x)). rewrite G in K. rewrite K in E by (now apply in_map). congruence.
  - replace (map fst (filter (fun x => keep (fst x)) tagged_tests)) with (filter keep (g_tests r)); [exact PS|]. rewrite G. clear. induction tagged_tests as [|x l IH]; [reflexivity|]. cbn [map filter]. destruct (keep (fst x)); cbn [map]; now rewrite IH.
Qed.
End Program.
