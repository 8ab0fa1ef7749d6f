(** Options about the output (C102). *)
From Coq Require Import NArith Lia.
From Verif.Spec Require Import TextSpec FilterSpec PrintSpec NumberSpec CliSpec Events VerdictSpec SessionSpec ProgramSpec ConsoleSpec StreamSpec.
From Verif.Model Require Import Base Vector StringUtil Print Filter Run Cli File Session Reporters Program.
From Verif.Spec Require Import ProgramClaims.
From Verif.Proofs Require Import RunProofs RunFacts SessionProofs SessionFacts ConfigProofs CliProofs CliFacts ProgramProofs EndToEndProofs ChoiceProofs ConsoleProofs WholeProofs HistoryProofs TotalProofs ReportProofs ReportExamples.
Local Open Scope list_scope.

Section Output.
Variable lm : Session.limits.
Variable fuel : nat.

Definition picks (fs : list text) : test_id -> res bool :=
  match fs with [] => default_selects (l_max_tag_length lm) | _ => cli_selects (l_max_tag_length lm) (l_max_test_name_length lm) fs end.

Lemma run_eq r args fs :
  (forall n, In n (quote "--list-tests" :: actions) -> get_option args n = None) ->
  for_each_positional_argument args (lit "test regex") = Ok fs ->
  run_tests lm fuel r args =
  match run_selected_tests lm fuel Full (g_tests r) (executable args) fs (picks fs) with
  | Ok (events, success) => Ok (set_file r None, map (Reported (g_reporter r)) (filter (Events.visible (g_verbose r)) events) ++ closing r, success)
  | Err e => Err e
  end.
Proof.
  intros N F. rewrite run_tests_impl_eq, no_action, F by (intros n I; apply N; now right). change (lit "--list-tests") with (quote "--list-tests").
  rewrite (N (quote "--list-tests")) by now left. cbn [bind].
  destruct (get_positional_argument args (lit "test regex")) as [a|] eqn:P.
  - assert (NE : fs <> []).
    { unfold get_positional_argument, for_each_positional_argument in *. clear - F P. revert fs F P.
      induction (arguments args) as [|b l IH]; cbn [positional_values List.find]; intros fs F P; [discriminate P|].
      destruct (_ && _); [|eauto]. destruct (a_value b); [|discriminate F]. destruct (positional_values _ l); cbn [bind] in F; [|discriminate F]. injection F as <-. discriminate. }
    rewrite (run_selected_verbosity lm fuel _ (g_verbose r)). unfold picks. destruct fs; [contradiction|].
    destruct (run_selected_tests lm fuel Full _ _ _ _) as [[ev su]|]; reflexivity.
  - assert (NE : fs = []).
    { unfold get_positional_argument, for_each_positional_argument in *. clear - F P. revert fs F P.
      induction (arguments args) as [|b l IH]; cbn [positional_values List.find]; intros fs F P; [congruence|]. destruct (_ && _); [discriminate|]. eauto. }
    subst fs. unfold run_default. rewrite (run_selected_verbosity lm fuel _ (g_verbose r)). unfold picks.
    destruct (run_selected_tests lm fuel Full _ _ _ _) as [[ev su]|]; reflexivity.
Qed.

(** A program that asks for a run, after its command line is read. *)
Definition tested (r : registry) (path : text) (fs : list text) : res (list event * bool) :=
  run_selected_tests lm fuel Full (g_tests r) (extract_executable path) fs (picks fs).

Lemma main_reads can_open r path argv : length argv <= l_max_command_line_args lm -> acceptable argv -> asks_run (setting (read argv)) ->
  exists printed args, parse_arguments (cli_of lm) path argv = Ok (printed, Some args) /\
  main lm fuel can_open r path argv =
  match configure lm can_open r args with
  | Ok (r1, out1) =>
    match tested r path (filters (read argv)) with
    | Ok (events, success) => Ok (map Printed printed ++ out1 ++ map (Reported (g_reporter r1)) (filter (Events.visible (g_verbose r1)) events) ++ closing r1, if success then 0 else 1)
    | Err e => Err e
    end
  | Err e => Err e
  end.
Proof.
  intros L ACC AR. unfold main. destruct (parse_arguments_spec (cli_of lm) path argv L) as (printed & args & P & A & _). rewrite P.
  destruct (A ACC) as (E & _). subst args. clear A. match type of P with _ = Ok (_, Some ?a) => set (ar := a) in * end.
  exists printed, ar. split; [reflexivity|]. cbn [bind].
  destruct (configure lm can_open r ar) as [[r1 out1]|] eqn:C; cbn [bind]; [|reflexivity].
  destruct (choice lm (fun _ => []) (fun _ => None) can_open r path argv printed ar r1 out1 L P C) as (T & _).
  destruct (parsed_options (cli_of lm) _ _ _ _ L P) as [GO FE].
  assert (NA : forall n, In n (quote "--list-tests" :: actions) -> get_option ar n = None).
  { intros n Hn. assert (NE : n <> []) by (cbn in Hn; intuition (subst; discriminate)). specialize (GO n NE). rewrite (AR n Hn) in GO. destruct (get_option ar n); [discriminate|reflexivity]. }
  rewrite (run_eq r1 ar _ NA FE), T. unfold tested. change (executable ar) with (extract_executable path).
  destruct (run_selected_tests lm fuel Full _ _ _ _) as [[ev su]|]; reflexivity.
Qed.

Lemma main_ran can_open r path argv out code : length argv <= l_max_command_line_args lm -> acceptable argv -> asks_run (setting (read argv)) ->
  main lm fuel can_open r path argv = Ok (out, code) ->
  exists events success v, tested r path (filters (read argv)) = Ok (events, success) /\ code = (if success : bool then 0 else 1) /\
    events_of out = filter (Events.visible v) events /\
    (setting (read argv) (quote "--reporter") = None \/ (exists file duration, console_asked lm file duration r argv) ->
     v = asked_verbosity (setting (read argv) (quote "--verbosity")) (g_verbose r)).
Proof.
  intros L ACC AR M. destruct (main_reads can_open r path argv L ACC AR) as (printed & args & P & E). rewrite E in M. clear E.
  destruct (configure lm can_open r args) as [[r1 out1]|] eqn:C; [|discriminate].
  destruct (tested r path (filters (read argv))) as [[events success]|]; [|discriminate]. injection M as <- <-.
  exists events, success, (g_verbose r1). repeat split.
  - now rewrite !events_of_app, events_of_printed, (configure_events _ _ _ _ _ _ C), events_of_reported, events_closing, app_nil_r.
  - assert (CH : forall file duration, _) by (intros file duration; exact (choice lm file duration can_open r path argv printed args r1 out1 L P C)). cbv zeta in CH.
    intros [N|(file & duration & [(N & _)|(arg & i & SR & N & F)])]; [destruct (CH (fun _ => []) (fun _ => None)) as (_ & _ & K & _); now apply K|destruct (CH file duration) as (_ & _ & K & _); now apply K|].
    destruct (CH file duration) as (_ & _ & _ & K). destruct (K arg SR) as (_ & K'). destruct (K' i _ F N) as (K1 & _). now apply K1.
Qed.

Lemma less_visible {ID} v v' (l : list (Events.event ID)) : vlevel v <= vlevel v' -> filter (Events.visible v) (filter (Events.visible v') l) = filter (Events.visible v) l.
Proof.
  intros V. induction l as [|e l IH]; [reflexivity|]. cbn [filter]. unfold Events.visible at 2. destruct (Nat.leb_spec (vlevel (min_verbosity e)) (vlevel v')) as [A|A].
  - cbn [filter]. now rewrite IH.
  - rewrite IH. unfold Events.visible at 2. destruct (Nat.leb_spec (vlevel (min_verbosity e)) (vlevel v)); [lia|reflexivity].
Qed.
Lemma quiet_visible {ID} v (l : list (Events.event ID)) : filter (Events.visible Quiet) (filter (Events.visible v) l) = filter (Events.visible Quiet) l.
Proof. apply less_visible. cbn. lia. Qed.
Lemma codes_visible {ID} v (l : list (Events.event ID)) : codes_in (filter (Events.visible v) l) = codes_in l.
Proof.
  unfold codes_in. induction l as [|e l IH]; [reflexivity|]. cbn [filter flat_map]. rewrite <- IH. destruct (Events.visible v e) eqn:V; [reflexivity|].
  destruct e; try reflexivity. discriminate V.
Qed.

Theorem same_tests can_open can_open' r path argv argv' out code out' code' :
  length argv <= l_max_command_line_args lm -> acceptable argv -> asks_run (setting (read argv)) ->
  length argv' <= l_max_command_line_args lm -> acceptable argv' -> asks_run (setting (read argv')) ->
  filters (read argv') = filters (read argv) ->
  main lm fuel can_open r path argv = Ok (out, code) -> main lm fuel can_open' r path argv' = Ok (out', code') ->
  code' = code /\ codes_in (events_of out') = codes_in (events_of out) /\
  filter (Events.visible Quiet) (events_of out') = filter (Events.visible Quiet) (events_of out) /\
  (exists v, events_of out = filter (Events.visible v) (events_of out') \/ events_of out' = filter (Events.visible v) (events_of out)) /\
  (setting (read argv) (quote "--reporter") = None \/ (exists file duration, console_asked lm file duration r argv) ->
   setting (read argv') (quote "--reporter") = None \/ (exists file duration, console_asked lm file duration r argv') ->
   let v := asked_verbosity (setting (read argv) (quote "--verbosity")) (g_verbose r) in
   let v' := asked_verbosity (setting (read argv') (quote "--verbosity")) (g_verbose r) in
   vlevel v <= vlevel v' -> events_of out = filter (Events.visible v) (events_of out')).
Proof.
  intros L ACC AR L' ACC' AR' F M M'.
  destruct (main_ran _ _ _ _ _ _ L ACC AR M) as (events & success & v & T & -> & -> & V).
  destruct (main_ran _ _ _ _ _ _ L' ACC' AR' M') as (events' & success' & v' & T' & -> & -> & V').
  rewrite F, T in T'. injection T' as <- <-. split; [reflexivity|]. split; [now rewrite !codes_visible|]. split; [now rewrite !quiet_visible|]. split.
  - destruct (Nat.le_gt_cases (vlevel v) (vlevel v')); [exists v; left|exists v'; right]; rewrite less_visible; auto; lia.
  - intros N N'. cbv zeta. rewrite <- (V N), <- (V' N'). intros LE. now rewrite less_visible.
Qed.

Theorem also_completes can_open can_open' r path argv argv' out code :
  length argv <= l_max_command_line_args lm -> acceptable argv -> asks_run (setting (read argv)) ->
  length argv' <= l_max_command_line_args lm -> acceptable argv' -> asks_run (setting (read argv')) ->
  filters (read argv') = filters (read argv) ->
  Forall starts (g_reporters r) ->
  (forall f, setting (read argv') (quote "--out") = Some (Some f) -> ~ In zero f /\ length f <= l_max_path_length lm /\ can_open' f = true) ->
  main lm fuel can_open r path argv = Ok (out, code) -> exists out', main lm fuel can_open' r path argv' = Ok (out', code).
Proof.
  intros L ACC AR L' ACC' AR' F ST O M. destruct (main_ran _ _ _ _ _ _ L ACC AR M) as (events & success & v & T & -> & _).
  destruct (main_reads can_open' r path argv' L' ACC' AR') as (printed & args & P & ->).
  destruct (configure_total lm can_open' r argv' args path printed L' P) as (r1 & out1 & ->); [|exact ST|].
  - intros f E. destruct (O f E) as (Z & LE & C). rewrite open_file_spec by exact Z. rewrite C. destruct (Nat.leb_spec (length f) (l_max_path_length lm)); [reflexivity|lia].
  - rewrite F, T. eauto.
Qed.

Theorem same_reports file duration can_open can_open' r path argv argv' out code out' code' :
  let full_name := fun id => full_name_of (id_name id) (id_type id) in
  let fits := fun colours => displayable id_name id_type full_name duration decimal (l_version lm) (painted colours) (l_max_message_length lm) (l_max_test_name_length lm) in
  let texts := fun colours => flat_map (event_text id_name id_type full_name id_tags file duration decimal (l_version lm) (painted colours)) in
  let asked := fun argv => asked_verbosity (setting (read argv) (quote "--verbosity")) (g_verbose r) in
  length argv <= l_max_command_line_args lm -> acceptable argv -> asks_run (setting (read argv)) -> console_asked lm file duration r argv ->
  length argv' <= l_max_command_line_args lm -> acceptable argv' -> asks_run (setting (read argv')) -> console_asked lm file duration r argv' ->
  filters (read argv') = filters (read argv) -> g_to_file r = false -> 32 <= l_max_message_length lm ->
  main_program lm fuel file duration can_open r path argv = Ok (out, code) ->
  main_program lm fuel file duration can_open' r path argv' = Ok (out', code') ->
  code' = code /\
  exists (all : list event) (colours colours' : bool) (report report' : text),
    report_goes lm r argv out report /\ report_goes lm r argv' out' report' /\ report_colours r argv colours /\ report_colours r argv' colours' /\
    (Forall (fits colours) all -> report = texts colours (filter (Events.visible (asked argv)) all)) /\
    (Forall (fits colours') all -> report' = texts colours' (filter (Events.visible (asked argv')) all)).
Proof.
  cbv zeta. intros L ACC AR CA L' ACC' AR' CA' F TF H M M'.
  destruct (main_program_inv lm fuel file duration can_open r path argv out code L ACC M) as (? & ? & ? & ? & ? & ? & ? & ? & ? & _ & _ & _ & _ & _ & _ & N).
  destruct (main_program_inv lm fuel file duration can_open' r path argv' out' code' L' ACC' M') as (? & ? & ? & ? & ? & ? & ? & ? & ? & _ & _ & _ & _ & _ & _ & N').
  destruct (main_ran _ _ _ _ _ _ L ACC AR N) as (events & success & v & T & -> & EV & V).
  destruct (main_ran _ _ _ _ _ _ L' ACC' AR' N') as (events' & success' & v' & T' & -> & EV' & V').
  rewrite F, T in T'. injection T' as <- <-. split; [reflexivity|].
  destruct (console_program lm fuel file duration can_open r path argv _ _ _ _ L ACC AR TF CA H M N) as (_ & colours & report & G & E & _ & RC).
  destruct (console_program lm fuel file duration can_open' r path argv' _ _ _ _ L' ACC' AR' TF CA' H M' N') as (_ & colours' & report' & G' & E' & _ & RC').
  rewrite EV, V in E by eauto. rewrite EV', V' in E' by eauto.
  exists events, colours, colours', report, report'. split; [exact G|]. split; [exact G'|]. split; [exact RC|]. split; [exact RC'|].
  split; intros D; [apply E|apply E']; apply Forall_filter; exact D.
Qed.
End Output.

Theorem same_reports_shown :
  exists shown : nat -> text, (forall n, (N.of_nat n < 2 ^ 64)%N -> writes 10 (shown n) (N.of_nat n)) /\
  forall (lm : Session.limits) (fuel : nat) (file : event -> text) (duration : event -> option text) (can_open can_open' : text -> bool)
    (r : registry) (path : text) (argv argv' : list text) (out : list output) (code : nat) (out' : list output) (code' : nat),
  let full_name := fun id => full_name_of (id_name id) (id_type id) in
  let fits := fun colours => displayable id_name id_type full_name duration shown (l_version lm) (painted colours) (l_max_message_length lm) (l_max_test_name_length lm) in
  let texts := fun colours => flat_map (event_text id_name id_type full_name id_tags file duration shown (l_version lm) (painted colours)) in
  let asked := fun argv => asked_verbosity (setting (read argv) (quote "--verbosity")) (g_verbose r) in
  length argv <= l_max_command_line_args lm -> acceptable argv -> asks_run (setting (read argv)) -> console_asked lm file duration r argv ->
  length argv' <= l_max_command_line_args lm -> acceptable argv' -> asks_run (setting (read argv')) -> console_asked lm file duration r argv' ->
  filters (read argv') = filters (read argv) -> g_to_file r = false -> 32 <= l_max_message_length lm ->
  main_program lm fuel file duration can_open r path argv = Ok (out, code) ->
  main_program lm fuel file duration can_open' r path argv' = Ok (out', code') ->
  code' = code /\
  exists (all : list event) (colours colours' : bool) (report report' : text),
    report_goes lm r argv out report /\ report_goes lm r argv' out' report' /\ report_colours r argv colours /\ report_colours r argv' colours' /\
    (Forall (fits colours) all -> report = texts colours (filter (Events.visible (asked argv)) all)) /\
    (Forall (fits colours') all -> report' = texts colours' (filter (Events.visible (asked argv')) all)).
Proof. exists decimal. split; [exact decimal_reads|]. exact same_reports. Qed.
