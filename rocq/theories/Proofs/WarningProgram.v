(** Programs and what they print before the report (C110). *)
From Coq Require Import Lia.
From Verif.Spec Require Import TextSpec FilterSpec PrintSpec Events SessionSpec ProgramSpec ColourSpec ConsoleSpec HelpSpec WarningSpec CliSpec ListingSpec.
From Verif.Model Require Import Base Vector StringUtil Print Filter Run Cli File Session Reporters Program.
From Verif.Spec Require Import ProgramClaims.
From Verif.Proofs Require Import Lists CliProofs CliFacts ConfigProofs ProgramProofs EndToEndProofs ReporterProofs ChoiceProofs WholeProofs WarningProofs ListingProofs ReportExamples ProgramFacts LinkExamples.
Local Open Scope string_scope.
Local Open Scope list_scope.
Local Open Scope nat_scope.

Theorem warns_first : forall (lm : Session.limits) (fuel : nat) (file : event -> text) (duration : event -> option text) (can_open : text -> bool)
    (r : registry) (path : text) (argv : list text) (out : list output) (code : nat),
  length argv <= l_max_command_line_args lm -> acceptable argv -> main_program lm fuel file duration can_open r path argv = Ok (out, code) ->
  exists warnings rest, warned lm r argv warnings /\ console_text out = List.concat warnings ++ rest.
Proof.
  intros lm fuel file duration can_open r path argv out code L ACC M.
  destruct (main_program_inv lm fuel file duration can_open r path argv out code L ACC M)
    as (printed & args & r1 & out1 & r2 & out2 & r3 & out3 & success & P & C & _ & _ & -> & _).
  destruct (configure_warned lm can_open r path argv printed args r1 out1 L ACC P C) as (w & W & E).
  exists w, (console_text out3). split; [exact W|]. now rewrite !console_text_app, console_text_printed, app_assoc, E.
Qed.

Theorem report_follows : forall (lm : Session.limits) (fuel : nat) (file : event -> text) (duration : event -> option text) (can_open : text -> bool)
    (r : registry) (path : text) (argv : list text) (out : list output) (code : nat),
  length argv <= l_max_command_line_args lm -> acceptable argv -> asks_run (setting (read argv)) \/ asks_list (setting (read argv)) -> g_to_file r = false ->
  main_program lm fuel file duration can_open r path argv = Ok (out, code) -> exists report, report_goes lm r argv out report.
Proof.
  intros lm fuel file duration can_open r path argv out code L ACC [A|A] TF M.
  - destruct (main_runs lm fuel file duration can_open r path argv out code L ACC A TF M) as (? & ? & ? & ? & ? & ? & ? & ? & ? & texts & _ & _ & _ & _ & _ & _ & _ & G). eauto.
  - destruct (main_lists lm fuel file duration can_open r path argv out code L ACC A TF M) as (? & ? & ? & ? & ? & texts & _ & _ & _ & _ & G). eauto.
Qed.

Lemma nothing_to_say lm r argv w : unknown (read argv) = [] ->
  unknown_word [quote "ansi"; quote "default"; quote "none"] (setting (read argv) (quote "--colour-mode")) = false ->
  unknown_word [quote "always"; quote "default"; quote "never"] (setting (read argv) (quote "--color")) = false ->
  unknown_word [quote "quiet"; quote "normal"; quote "high"; quote "full"] (setting (read argv) (quote "--verbosity")) = false ->
  silently_chosen r argv -> warned lm r argv w -> w = [].
Proof.
  intros U W1 W2 W3 S (a & b & -> & F & R). rewrite (R S), app_nil_r. unfold value_warnings in F. rewrite U, W1, W2, W3 in F. now inversion F.
Qed.

Theorem silence : forall (lm : Session.limits) (r : registry) (argv : list text),
  unknown (read argv) = [] ->
  unknown_word [quote "ansi"; quote "default"; quote "none"] (setting (read argv) (quote "--colour-mode")) = false ->
  unknown_word [quote "always"; quote "default"; quote "never"] (setting (read argv) (quote "--color")) = false ->
  unknown_word [quote "quiet"; quote "normal"; quote "high"; quote "full"] (setting (read argv) (quote "--verbosity")) = false ->
  silently_chosen r argv ->
  forall (out : list output) (report : text), report_goes lm r argv out report <->
    console_text out = (if has_file argv then [] else report) /\ file_text out = (if has_file argv then report else []).
Proof.
  intros lm r argv U W1 W2 W3 S out report. split.
  - intros (w & W & G). rewrite (nothing_to_say lm r argv w U W1 W2 W3 S W) in G. destruct (has_file argv); exact G.
  - intros G. exists []. split.
    + exists [], []. split; [reflexivity|]. split; [|auto]. unfold value_warnings. rewrite U, W1, W2, W3. constructor.
    + destruct (has_file argv); exact G.
Qed.

Theorem library_silent : forall (lm : Session.limits) (file : event -> text) (duration : event -> option text) (r : registry) (argv : list text) (i : nat) (p : reporter),
  In p [console_reporter lm file duration; teamcity_reporter lm file duration; xml_reporter lm file duration] ->
  setting (read argv) (quote "--reporter") = Some (Some (r_name p)) -> first_named (g_reporters r) i p -> silently_chosen r argv.
Proof.
  intros lm file duration r argv i p I E F. right. exists i, p. split; [exact E|]. split; [exact F|].
  assert (X : valid_name (r_name p)) by (destruct I as [<-|[<-|[<-|[]]]]; [apply console_valid|apply teamcity_valid|apply xml_valid]).
  destruct X as (X1 & X2 & X3). split; [exact X1|]. split; [exact X2|]. split.
  - intros H. apply X3. now apply occurs_prefix.
  - intros m x. destruct I as [<-|[<-|[<-|[]]]]; cbn; intros [= <-]; reflexivity.
Qed.

(** ** Examples *)
Definition wide : Session.limits := mklimits 5 5 40 90 20 40 8 32 3 12 false (lit "1.2").
Definition said_to (argv : list string) : option (text * text) :=
  match main_program wide 5 at_file untimed (fun _ => true) library (quote "./demo") (map quote argv) with
  | Ok (out, _) => Some (console_text out, file_text out)
  | Err _ => None
  end.
Definition lines_of (l : list string) : text := flat_map (fun s => quote s ++ [ascii_of_nat 10]) l.
Definition coloured_warning (s : string) : text :=
  [ascii_of_nat 27] ++ quote "[1;33mwarning:" ++ [ascii_of_nat 27] ++ quote "[0m" ++ quote s ++ [ascii_of_nat 10].
Definition careless : list string := ["--what"; "--colour-mode"; "ansi"; "--color"; "sometimes"; "--verbosity"; "loud"; "-o"; "f"; "--reporter"; "xml"].
Definition careful : list string := ["--color"; "always"; "--verbosity"; "high"; "-o"; "f"; "--reporter"; "xml"].

Lemma warning_example :
  (acceptable (map quote careless) /\ asks_run (setting (read (map quote careless))) /\ length (map quote careless) <= l_max_command_line_args wide) /\
  silently_chosen library (map quote careless) /\
  option_map fst (said_to careless) = Some (coloured_warning " unknown command line argument '--what'" ++
     coloured_warning " unknown color directive; please use one of always|default|never" ++
     coloured_warning " unknown verbosity level; please use one of quiet|normal|high|full") /\
  option_map fst (said_to ["--colour-mode"; "odd"; "-o"; "f"]) = Some (lines_of ["warning: unknown color directive; please use one of ansi|default|none"]) /\
  silently_chosen library (map quote careful) /\
  (acceptable (map quote careful) /\ unknown (read (map quote careful)) = [] /\ has_file (map quote careful) = true) /\
  option_map fst (said_to careful) = Some [] /\ said_to ["--reporter"; "loud"] <> said_to [].
Proof.
  assert (NO : forall argv, (forallb (fun n => match setting (read (map quote argv)) n with None => true | Some _ => false end) (quote "--list-tests" :: actions) = true) ->
      asks_run (setting (read (map quote argv)))).
  { intros argv H n I. rewrite forallb_forall in H. specialize (H n I). now destruct (setting (read (map quote argv)) n). }
  split; [split; [split; [vm_compute; intuition discriminate|vm_compute; repeat constructor; cbn; intuition discriminate]|split; [apply NO; vm_compute; reflexivity|cbn; lia]]|].
  split; [apply (library_silent small at_file untimed library _ 1 (xml_reporter small at_file untimed)); [right; right; left; reflexivity|vm_compute; reflexivity|apply first_of; [reflexivity|vm_compute; reflexivity]]|].
  split; [vm_compute; reflexivity|]. split; [vm_compute; reflexivity|].
  split; [apply (library_silent small at_file untimed library _ 1 (xml_reporter small at_file untimed)); [right; right; left; reflexivity|vm_compute; reflexivity|apply first_of; [reflexivity|vm_compute; reflexivity]]|].
  split; [split; [split; [vm_compute; intuition discriminate|vm_compute; repeat constructor; cbn; intuition discriminate]|split; vm_compute; reflexivity]|].
  split; [vm_compute; reflexivity|].
  intros H. apply (f_equal (option_map (fun x => length (fst x)))) in H. vm_compute in H. discriminate.
Qed.
