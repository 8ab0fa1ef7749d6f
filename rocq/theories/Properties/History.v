(** Property C90: programs that run their tests more than once. *)
From Verif.Spec Require Import TextSpec FilterSpec PrintSpec CliSpec Events SessionSpec ProgramSpec ConsoleSpec.
From Verif.Model Require Import Base Vector StringUtil Print Filter Run Cli File Session Reporters Program.
From Verif.Spec Require Import ProgramClaims HistoryClaims.
From Verif.Proofs Require Import ReportExamples ProgramFacts CliProofs HistoryProofs HistoryExamples.
From Coq Require Import Lia.
Local Open Scope string_scope.
Local Open Scope list_scope.
Local Open Scope nat_scope.

(** C90. With the default reporter, printing on the console, a run does not depend on the runs before it, whatever their
    arguments: it prints and returns the same as if it were the first. *)
Theorem C90_default :
  forall (lm : Session.limits) (fuel : nat) (file : event -> text) (duration : event -> option text) (r r' : registry) (args : input),
  fresh r -> after_runs lm fuel file duration r r' ->
  same_outcome (run_program lm fuel file duration r args) (run_program lm fuel file duration r' args).
Proof. exact default_history. Qed.
Print Assumptions C90_default.

(** With any of the reporters of the library, and an output file or not, the same arguments give the same again if the
    registry is configured with them before each run. *)
Theorem C90_repeated :
  forall (lm : Session.limits) (fuel : nat) (file : event -> text) (duration : event -> option text) (can_open : text -> bool)
    (args : input) (r r' r1 : registry) (said : list output),
  fresh r -> Forall (of_library lm file duration) (g_reporters r) ->
  configure lm can_open r args = Ok (r1, said) ->
  after_repeats lm fuel file duration can_open args r r' ->
  exists r1' said', configure lm can_open r' args = Ok (r1', said') /\
    same_outcome (run_program lm fuel file duration r1 args) (run_program lm fuel file duration r1' args).
Proof. exact repeated_history. Qed.
Print Assumptions C90_repeated.

(** What has been configured and run before does not matter at all if the command line is [complete]
    (Spec/HistoryClaims.v). *)
Theorem C90_complete :
  forall (lm : Session.limits) (fuel : nat) (file : event -> text) (duration : event -> option text) (can_open : text -> bool)
    (path : text) (argv : list text) (printed : list text) (args : input) (r r' r1 : registry) (said : list output),
  length argv <= l_max_command_line_args lm ->
  parse_arguments (cli_of lm) path argv = Ok (printed, Some args) ->
  Forall (of_library lm file duration) (g_reporters r) ->
  after_uses lm fuel file duration r r' -> complete r r' argv ->
  configure lm can_open r args = Ok (r1, said) ->
  exists r1' said', configure lm can_open r' args = Ok (r1', said') /\
    same_outcome (run_program lm fuel file duration r1 args) (run_program lm fuel file duration r1' args).
Proof. exact complete_history. Qed.
Print Assumptions C90_complete.

Example C90_example :
  fresh library /\ Forall (of_library small at_file untimed) (g_reporters library) /\
  (* A listing changes the counter of the default reporter, and then a run and a listing say the same as before. *)
  after_runs small 50 at_file untimed library (run_by library ["--list-tests"]) /\
  g_storage (run_by library ["--list-tests"]) = Default 3 /\
  text_of (run_by library ["--list-tests"]) ["--list-tests"] = text_of library ["--list-tests"] /\
  (exists t, text_of library ["--list-tests"] = Some t /\ t <> []) /\
  (* The XML reporter, twice, with an output file. *)
  (let args := ["--reporter"; "xml"; "--out"; "f"] in
   let r1 := configured_by library args in
   after_repeats small 50 at_file untimed (fun _ => true) (arguments_of args) library (run_by r1 args) /\
   text_of (configured_by (run_by r1 args) args) args = text_of r1 args /\ (exists t, text_of r1 args = Some t /\ t <> [])) /\
  (* A complete command line after a different one. *)
  (let before := ["--color"; "always"; "--verbosity"; "full"; "--reporter"; "xml"] in
   let argv := ["--color"; "never"; "--verbosity"; "high"; "--reporter"; "teamcity"] in
   let r' := run_by (configured_by library before) before in
   after_uses small 50 at_file untimed library r' /\ complete library r' (map quote argv) /\
   text_of (configured_by r' argv) argv = text_of (configured_by library argv) argv) /\
  (* One that is not complete: the colours asked for before remain. *)
  (let before := ["--color"; "always"] in
   let r' := run_by (configured_by library before) before in
   text_of (configured_by r' []) [] <> text_of (configured_by library []) []).
Proof.
  split; [repeat split|]. split.
  { constructor; [left; reflexivity|]. constructor; [right; left; reflexivity|]. constructor; [right; right; reflexivity|constructor]. }
  split.
  { destruct (run_by_ok library ["--list-tests"]) as (out & s & E); [vm_compute; reflexivity|]. exact (one_more_run _ _ _ _ _ _ _ _ _ _ (no_run _ _ _ _ _) E). }
  split; [vm_compute; reflexivity|]. split; [vm_compute; reflexivity|]. split.
  { eexists. split; [vm_compute; reflexivity|discriminate]. }
  split.
  { cbn zeta. split; [|split; [vm_compute; reflexivity|eexists; split; [vm_compute; reflexivity|discriminate]]].
    destruct (configured_by_ok library ["--reporter"; "xml"; "--out"; "f"]) as (said & C); [vm_compute; reflexivity|].
    destruct (run_by_ok (configured_by library ["--reporter"; "xml"; "--out"; "f"]) ["--reporter"; "xml"; "--out"; "f"]) as (out & s & E); [vm_compute; reflexivity|].
    exact (one_more_repeat _ _ _ _ _ _ _ _ _ _ _ _ _ (no_repeat _ _ _ _ _ _ _) C E). }
  split.
  { cbn zeta. split; [|split; [|vm_compute; reflexivity]].
    - destruct (configured_by_ok library ["--color"; "always"; "--verbosity"; "full"; "--reporter"; "xml"]) as (said & C); [vm_compute; reflexivity|].
      destruct (run_by_ok (configured_by library ["--color"; "always"; "--verbosity"; "full"; "--reporter"; "xml"]) ["--color"; "always"; "--verbosity"; "full"; "--reporter"; "xml"]) as (out & s & E); [vm_compute; reflexivity|].
      exact (one_more_use _ _ _ _ _ _ _ _ _ _ (one_more_configuration _ _ _ _ _ _ _ _ _ _ (no_use _ _ _ _ _) C) E).
    - split; [left; exists (quote "never"); split; [vm_compute; reflexivity|right; left; reflexivity]|].
      split; [exists (quote "high"), High; split; [vm_compute; reflexivity|right; right; left; reflexivity]|].
      split; [right; repeat split; vm_compute; reflexivity|].
      exists (quote "teamcity"), 2, (teamcity_reporter small at_file untimed). split; [vm_compute; reflexivity|]. split; [left; reflexivity|].
      split; [reflexivity|]. intros [|[|j]] q J; [intros [= <-]; discriminate|intros [= <-]; discriminate|lia]. }
  cbn zeta. vm_compute. discriminate.
Qed.
