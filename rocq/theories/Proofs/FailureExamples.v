(** Programs used in the examples of C105. *)
From Coq Require Import Lia.
From Verif.Spec Require Import TextSpec FilterSpec PrintSpec CliSpec Events VerdictSpec TreeSpec XmlSpec SessionSpec ProgramSpec ShardSpec ExpressionSpec ConsoleSpec FailureSpec.
From Verif.Model Require Import Base Vector StringUtil Print Filter Run Cli File Session Reporters Expression Program.
From Verif.Spec Require Import ProgramClaims LinkClaims FailureClaims.
From Verif.Proofs Require Import Lists ExpressionProofs ReportExamples ProgramFacts LinkProofs LinkExamples.
Local Open Scope string_scope.
Local Open Scope list_scope.
Local Open Scope nat_scope.

(** The library with each reporter: the text shown for the check that fails, which is executed twice. *)
Definition failure_texts : list (list string * text) :=
  [(["-v"; "quiet"], quote "failed: running test case ""n""" ++ feed ++ quote "          in section ""s&2""" ++ feed ++ quote "          at f:3" ++ feed);
   (["--reporter"; "teamcity"], quote "##teamCity[testFailed name='n' message='f:3|n");
   (["--reporter"; "xml"; "-o"; "f"], quote "<Expression success=""false"" type=""CHECK"" filename=""f"" line=""3"">")].
Definition exit_of (argv : list string) : option nat :=
  match main_program small 5 at_file untimed (fun _ => true) library (quote "./demo") (map quote argv) with Ok (_, code) => Some code | Err _ => None end.

Lemma failure_example :
  g_to_file library = false /\ 32 <= l_max_message_length small /\
  Forall (fun x => asks (fst x) /\ length (map quote (fst x)) <= l_max_command_line_args small) failure_texts /\
  console_asked small at_file untimed library (map quote ["-v"; "quiet"]) /\
  reporter_asked (teamcity_reporter small at_file untimed) library (map quote ["--reporter"; "teamcity"]) /\
  reporter_asked (xml_reporter small at_file untimed) library (map quote ["--reporter"; "xml"; "-o"; "f"]) /\
  Forall (fun x => exit_of (fst x) = Some 1 /\ exists out, said_by library (fst x) = Some out /\ occurs (snd x) out) failure_texts /\
  (exists p, a_check_failed [p] /\ what_happened small 5 [p] /\ In (fst p) (g_tests library)) /\
  exit_of ["--reporter"; "xml"; "[x]"] = Some 0.
Proof.
  split; [reflexivity|]. split; [vm_compute; lia|]. split; [|split; [|split; [|split; [|split; [|split; [|vm_compute; reflexivity]]]]]].
  - repeat (apply Forall_cons || apply Forall_nil); (split; [asks_tac|cbn; lia]).
  - left. split; vm_compute; reflexivity.
  - exists (quote "teamcity"), 2. split; [vm_compute; reflexivity|]. split; [left; reflexivity|apply first_of; [reflexivity|vm_compute; reflexivity]].
  - exists (quote "xml"), 1. split; [vm_compute; reflexivity|]. split; [left; reflexivity|apply first_of; [reflexivity|vm_compute; reflexivity]].
  - assert (X : forall x : list string * text, match exit_of (fst x), said_by library (fst x) with Some 1, Some out => contains_match (snd x) out | _, _ => false end = true ->
      exit_of (fst x) = Some 1 /\ exists out, said_by library (fst x) = Some out /\ occurs (snd x) out).
    { intros x H. destruct (exit_of (fst x)) as [[|[|n]]|]; try discriminate. split; [reflexivity|]. destruct (said_by library (fst x)) as [o|]; [|discriminate].
      exists o. split; [reflexivity|]. now apply contains_spec. }
    repeat (apply Forall_cons || apply Forall_nil); apply X; vm_compute; reflexivity.
  - assert (Y : match run (config_of small Full) 5 nested_test [] with Ok st => existsb (fun e => match VerdictSpec.says e with Failed => true | _ => false end) (trace st) | Err _ => false end = true) by (vm_compute; reflexivity).
    destruct (run (config_of small Full) 5 nested_test []) as [st|] eqn:R; [|discriminate]. apply existsb_exists in Y as (e & I & S).
    exists (nested_test, trace st). split; [|split; [|left; reflexivity]].
    + exists (nested_test, trace st), e. split; [now left|]. split; [exact I|]. now destruct (VerdictSpec.says e).
    + constructor; [|constructor]. exists st. auto.
Qed.
