(** Programs used in the examples of C115. *)
From Coq Require Import Lia.
From Verif.Spec Require Import TextSpec FilterSpec PrintSpec CliSpec Events VerdictSpec TreeSpec XmlSpec SessionSpec ProgramSpec ShardSpec ExpressionSpec ConsoleSpec FailureSpec EndingSpec.
From Verif.Model Require Import Base Vector StringUtil Print Filter Run Cli File Session Reporters Expression Program.
From Verif.Spec Require Import ProgramClaims LinkClaims FailureClaims.
From Verif.Proofs Require Import Lists ExpressionProofs ReportExamples ProgramFacts LinkProofs LinkExamples FailureExamples.
Local Open Scope string_scope.
Local Open Scope list_scope.
Local Open Scope nat_scope.

(** Command lines, the exit code, and the end of the report. One of the three tests fails and one is skipped. *)
Definition endings : list (list string * nat * text) :=
  [([], 1, repeat "="%char 42 ++ feed ++ quote "error: some tests failed (1 out of 3 test cases, 4 assertions, 1 test cases skipped)" ++ feed);
   (["n"], 1, repeat "="%char 42 ++ feed ++ quote "error: all tests failed (1 out of 1 test cases, 3 assertions)" ++ feed);
   (["--reporter"; "console"; "[x]"], 0, repeat "="%char 42 ++ feed ++ quote "success: all tests passed (1 test cases, 1 assertions)" ++ feed);
   (["-r"; "xml"; "-o"; "f"], 1,
    quote "  <OverallResults successes=""2"" failures=""2"" expectedFailures=""0"" skips=""1""/>" ++ feed ++
    quote "  <OverallResultsCases successes=""2"" failures=""1"" expectedFailures=""0"" skips=""1""/>" ++ feed ++ quote "</Catch2TestRun>" ++ feed)].

Lemma ending_example :
  g_to_file library = false /\ 32 <= l_max_message_length small /\ (forall e d, untimed e = Some d -> length d <= l_max_message_length small) /\
  Forall (fun x => asks (fst (fst x)) /\ length (map quote (fst (fst x))) <= l_max_command_line_args small) endings /\
  Forall (fun argv => console_asked small at_file untimed library (map quote argv) /\
            asked_verbosity (setting (read (map quote argv)) (quote "--verbosity")) (g_verbose library) <> Quiet) [[]; ["n"]; ["--reporter"; "console"; "[x]"]] /\
  reporter_asked (xml_reporter small at_file untimed) library (map quote ["-r"; "xml"; "-o"; "f"]) /\
  Forall (fun x => exit_of (fst (fst x)) = Some (snd (fst x)) /\ exists before, said_by library (fst (fst x)) = Some (before ++ snd x)) endings.
Proof.
  split; [reflexivity|]. split; [vm_compute; lia|]. split; [discriminate|]. split; [|split; [|split]].
  - repeat (apply Forall_cons || apply Forall_nil); (split; [asks_tac|cbn; lia]).
  - repeat (apply Forall_cons || apply Forall_nil); (split; [|vm_compute; discriminate]).
    + left. split; vm_compute; reflexivity.
    + left. split; vm_compute; reflexivity.
    + right. exists (quote "console"), 0. split; [vm_compute; reflexivity|]. split; [left; reflexivity|apply first_of; [reflexivity|vm_compute; reflexivity]].
  - exists (quote "xml"), 1. split; [vm_compute; reflexivity|]. split; [left; reflexivity|apply first_of; [reflexivity|vm_compute; reflexivity]].
  - assert (X : forall x : list string * nat * text, match exit_of (fst (fst x)), said_by library (fst (fst x)) with
        Some n, Some out => (n =? snd (fst x)) && (if list_eq_dec ascii_dec (skipn (length out - length (snd x)) out) (snd x) then true else false) | _, _ => false end = true ->
      exit_of (fst (fst x)) = Some (snd (fst x)) /\ exists before, said_by library (fst (fst x)) = Some (before ++ snd x)).
    { intros x H. destruct (exit_of (fst (fst x))) as [n|]; [|discriminate]. destruct (said_by library (fst (fst x))) as [o|]; [|discriminate].
      apply andb_prop in H as (H1 & H2). apply Nat.eqb_eq in H1 as ->. split; [reflexivity|].
      exists (firstn (length o - length (snd x)) o). destruct (list_eq_dec _ _ _) as [E|]; [|discriminate]. rewrite <- E at 2. now rewrite firstn_skipn. }
    repeat (apply Forall_cons || apply Forall_nil); apply X; vm_compute; reflexivity.
Qed.
