(** Colours and the reports of whole programs (C112): examples. *)
From Verif.Spec Require Import TextSpec FilterSpec NumberSpec PrintSpec Events SessionSpec ProgramSpec ColourSpec XmlSpec ConsoleSpec CliSpec.
From Verif.Model Require Import Base Vector StringUtil Print Filter Run Cli File Session Reporters Program.
From Verif.Spec Require Import ProgramClaims LinkClaims.
From Verif.Proofs Require Import ExpressionProofs ConsoleProofs ReportExamples ProgramFacts LinkExamples.
Local Open Scope string_scope.
Local Open Scope list_scope.
Local Open Scope nat_scope.

Definition in_colour : list string := ["-v"; "high"; "--color"; "always"].
Definition in_a_file : list string := ["--out"; "f"; "--verbosity"; "high"; "--reporter"; "console"].
Definition report_of (argv : list string) : text := match printed_by argv with Some (c, f, _) => c ++ f | None => [] end.


Lemma colours_example :
  Forall (fun argv => asks argv /\ console_asked small at_file untimed library (map quote argv)) [in_colour; in_a_file] /\
  (run_colours (setting (read (map quote in_colour))) (g_with_color library) = true /\ run_colours (setting (read (map quote in_a_file))) (g_with_color library) = false) /\
  Forall (displayable id_name id_type (fun id => full_name_of (id_name id) (id_type id)) untimed decimal (l_version small) (painted true) 60 40) (events_for in_colour) /\
  Forall (fun e => Forall colourless (texts_of id_name id_type (fun id => full_name_of (id_name id) (id_type id)) id_tags at_file untimed (l_version small) e)) (events_for in_colour) /\
  (length (events_for in_colour) = 18 /\ length (report_of in_colour) = length (report_of in_a_file) + 462) /\
  occurs ([ascii_of_nat 27] ++ quote "[1;31mfailed: " ++ [ascii_of_nat 27] ++ quote "[0m") (report_of in_colour) /\
  occurs (quote "failed: running test case ") (report_of in_a_file) /\
  Forall (fun argv => asks argv /\ reporter_asked (xml_reporter small at_file untimed) library (map quote argv)) [["-r"; "xml"; "--color"; "always"]; ["-r"; "xml"; "-o"; "f"]] /\
  report_of ["-r"; "xml"; "--color"; "always"] = report_of ["-r"; "xml"; "-o"; "f"].
Proof.
  split.
  { repeat (apply Forall_cons || apply Forall_nil); (split; [asks_tac|]).
    - left. split; vm_compute; reflexivity.
    - right. exists (quote "console"), 0. split; [vm_compute; reflexivity|]. split; [left; reflexivity|apply first_of; [reflexivity|vm_compute; reflexivity]]. }
  split; [split; vm_compute; reflexivity|].
  split; [replace (events_for in_colour) with (events_for ["-v"; "high"]) by (vm_compute; reflexivity); apply shown_events|].
  split.
  { destruct (events_for in_colour) as [|e l] eqn:E; [constructor|]. vm_compute in E. injection E as <- <-. repeat (apply Forall_cons || apply Forall_nil); apply no_escape; vm_compute; reflexivity. }
  split; [split; vm_compute; reflexivity|].
  split; [apply contains_spec; vm_compute; reflexivity|]. split; [apply contains_spec; vm_compute; reflexivity|].
  split; [|vm_compute; reflexivity].
  repeat (apply Forall_cons || apply Forall_nil); (split; [asks_tac|]); exists (quote "xml"), 1; (split; [vm_compute; reflexivity|]); (split; [left; reflexivity|apply first_of; [reflexivity|vm_compute; reflexivity]]).
Qed.
