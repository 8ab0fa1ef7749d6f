(** Verbosity and the reports for other programs (C113): examples. *)
From Verif.Spec Require Import TextSpec FilterSpec NumberSpec PrintSpec Events SessionSpec ProgramSpec ColourSpec XmlSpec ConsoleSpec CliSpec.
From Verif.Model Require Import Base Vector StringUtil Print Filter Run Cli File Session Reporters Program.
From Verif.Spec Require Import ProgramClaims LinkClaims.
From Verif.Proofs Require Import ReportExamples ProgramFacts LinkExamples ColourExamples.
Local Open Scope string_scope.
Local Open Scope list_scope.
Local Open Scope nat_scope.

Definition with_reporter (name : string) : list (list string) :=
  [["-r"; name; "-v"; "quiet"]; ["--verbosity"; "normal"; "-r"; name; "-o"; "f"]; ["-r"; name]; ["-r"; name; "-v"; "high"; "--color"; "always"]].

Lemma least_example :
  Forall (fun argv => asks argv /\ reporter_asked (xml_reporter small at_file untimed) library (map quote argv)) (with_reporter "xml") /\
  Forall (fun argv => asks argv /\ reporter_asked (teamcity_reporter small at_file untimed) library (map quote argv)) (with_reporter "teamcity") /\
  map (fun argv => asked_verbosity (setting (read (map quote argv)) (quote "--verbosity")) (g_verbose library)) (with_reporter "xml") = [Quiet; Normal; Normal; High] /\
  Forall (fun argv => report_of argv = report_of ["-r"; "xml"]) (with_reporter "xml") /\
  Forall (fun argv => report_of argv = report_of ["-r"; "teamcity"]) (with_reporter "teamcity") /\
  length (report_of ["-r"; "xml"; "-v"; "full"]) = length (report_of ["-r"; "xml"]) + 154 /\
  length (report_of ["-r"; "teamcity"; "-v"; "full"]) = length (report_of ["-r"; "teamcity"]) + 130 /\
  map (fun argv => length (report_of argv)) (with_reporter "console") = [282; 484; 484; 1189].
Proof.
  split.
  { repeat (apply Forall_cons || apply Forall_nil); (split; [asks_tac|]); exists (quote "xml"), 1; (split; [vm_compute; reflexivity|]); (split; [left; reflexivity|apply first_of; [reflexivity|vm_compute; reflexivity]]). }
  split.
  { repeat (apply Forall_cons || apply Forall_nil); (split; [asks_tac|]); exists (quote "teamcity"), 2; (split; [vm_compute; reflexivity|]); (split; [left; reflexivity|apply first_of; [reflexivity|vm_compute; reflexivity]]). }
  split; [vm_compute; reflexivity|].
  split; [repeat (apply Forall_cons || apply Forall_nil); vm_compute; reflexivity|]. split; [repeat (apply Forall_cons || apply Forall_nil); vm_compute; reflexivity|].
  split; [vm_compute; reflexivity|]. split; vm_compute; reflexivity.
Qed.
