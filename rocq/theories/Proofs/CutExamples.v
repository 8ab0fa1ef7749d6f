(** Programs used in the examples of C106. *)
From Coq Require Import Lia.
From Verif.Spec Require Import TextSpec FilterSpec PrintSpec CliSpec Events TreeSpec XmlSpec SessionSpec ProgramSpec ConsoleSpec CutSpec.
From Verif.Model Require Import Base Vector StringUtil Integer Print Filter Run Cli File Session Reporters Program.
From Verif.Spec Require Import ProgramClaims.
From Verif.Proofs Require Import Lists ReportExamples ProgramFacts LinkProofs LinkExamples.
Local Open Scope string_scope.
Local Open Scope list_scope.
Local Open Scope nat_scope.

(** A test with a long name; a check on long texts fails, then it is skipped with a long message. Messages have at most 60
    characters, names 40. *)
Definition many (c : ascii) (n : nat) : text := repeat c n.
Definition long_test : test_case :=
  mktest (mkid (many "n" 70) [] [] []) 7
    (Check 3 (IsTrue (fun _ => Expression (quote "CHECK") (many "e" 90) (many "a" 80)) (fun _ => false)) false Nil
      (Skip 4 (fun _ => many "m" 61) true Nil)).
Definition long_names : registry := with_order [long_test].
Definition long_report : text :=
  flat_map (fun s => s ++ feed)
   [quote "starting demo with snitch v1.2"; quote "==========================================";
    quote "starting: " ++ many "n" 40 ++ quote " at f:7";
    quote "failed: running test case """ ++ many "n" 60 ++ quote "...""";
    quote "          at f:3";
    quote "          CHECK(" ++ many "e" 51 ++ quote "...";
    quote "          got: " ++ many "a" 60 ++ quote "...";
    quote "skipped: running test case """ ++ many "n" 60 ++ quote "...""";
    quote "          at f:4";
    quote "          " ++ many "m" 60 ++ quote "...";
    quote "finished: " ++ many "n" 40;
    quote "==========================================";
    quote "error: all tests failed (1 out of 1 test cases, 1 assertions)"].

Lemma cut_example :
  squeezed 12 (Number (quote "1234567890123")) = quote "123456789012..." /\
  squeezed 12 (Colored (quote "hello world") (quote "<b>") (quote "</b>")) = quote "<b>hello</b>..." /\
  squeezed 15 (Colored (quote "hello world") (quote "<b>") (quote "</b>")) = quote "<b>hello world<..." /\
  squeezed 7 (Colored (quote "hello world") (quote "<b>") (quote "</b>")) = quote "..." /\
  registry_print 12 [Text (quote "in "); Colored (quote "hello world") (quote "<b>") (quote "</b>"); Text (quote " and so on")] =
    Ok [quote "in "; quote "<b>hello</b>"; quote "..."; quote " and so on"] /\
  asks ["-v"; "high"] /\ console_asked small at_file untimed long_names (map quote ["-v"; "high"]) /\ g_to_file long_names = false /\
  length (map quote ["-v"; "high"]) <= l_max_command_line_args small /\
  said_by long_names ["-v"; "high"; "--color"; "never"] = Some long_report /\
  (match main small 5 (fun _ => true) long_names (quote "./demo") (map quote ["-v"; "high"; "--color"; "never"]) with
   | Ok (out, _) => flat_map (cut_text 60 40 false id_name id_type (fun id => full_name_of (id_name id) (id_type id)) id_tags at_file untimed decimal (quote "1.2")) (events_of out)
   | Err _ => []
   end) = long_report.
Proof.
  repeat (split; [vm_compute; reflexivity|]). split; [asks_tac|]. split; [left; split; vm_compute; reflexivity|]. split; [reflexivity|]. split; [cbn; lia|].
  split; vm_compute; reflexivity.
Qed.
