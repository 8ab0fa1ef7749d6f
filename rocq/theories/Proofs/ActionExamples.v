(** Programs that are asked for the help, the tags or the reporters, and command lines that cannot be used (C111): examples. *)
From Verif.Spec Require Import TextSpec FilterSpec PrintSpec Events SessionSpec ProgramSpec ColourSpec ConsoleSpec HelpSpec WarningSpec CliSpec ActionSpec.
From Verif.Model Require Import Base Vector StringUtil Print Filter Run Cli File Session Reporters Program.
From Verif.Spec Require Import ProgramClaims.
From Verif.Proofs Require Import ReportExamples ProgramFacts WarningProgram.
Local Open Scope string_scope.
Local Open Scope list_scope.
Local Open Scope nat_scope.

Definition wider : Session.limits := mklimits 5 5 40 150 20 40 8 32 3 12 false (lit "1.2").
Definition told (argv : list string) : option (text * text * nat) :=
  match main_program wider 5 at_file untimed (fun _ => true) library (quote "out/demo.exe") (map quote argv) with
  | Ok (out, code) => Some (console_text out, file_text out, code)
  | Err _ => None
  end.
Definition help_from (program : string) : text := List.concat (help_lines (painted false) (quote program) (quote "1.2")).

Lemma action_example :
  (acceptable (map quote ["--list-reporters"; "--list-tags"; "--what"]) /\ ~ acceptable (map quote ["-o"]) /\
   first_asked (setting (read (map quote ["--list-reporters"; "--list-tags"; "--what"]))) (quote "--list-tags") /\
   first_asked (setting (read (map quote ["--list-reporters"]))) (quote "--list-reporters") /\
   first_asked (setting (read (map quote ["-h"; "-l"]))) (quote "--help")) /\
  clear_colours (map quote ["--color"; "always"; "-h"; "-h"]) /\
  Forall2 (fun t l => id_tags (t_id t) = tag_string l) (g_tests library) (map snd tagged_tests) /\
  Forall (well_formed (l_max_tag_length wider)) (map snd tagged_tests) /\ after_plain (List.concat (map snd tagged_tests)) /\
  Forall (fun line => length line <= l_max_message_length wider) (help_lines (painted false) (quote "out/demo.exe") (l_version wider)) /\
  told ["--list-reporters"; "--list-tags"; "--what"] = Some (lines_of ["warning: unknown command line argument '--what'"; "[[x]]"], [], 0) /\
  told ["--list-reporters"] = Some (lines_of ["console"; "xml"; "teamcity"], [], 0) /\
  told ["-h"; "-l"; "-o"; "f"] = Some (help_from "demo", [], 0) /\
  told ["-o"] = Some (lines_of ["error: missing value '<path>' for command line argument '-o'"; ""] ++ help_from "out/demo.exe", [], 1).
Proof.
  split; [split; [|split; [|split; [|split]]]|].
  - split; [vm_compute; intuition discriminate|vm_compute; repeat constructor; cbn; intuition discriminate].
  - intros [H _]. apply (H (quote "-o")). now left.
  - exists [quote "--help"; quote "--list-tests-with-tag"], [quote "--list-reporters"]. split; [reflexivity|]. split; [vm_compute; discriminate|]. repeat constructor.
  - exists [quote "--help"; quote "--list-tests-with-tag"; quote "--list-tags"], []. split; [reflexivity|]. split; [vm_compute; discriminate|]. repeat constructor.
  - exists [], [quote "--list-tests-with-tag"; quote "--list-tags"; quote "--list-reporters"]. split; [reflexivity|]. split; [vm_compute; discriminate|]. repeat constructor.
  - split; [intros long [<-|[<-|[]]]; (split; [vm_compute; intuition discriminate|vm_compute; lia])|].
    split; [repeat constructor|].
    split. { repeat constructor; cbn; try (intros c [<-|[]]; discriminate); intuition discriminate. }
    split. { intros [|a [|b l]] t l' E D; cbn in E; try discriminate E; injection E as <- <-; discriminate D. }
    split. { apply Forall_forall. intros x I. apply Nat.leb_le. revert x I. apply forallb_forall. vm_compute. reflexivity. }
    repeat split; vm_compute; reflexivity.
Qed.
