(** Words used in the statements about programs that use the registry more than once (C90). Like Spec/ProgramClaims.v
    these speak about the registry of the model. *)
From Verif.Spec Require Import TextSpec FilterSpec Events SessionSpec ProgramSpec CliSpec.
From Verif.Model Require Import Base Filter Run Cli Session Program.
From Verif.Spec Require Import ProgramClaims.
Local Open Scope list_scope.

(** A registry that prints its reports on the console, and in which no reporter has been chosen. *)
Definition fresh (r : registry) : Prop := g_reporter r = None /\ g_file r = None /\ g_to_file r = false.

(** Two calls that print the same and return the same, or fail in the same way. *)
Definition same_outcome (a b : res (registry * list output * bool)) : Prop :=
  match a, b with
  | Ok (_, out, success), Ok (_, out', success') => out = out' /\ success = success'
  | Err e, Err e' => e = e'
  | _, _ => False
  end.

Section Histories.
Variable lm : limits.
Variable fuel : nat.
Variable file : event -> text.
Variable duration : event -> option text.

(** The first registry becomes the second after any number of runs, with any arguments. *)
Inductive after_runs : registry -> registry -> Prop :=
| no_run r : after_runs r r
| one_more_run r r1 r2 args out success :
    after_runs r r1 -> run_program lm fuel file duration r1 args = Ok (r2, out, success) -> after_runs r r2.

(** It is configured with the same arguments before each of them. *)
Inductive after_repeats (can_open : text -> bool) (args : input) : registry -> registry -> Prop :=
| no_repeat r : after_repeats can_open args r r
| one_more_repeat r r1 r2 r3 said out success :
    after_repeats can_open args r r1 -> configure lm can_open r1 args = Ok (r2, said) ->
    run_program lm fuel file duration r2 args = Ok (r3, out, success) -> after_repeats can_open args r r3.

(** It is configured and run in any order, any number of times, with any arguments. *)
Inductive after_uses : registry -> registry -> Prop :=
| no_use r : after_uses r r
| one_more_configuration can_open r r1 r2 args said :
    after_uses r r1 -> configure lm can_open r1 args = Ok (r2, said) -> after_uses r r2
| one_more_use r r1 r2 args out success :
    after_uses r r1 -> run_program lm fuel file duration r1 args = Ok (r2, out, success) -> after_uses r r2.

(** A reporter of the library. *)
Definition of_library (p : reporter) : Prop :=
  p = console_reporter lm file duration \/ p = xml_reporter lm file duration \/ p = teamcity_reporter lm file duration.

(** The command line leaves nothing to what has been configured before: it tells whether there are colours, the verbosity,
    the reporter, and the output file (unless both registries print on the console). *)
Definition complete (r r' : registry) (argv : list text) : Prop :=
  ((exists word, setting (read argv) (quote "--color") = Some (Some word) /\ In word [quote "always"; quote "never"]) \/
   (exists word, setting (read argv) (quote "--colour-mode") = Some (Some word) /\ In word [quote "ansi"; quote "none"])) /\
  (exists word v, setting (read argv) (quote "--verbosity") = Some (Some word) /\ In (word, v) verbosity_levels) /\
  ((exists path, setting (read argv) (quote "--out") = Some (Some path)) \/
   (g_file r = None /\ g_to_file r = false /\ g_file r' = None /\ g_to_file r' = false)) /\
  (exists arg i p, setting (read argv) (quote "--reporter") = Some (Some arg) /\ ProgramSpec.names arg (r_name p) /\ first_named (g_reporters r) i p).
End Histories.
