(** Model of what a program does to the streams of the C library, in order, between the parts of the tests: the execution of
    Model/Program.v with the calls of src/snitch_file.cpp and src/snitch_console.cpp. *)
From Verif.Spec Require Import StreamSpec Events SessionSpec.
From Verif.Model Require Import Base Vector StringUtil Print Filter Run Cli File Session Reporters Program.

(** One thing observed. [Printed]: src/snitch_console.cpp:6-8 [stdout_print] (the default [print_callback],
    include/snitch/snitch_registry.hpp:159, and [cli::console_print], src/snitch_cli.cpp:397). [WroteFile]:
    src/snitch_file.cpp:47-55 [file_writer::write]; the results of [std::fwrite] and [std::fflush] are not looked at.
    [OpenedFile]: 9-28, the constructor. [ClosedFile]: 39-45, the destructor. *)
Definition steps_of (o : output) : list step :=
  match o with
  | Printed s => [Write Console s]
  | WroteFile s => [Write OutputFile s; Flush OutputFile]
  | OpenedFile _ => [Open]
  | ClosedFile => [Close]
  | Reported _ (User n) => [UserCode n]
  | Reported _ _ | Initialized _ | Configured _ _ _ | Finished _ => []
  end.

Section Streams.
Variable lm : limits.
Variable fuel : nat.
Variable source : event -> str.
Variable duration : event -> option str.

(** As [perform] of Model/Program.v. *)
Fixpoint perform_steps (r : registry) (l : list output) : res (registry * list step) :=
  match l with
  | [] => Ok (r, [])
  | Reported w e :: l' =>
    do (r1, texts) <- report lm source duration r e ;;
    do printed <- print_all r1 texts ;;
    do (r2, rest) <- perform_steps r1 l' ;;
    Ok (r2, steps_of (Reported w e) ++ flat_map steps_of printed ++ rest)
  | o :: l' =>
    let r1 := match o with Finished _ => finish r | ClosedFile => set_file r None | _ => r end in
    do (r2, rest) <- perform_steps r1 l' ;;
    Ok (r2, steps_of o ++ rest)
  end.

(** src/snitch_main.cpp:7-18 [main], as [main_program] of Model/Program.v: the steps and the exit status. *)
Definition main_steps (can_open : str -> bool) (r : registry) (path : str) (argv : list str) : res (list step * nat) :=
  do (printed, args) <- parse_arguments (cli_of lm) path argv ;;
  match args with
  | None => Ok (flat_map steps_of (map Printed printed), 1)
  | Some args =>
    do (r1, out1) <- configure lm can_open r args ;;
    do (_, out2, success) <- run_tests lm fuel r1 args ;;
    do (_, steps) <- perform_steps r1 out2 ;;
    Ok (flat_map steps_of (map Printed printed ++ out1) ++ steps, if success : bool then 0 else 1)
  end.
End Streams.

(** src/snitch_error_handling.cpp:8-14 [terminate_with]: the steps before [std::terminate], which ends the process at once
    ([std::abort]) and flushes nothing. *)
Definition terminate_steps (message : str) : list step :=
  [Write Console (lit "terminate called with message: "); Write Console message; Write Console newline].
