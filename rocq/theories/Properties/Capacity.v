(** Property C83: command lines of any length. *)
From Verif.Spec Require Import TextSpec FilterSpec PrintSpec CliSpec CapacitySpec.
From Verif.Model Require Import Base Vector StringUtil Run Print Cli Session Program.
From Verif.Proofs Require Import CapacityProofs.

(** C83. With room for two arguments at least: if no more arguments have to be kept than there is room for, the command
    line is read as with any larger room (so C32, C35, C53 and C81, which assume room for every word, apply); if more
    have to be kept, reading fails an assertion. It never stops short with a part of the arguments. *)
Theorem C83_capacity :
  forall (cc : cli_config) (path : text) (argv : list text) (room : nat),
  2 <= c_max_args cc -> c_max_args cc <= room -> length argv <= room ->
  (stored [] argv <= c_max_args cc ->
     parse_arguments cc path argv = parse_arguments (mkcli (c_max_message cc) room (c_default_color cc) (c_version cc)) path argv) /\
  (c_max_args cc < stored [] argv -> parse_arguments cc path argv = Err Assert).
Proof. exact capacity_spec. Qed.
Print Assumptions C83_capacity.

(** What has to be kept of an acceptable command line is what the reader of the result sees, and never more than one
    for each word. *)
Theorem C83_kept :
  forall argv : list text,
  (acceptable argv -> stored [] argv = length (recorded (Some (quote "test regex")) (read argv))) /\ stored [] argv <= length argv.
Proof. exact (fun argv => conj (stored_acceptable argv) (stored_le argv [])). Qed.
Print Assumptions C83_kept.

(** The program then ends before it has configured or run anything. *)
Theorem C83_main :
  forall lm fuel file duration can_open r (path : text) (argv : list text),
  2 <= l_max_command_line_args lm -> l_max_command_line_args lm < stored [] argv ->
  main lm fuel can_open r path argv = Err Assert /\ main_program lm fuel file duration can_open r path argv = Err Assert.
Proof. exact main_capacity. Qed.
Print Assumptions C83_main.

(** Otherwise it does what it would do with any larger room, so what is said for command lines of no more words than
    there is room for (C33, C55, C61 to C66) holds whatever the number of words. *)
Theorem C83_room :
  forall lm fuel file duration can_open r (path : text) (argv : list text) (room : nat),
  2 <= l_max_command_line_args lm -> l_max_command_line_args lm <= room -> length argv <= room ->
  stored [] argv <= l_max_command_line_args lm ->
  let larger :=
    mklimits (l_max_nested lm) (l_max_captures lm) (l_max_capture_length lm) (l_max_message_length lm) (l_max_tag_length lm)
      (l_max_test_name_length lm) (l_max_unique_tags lm) room (l_max_reporters lm) (l_max_path_length lm) (l_default_with_color lm)
      (l_version lm) in
  main lm fuel can_open r path argv = main larger fuel can_open r path argv /\
  main_program lm fuel file duration can_open r path argv = main_program larger fuel file duration can_open r path argv.
Proof. exact main_room. Qed.
Print Assumptions C83_room.

(** The smallest maximum with which the library can be compiled, as its table of options has the same capacity. *)
Definition cramped : cli_config := mkcli 100 32 false (quote "1.3").
Example C83_example :
  let many := fun n => repeat (quote "a") n in
  stored [] (map quote ["-v"; "quiet"]%string ++ many 31) = 32 /\ length (map quote ["-v"; "quiet"]%string ++ many 31) = 33 /\
  parse_arguments cramped (quote "t") (map quote ["-v"; "quiet"]%string ++ many 31)
    = Ok ([], Some (mkinput (quote "t") (mkargument (quote "--verbosity") (Some (quote "quiet|normal|high|full")) (Some (quote "quiet")) ::
                                         repeat (mkargument [] (Some (quote "test regex")) (Some (quote "a"))) 31))) /\
  stored [] (many 33) = 33 /\
  parse_arguments cramped (quote "t") (many 33) = Err Assert /\
  (* the second option is refused, and its value is kept as a filter *)
  stored [] (map quote ["-v"; "quiet"; "-v"; "full"]%string) = 2 /\
  (* an unknown option and its value are not kept *)
  stored [] (map quote ["--filenames"; "-w"; "a"; "b"; "--help"]%string) = 2.
Proof. vm_compute. repeat split. Qed.
