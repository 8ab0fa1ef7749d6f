(** Property C81: the help text and the messages about a bad command line. *)
From Verif.Spec Require Import TextSpec FilterSpec PrintSpec CliSpec ConsoleSpec HelpSpec.
From Verif.Model Require Import Base Vector StringUtil Run Print Cli.
From Verif.Proofs Require Import CliProofs HelpProofs ComplaintProofs.

(** C81. The help is exactly this text, whatever the name of the program, the version and the colours, if no line is
    longer than the limit on messages. *)
Theorem C81_help :
  forall (cc : cli_config) (program : text) (color : bool),
  Forall (fun line => length line <= c_max_message cc) (help_lines (painted color) program (c_version cc)) ->
  exists out, print_help cc program color = Ok out /\ List.concat out = List.concat (help_lines (painted color) program (c_version cc)).
Proof. exact print_help_text. Qed.
Print Assumptions C81_help.

(** It lists an option if and only if the parser takes it without a warning. *)
Theorem C81_agree :
  forall (cc : cli_config) (path arg value : text), dashed arg = true -> dashed value = false -> 2 <= c_max_args cc ->
  ((exists inp, parse_arguments cc path [arg; value] = Ok ([], Some inp)) <-> In arg (flat_map spellings_on (option_lines (painted false)))).
Proof. exact help_agrees. Qed.
Print Assumptions C81_agree.

(** There is one message for everything wrong with the command line, in order, and nothing else is printed but, if the
    command line is refused, an empty line and the help. Messages that fit are printed in full. *)
Theorem C81_messages :
  forall (cc : cli_config) (path : text) (argv : list text), length argv <= c_max_args cc ->
  exists color messages result, parse_color_options cc path argv = Ok ([], color) /\
    Forall2 (fun c m => length (spoken (painted color) c) <= c_max_message cc -> m = spoken (painted color) c) (complaints [] argv) messages /\
    ((acceptable argv /\ parse_arguments cc path argv = Ok (messages, Some result)) \/
     (~ acceptable argv /\ exists help blank, print_help cc path color = Ok help /\ (1 <= c_max_message cc -> blank = feed) /\
        parse_arguments cc path argv = Ok (messages ++ blank :: help, None))).
Proof. exact parse_complains. Qed.
Print Assumptions C81_messages.

(** A command line is never refused without an error that says why, nor accepted with one. *)
Theorem C81_explained :
  forall argv : list text,
  (acceptable argv -> complaints [] argv = map UnknownOption (unknown (read argv))) /\
  (~ acceptable argv -> Exists fatal (complaints [] argv)).
Proof. exact complaints_acceptable. Qed.
Print Assumptions C81_explained.

Definition roomy : cli_config := mkcli (20 * 10) 32 false (quote "1.3").
Example C81_help_example :
  Forall (fun line => length line <= c_max_message roomy) (help_lines (painted false) (quote "tests") (c_version roomy)) /\
  nth_error (help_lines (painted false) (quote "tests") (c_version roomy)) 4 = Some (quote "  -l, --list-tests List tests by name" ++ feed) /\
  nth_error (help_lines (painted false) (quote "tests") (c_version roomy)) 6
    = Some (quote "      --list-tests-with-tag <tag> List tests by name with a given tag" ++ feed).
Proof. split; [apply Forall_forall; intros l H; vm_compute in H; repeat destruct H as [<-|H]; [apply Nat.leb_le; vm_compute; reflexivity..|contradiction]|split; reflexivity]. Qed.
Example C81_agree_example :
  flat_map spellings_on (option_lines (painted false)) = flat_map fst options /\
  In (quote "--out") (flat_map spellings_on (option_lines (painted false))) /\ ~ In (quote "-s") (flat_map spellings_on (option_lines (painted false))) /\
  exists s, parse_arguments roomy (quote "t") [quote "-s"; quote "x"] = Ok ([s], Some (mkinput (quote "t") [mkargument [] (Some (quote "test regex")) (Some (quote "x"))])).
Proof.
  split; [vm_compute; reflexivity|]. split; [apply (existsb_seqb (quote "--out")); vm_compute; reflexivity|]. split.
  - intros H. apply (existsb_seqb (quote "-s")) in H. vm_compute in H. discriminate.
  - eexists. vm_compute. reflexivity.
Qed.
Example C81_messages_example :
  complaints [] (map quote ["-o"; "a"; "--out"; "b"; "--nope"; "-r"]%string)
    = [Repeated (quote "--out"); UnknownOption (quote "--nope"); ValueMissing (quote "-r") (quote "reporter[::key=value]*")] /\
  spoken (painted false) (ValueMissing (quote "-r") (quote "x")) = quote "error: missing value '<x>' for command line argument '-r'" ++ feed.
Proof. split; reflexivity. Qed.
