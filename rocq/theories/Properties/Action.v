(** Property C111: what a program prints when it is asked for the help, the tags or the reporters, or cannot use its command line. *)
From Coq Require Import Sorting.Sorted.
From Verif.Spec Require Import TextSpec FilterSpec PrintSpec Events SessionSpec ProgramSpec ColourSpec ConsoleSpec HelpSpec WarningSpec CliSpec ActionSpec.
From Verif.Model Require Import Base Vector StringUtil Print Filter Run Cli File Session Reporters Program.
From Verif.Spec Require Import ProgramClaims.
From Verif.Proofs Require Import ReportExamples ProgramFacts WarningProgram ActionProofs ActionExamples.
Local Open Scope string_scope.
Local Open Scope list_scope.
Local Open Scope nat_scope.

(** ** C111. The answer is all that is printed after the warnings of C110, on the console even if there is an output file, and the
    exit code is 0 (Spec/ActionSpec.v; [only_prints] in Spec/ProgramClaims.v)

    The reporters: their names, in the order in which they are registered, one per line. *)
Theorem C111_reporters :
  forall (lm : Session.limits) (fuel : nat) (file : event -> text) (duration : event -> option text) (can_open : text -> bool)
    (r : registry) (path : text) (argv : list text) (out : list output) (code : nat),
  length argv <= l_max_command_line_args lm -> acceptable argv -> first_asked (setting (read argv)) (quote "--list-reporters") ->
  main_program lm fuel file duration can_open r path argv = Ok (out, code) ->
  only_prints lm r argv out (flat_map (fun p => fit (l_max_message_length lm) (r_name p ++ feed)) (g_reporters r)) /\ code = 0.
Proof. exact reporters_listed. Qed.
Print Assumptions C111_reporters.

(** The tags of all the tests, hidden or not, in the order of the dictionary, each once. (The texts in [tags_of] have brackets, and the
    code writes another pair: finding 58 in DESIGN.md. Tests with a tag such as ["[.x]"] that does not come after ["[x]"]: C52.) *)
Theorem C111_tags :
  forall (lm : Session.limits) (fuel : nat) (file : event -> text) (duration : event -> option text) (can_open : text -> bool)
    (r : registry) (path : text) (argv : list text) (out : list output) (code : nat) (tags : list (list text)),
  length argv <= l_max_command_line_args lm -> acceptable argv -> first_asked (setting (read argv)) (quote "--list-tags") ->
  Forall2 (fun t l => id_tags (t_id t) = tag_string l) (g_tests r) tags -> Forall (well_formed (l_max_tag_length lm)) tags ->
  after_plain (List.concat tags) ->
  main_program lm fuel file duration can_open r path argv = Ok (out, code) ->
  exists l, StronglySorted before l /\ (forall x, In x l <-> exists t, In t tags /\ In x (tags_of t)) /\
    only_prints lm r argv out (flat_map (fun t => fit (l_max_message_length lm) (bracketed t ++ feed)) l) /\ code = 0.
Proof. exact tags_listed. Qed.
Print Assumptions C111_tags.

(** The help, with the name of the program, without its folder and extension. *)
Theorem C111_help :
  forall (lm : Session.limits) (fuel : nat) (file : event -> text) (duration : event -> option text) (can_open : text -> bool)
    (r : registry) (path : text) (argv : list text) (out : list output) (code : nat),
  length argv <= l_max_command_line_args lm -> acceptable argv -> first_asked (setting (read argv)) (quote "--help") ->
  main_program lm fuel file duration can_open r path argv = Ok (out, code) ->
  exists colours file_name program, file_of path file_name /\ stem_of file_name program /\
    (setting (read argv) (quote "--reporter") = None -> colours = run_colours (setting (read argv)) (g_with_color r)) /\ code = 0 /\
    (Forall (fun line => length line <= l_max_message_length lm) (help_lines (painted colours) program (l_version lm)) ->
     only_prints lm r argv out (List.concat (help_lines (painted colours) program (l_version lm)))).
Proof. exact help_printed. Qed.
Print Assumptions C111_help.

(** A command line that cannot be used: what is wrong with it, an empty line and the help, with the path of the program as it was
    called, and the exit code is 1. The colours are those asked for, if these options are not themselves what is wrong. *)
Theorem C111_refused :
  forall (lm : Session.limits) (fuel : nat) (file : event -> text) (duration : event -> option text) (can_open : text -> bool)
    (r : registry) (path : text) (argv : list text),
  length argv <= l_max_command_line_args lm -> ~ acceptable argv ->
  exists colours out, main_program lm fuel file duration can_open r path argv = Ok (out, 1) /\ file_text out = [] /\
    (clear_colours argv -> colours = message_colours (setting (read argv)) (l_default_with_color lm)) /\
    (1 <= l_max_message_length lm ->
     Forall (fun line => length line <= l_max_message_length lm) (help_lines (painted colours) path (l_version lm)) ->
     Forall (fun c => length (spoken (painted colours) c) <= l_max_message_length lm) (complaints [] argv) ->
     console_text out = flat_map (spoken (painted colours)) (complaints [] argv) ++ feed ++
       List.concat (help_lines (painted colours) path (l_version lm))).
Proof. exact refused. Qed.
Print Assumptions C111_refused.

(** The hypotheses hold of these command lines, and this is printed: the tags although the reporters are asked for too, the help
    although an output file is given, and a command line in which the path of the file is missing. *)
Example C111_example :
  (acceptable (map quote ["--list-reporters"; "--list-tags"; "--what"]) /\ ~ acceptable (map quote ["-o"]) /\
   first_asked (setting (read (map quote ["--list-reporters"; "--list-tags"; "--what"]))) (quote "--list-tags") /\
   first_asked (setting (read (map quote ["--list-reporters"]))) (quote "--list-reporters") /\
   first_asked (setting (read (map quote ["-h"; "-l"]))) (quote "--help")) /\
  clear_colours (map quote ["--color"; "always"; "-h"; "-h"]) /\
  Forall2 (fun t l => id_tags (t_id t) = tag_string l) (g_tests library) (map snd tagged_tests) /\
  Forall (well_formed (l_max_tag_length wider)) (map snd tagged_tests) /\ after_plain (List.concat (map snd tagged_tests)) /\
  Forall (fun line => length line <= l_max_message_length wider) (help_lines (painted false) (quote "out/demo.exe") (l_version wider)) /\
  told ["--list-reporters"; "--list-tags"; "--what"] = Some (lines_of ["warning: unknown command line argument '--what'"; "[[x]]"], [], 0) /\
  told ["--list-reporters"] = Some (lines_of ["console"; "xml"; "teamcity"], [], 0) /\
  told ["-h"; "-l"; "-o"; "f"] = Some (help_from "demo", [], 0) /\
  told ["-o"] = Some (lines_of ["error: missing value '<path>' for command line argument '-o'"; ""] ++ help_from "out/demo.exe", [], 1).
Proof. exact action_example. Qed.
