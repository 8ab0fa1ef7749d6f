(** Property C35, exactly: which colours are used, for every accepted command line. *)
From Verif.Spec Require Import TextSpec FilterSpec CliSpec SessionSpec ProgramSpec ColourSpec.
From Verif.Model Require Import Base Vector StringUtil Filter Print Cli File Run Session.
From Verif.Proofs Require Import CliProofs ConfigProofs ReporterProofs ColourProofs.

(** In the run, with any reporters that leave the colours alone. *)
Theorem C35_run_partial :
  forall (lm : Session.limits) (can_open : text -> bool) (r : registry) (path : text) (argv : list text) (out1 : list text) (args : input)
    (r' : registry) (out2 : list output),
  length argv <= l_max_command_line_args lm ->
  parse_arguments (cli_of lm) path argv = Ok (out1, Some args) ->
  setting (read argv) (quote "--reporter") = None \/
  (forall p, In p (g_reporters r) ->
     (forall m memory m' said, r_initialize p m = Ok (memory, m', said) -> m_color m' = m_color m) /\
     (forall m memory k v memory' m' said known, r_configure p m memory k v = Ok (memory', m', said, known) -> m_color m' = m_color m)) ->
  configure lm can_open r args = Ok (r', out2) ->
  g_with_color r' = run_colours (setting (read argv)) (g_with_color r).
Proof. exact run_colours_spec. Qed.
Print Assumptions C35_run_partial.

(** In the messages about the command line. *)
Theorem C35_messages_partial :
  forall (cc : cli_config) (path : text) (argv : list text),
  length argv <= c_max_args cc -> acceptable argv ->
  parse_color_options cc path argv = Ok ([], message_colours (setting (read argv)) (c_default_color cc)).
Proof. exact message_colours_spec. Qed.
Print Assumptions C35_messages_partial.

(** They are the same unless the two options contradict each other, or the output goes to a file, colours are on and no
    option asks for anything. *)
Theorem C35_agree_partial :
  forall (setting_of : text -> option (option text)) (before : bool),
  run_colours setting_of before = message_colours setting_of before <->
  match by_color setting_of, by_colour_mode setting_of with
  | Some c, Some d => c = d
  | None, None => setting_of (quote "--out") = None \/ before = false
  | _, _ => True
  end.
Proof. exact colours_agree_iff. Qed.
Print Assumptions C35_agree_partial.

Example C35_exact_example :
  let words l := setting (read (map quote l)) in
  run_colours (words ["--out"; "f"; "--color"; "always"]%string) false = true /\
  run_colours (words ["--out"; "f"]%string) true = false /\ message_colours (words ["--out"; "f"]%string) true = true /\
  run_colours (words ["--color"; "never"; "--colour-mode"; "ansi"]%string) true = false /\
  message_colours (words ["--color"; "never"; "--colour-mode"; "ansi"]%string) true = true /\
  run_colours (words ["--color"; "maybe"; "--colour-mode"; "ansi"; "--out"; "f"]%string) false = true.
Proof. repeat split; vm_compute; reflexivity. Qed.
