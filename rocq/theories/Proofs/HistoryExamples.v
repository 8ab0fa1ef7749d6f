(** The examples of C90. *)
From Verif.Spec Require Import TextSpec FilterSpec PrintSpec CliSpec Events SessionSpec ProgramSpec ConsoleSpec.
From Verif.Model Require Import Base Vector StringUtil Print Filter Run Cli File Session Reporters Program.
From Verif.Proofs Require Import ReportExamples ProgramFacts.
Local Open Scope string_scope.
Local Open Scope list_scope.
Local Open Scope nat_scope.

(** The arguments that a command line is parsed into, and what becomes of a registry. *)
Definition arguments_of (l : list string) : input :=
  match parse_arguments (cli_of small) (quote "./demo") (map quote l) with Ok (_, Some i) => i | _ => mkinput [] [] end.
Definition configured_by (r : registry) (l : list string) : registry :=
  match configure small (fun _ => true) r (arguments_of l) with Ok (r', _) => r' | Err _ => r end.
Definition run_by (r : registry) (l : list string) : registry :=
  match run_program small 50 at_file untimed r (arguments_of l) with Ok (r', _, _) => r' | Err _ => r end.
Definition text_of (r : registry) (l : list string) : option text :=
  match run_program small 50 at_file untimed r (arguments_of l) with Ok (_, out, _) => Some (console_text out ++ file_text out) | Err _ => None end.


Lemma configured_by_ok r l : match configure small (fun _ => true) r (arguments_of l) with Ok _ => true | Err _ => false end = true ->
  exists said, configure small (fun _ => true) r (arguments_of l) = Ok (configured_by r l, said).
Proof. unfold configured_by. destruct (configure _ _ _ _) as [[r' said]|]; [eauto|discriminate]. Qed.
Lemma run_by_ok r l : match run_program small 50 at_file untimed r (arguments_of l) with Ok _ => true | Err _ => false end = true ->
  exists out s, run_program small 50 at_file untimed r (arguments_of l) = Ok (run_by r l, out, s).
Proof. unfold run_by. destruct (run_program _ _ _ _ _ _) as [[[r' out] s]|]; [eauto|discriminate]. Qed.
