(** What is asked of the help text and of the messages about a bad command line (C81). No reference to the model. The
    options are those of Spec/CliSpec.v, which the parser is compared with (C32). *)
From Coq Require Import Arith Ascii String Bool List.
From Verif.Spec Require Import TextSpec FilterSpec CliSpec ConsoleSpec.
Import ListNotations.
Local Open Scope list_scope.

(** ** The help text *)

(** What the help says about each option, in the order of [options]. *)
Definition descriptions : list text :=
  [ quote "List tests by name";
    quote "List tags by name";
    quote "List tests by name with a given tag";
    quote "List available test reporters (see --reporter)";
    quote "Choose which reporter to use to output the test results";
    quote "Define how much gets sent to the standard output";
    quote "Saves output to a file given as 'path'";
    quote "Enable/disable color in output";
    quote "Enable/disable color in output (for compatibility with Catch2)";
    quote "Print help" ].

(** The spellings of an option, as in [-r, --reporter <reporter>]; those with a long name only are aligned with the
    others. *)
Definition usage_of_option (o : list text * option text) : text :=
  match fst o with
  | [long] => repeat " "%char 4 ++ long
  | [short; long] => short ++ quote ", " ++ long
  | _ => []
  end ++
  match snd o with Some called => quote " <" ++ called ++ quote ">" | None => [] end.

Section Help.
Variable paint : style -> text -> text. (** a text in colour, if colours are enabled *)
Definition option_line (usage description : text) : text := quote "  " ++ paint Name usage ++ quote " " ++ description ++ feed.
Definition option_lines : list text :=
  map (fun od => option_line (usage_of_option (fst od)) (snd od)) (combine options descriptions).
Definition help_lines (program version : text) : list text :=
  [ paint Value (quote "Test runner (snitch v" ++ version ++ quote " | compatible with Catch2 v3.4.0)") ++ feed;
    paint Good (quote "Usage:") ++ feed;
    quote "  " ++ program ++ quote " [options...] [<test regex>...]" ++ feed;
    feed ] ++
  option_lines ++
  [ option_line (quote "<test regex>") (quote "A regex to select which test cases to run") ].
End Help.

(** The spellings of options listed on a line of the help: the words at its start that begin with a dash. Words are
    separated by spaces and commas. *)
Definition separates (c : ascii) : bool := same_text [c] (quote " ") || same_text [c] (quote ",").
Fixpoint words (current t : text) : list text :=
  match t with
  | [] => match current with [] => [] | _ => [current] end
  | c :: t' =>
    if separates c then match current with [] => words [] t' | _ => current :: words [] t' end
    else words (current ++ [c]) t'
  end.
Fixpoint dashed_first (l : list text) : list text :=
  match l with w :: l' => if dashed w then w :: dashed_first l' else [] | [] => [] end.
Definition spellings_on (line : text) : list text := dashed_first (words [] line).

(** ** What is wrong with a command line *)
Inductive complaint :=
| UnknownOption (arg : text)
| Repeated (arg : text)
| ValueMissing (arg called : text).

(** [seen]: the long names of the options so far. A repeated option is not followed by a value. *)
Fixpoint complaints (seen : list text) (argv : list text) : list complaint :=
  match argv with
  | [] => []
  | arg :: rest =>
    if dashed arg then
      match lookup options arg with
      | Some (long, value) =>
        if existsb (same_text long) seen then Repeated arg :: complaints seen rest
        else
          match value, rest with
          | None, _ => complaints (long :: seen) rest
          | Some _, _ :: rest' => complaints (long :: seen) rest'
          | Some called, [] => [ValueMissing arg called]
          end
      | None =>
        UnknownOption arg ::
        (if existsb (same_text arg) catch2_with_value then match rest with _ :: rest' => complaints seen rest' | [] => [] end
         else complaints seen rest)
      end
    else complaints seen rest
  end.

Definition fatal (c : complaint) : Prop := match c with UnknownOption _ => False | _ => True end.

Definition spoken (paint : style -> text -> text) (c : complaint) : text :=
  match c with
  | UnknownOption arg => paint Warning (quote "warning:") ++ quote " unknown command line argument '" ++ arg ++ quote "'" ++ feed
  | Repeated arg => paint Bad (quote "error:") ++ quote " duplicate command line argument '" ++ arg ++ quote "'" ++ feed
  | ValueMissing arg called =>
    paint Bad (quote "error:") ++ quote " missing value '<" ++ called ++ quote ">' for command line argument '" ++ arg ++ quote "'" ++ feed
  end.
