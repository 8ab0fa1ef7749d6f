(** Specification of which colours are used (C35), given what a command line says. No reference to the model. *)
From Coq Require Import Ascii String Bool List.
From Verif.Spec Require Import TextSpec FilterSpec ProgramSpec.
Import ListNotations.
Local Open Scope list_scope.

(** What an option asks for, if its value is one of the two words; ["default"], an unknown word and no option ask for
    nothing. *)
Definition asks (yes no : text) (value : option (option text)) : option bool :=
  match value with
  | Some (Some v) => if equal_text v yes then Some true else if equal_text v no then Some false else None
  | _ => None
  end.

Section Colours.
(** The value of an option on the command line. *)
Variable setting_of : text -> option (option text).

Definition by_color : option bool := asks (quote "always") (quote "never") (setting_of (quote "--color")).
Definition by_colour_mode : option bool := asks (quote "ansi") (quote "none") (setting_of (quote "--colour-mode")).

(** In the run: [--color] wins over [--colour-mode]; if neither asks for anything, an output file has no colours, and
    otherwise the setting stays as it was. *)
Definition run_colours (before : bool) : bool :=
  match by_color, by_colour_mode with
  | Some c, _ => c
  | None, Some c => c
  | None, None => match setting_of (quote "--out") with Some _ => false | None => before end
  end.

(** In messages about the command line: [--colour-mode] wins over [--color], and [--out] is not looked at. *)
Definition message_colours (default : bool) : bool :=
  match by_colour_mode, by_color with
  | Some c, _ => c
  | None, Some c => c
  | None, None => default
  end.
End Colours.
