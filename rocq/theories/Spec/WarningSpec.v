(** What is printed about a command line that can be used, before anything else (C110). No reference to the model. *)
From Coq Require Import Ascii String Bool List.
From Verif.Spec Require Import TextSpec FilterSpec ProgramSpec ColourSpec ConsoleSpec HelpSpec.
Import ListNotations.
Local Open Scope list_scope.

(** An option has a value that is none of these words. *)
Definition unknown_word (words : list text) (value : option (option text)) : bool :=
  match value with Some (Some v) => negb (existsb (equal_text v) words) | _ => false end.

Section Warnings.
(** The value of an option on the command line. *)
Variable setting_of : text -> option (option text).

(** One warning for each argument that looks like an option and is none. *)
Definition option_warnings (default : bool) (unknown : list text) : list text :=
  map (fun arg => spoken (painted (message_colours setting_of default)) (UnknownOption arg)) unknown.

(** One warning for each value that is not a known word. The colours are those that hold before the run, changed by the
    options looked at until then. *)
Definition warn_text (colours : bool) (s : text) : text := painted colours Warning (quote "warning:") ++ s ++ feed.
Definition first_colours (before : bool) : bool := match by_colour_mode setting_of with Some c => c | None => before end.
Definition second_colours (before : bool) : bool := match by_color setting_of with Some c => c | None => first_colours before end.
Definition value_warnings (before : bool) : list text :=
  (if unknown_word [quote "ansi"; quote "default"; quote "none"] (setting_of (quote "--colour-mode"))
   then [warn_text before (quote " unknown color directive; please use one of ansi|default|none")] else []) ++
  (if unknown_word [quote "always"; quote "default"; quote "never"] (setting_of (quote "--color"))
   then [warn_text (first_colours before) (quote " unknown color directive; please use one of always|default|never")] else []) ++
  (if unknown_word [quote "quiet"; quote "normal"; quote "high"; quote "full"] (setting_of (quote "--verbosity"))
   then [warn_text (second_colours before) (quote " unknown verbosity level; please use one of quiet|normal|high|full")] else []).
End Warnings.

(** These texts were to be printed, and these were: the same if they are not too long. *)
Definition shown_up_to (limit : nat) : list text -> list text -> Prop := Forall2 (fun w s => length w <= limit -> s = w).
