(** Whole programs down to the texts they print (C61-C64). No reference to the model. *)
From Coq Require Import Arith Ascii String Bool List.
From Verif.Spec Require Import TextSpec FilterSpec Events SessionSpec.
Import ListNotations.
Local Open Scope list_scope.

(** The argument of --reporter names this reporter, with options or without. *)
Definition names (arg name : text) : Prop := arg = name \/ exists options, arg = name ++ quote "::" ++ options.

(** The verbosity asked for by an option, if it is one of the known ones. *)
Definition verbosity_levels : list (text * verbosity) :=
  [(quote "quiet", Quiet); (quote "normal", Normal); (quote "high", High); (quote "full", Full)].
Definition asked_verbosity (o : option (option text)) (before : verbosity) : verbosity :=
  match o with
  | Some (Some v) =>
    match List.find (fun x => if list_eq_dec ascii_dec (fst x) v then true else false) verbosity_levels with
    | Some x => snd x
    | None => before
    end
  | _ => before
  end.
Definition at_least (a b : verbosity) : verbosity := if vlevel b <? vlevel a then a else b.

(** The texts printed on the console and those written in the output file, joined. *)
Definition console_text {ID} (l : list (output ID)) : text := flat_map (fun o => match o with Printed s => s | _ => [] end) l.
Definition file_text {ID} (l : list (output ID)) : text := flat_map (fun o => match o with WroteFile s => s | _ => [] end) l.


(** A command line that asks for a run of tests, not for a listing or for help. *)
Definition asks_run (setting_of : text -> option (option text)) : Prop :=
  forall n, In n (quote "--list-tests" :: actions) -> setting_of n = None.

(** The options of the console reporter ([console::key=value]): whether colours are used from then on, given whether
    they were before, and the values that are known; [None]: an unknown key. *)
Definition equal_text (a b : text) : bool := if list_eq_dec ascii_dec a b then true else false.
Definition colour_words (key : text) : option (text * text) :=
  if equal_text key (quote "color") then Some (quote "always", quote "never")
  else if equal_text key (quote "colour-mode") then Some (quote "ansi", quote "none")
  else None.
Inductive option_effect := UnknownKey | UnknownValue (choices : text) | Colours (used : bool).
Definition console_option (key value : text) (before : bool) : option_effect :=
  match colour_words key with
  | None => UnknownKey
  | Some (yes, no) =>
    if equal_text value yes then Colours true
    else if equal_text value no then Colours false
    else if equal_text value (quote "default") then Colours before
    else UnknownValue (yes ++ quote "|default|" ++ no)
  end.
