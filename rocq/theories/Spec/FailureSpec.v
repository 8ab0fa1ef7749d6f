(** How the reporters of the library show that a check failed (C105). No reference to the model. *)
From Coq Require Import Arith Ascii String Bool NArith List.
From Verif.Spec Require Import TextSpec FilterSpec EscapeSpec NumberSpec XmlSpec ServiceSpec ConsoleSpec Events.
Import ListNotations.
Local Open Scope string_scope.
Local Open Scope list_scope.

Section Failure.
Context {ID : Type}.
Notation event := (event ID).
Variable file : event -> text.     (** source file of what the event is about *)

(** The line of the source at which the check is, or the last one that is known. *)
Definition failure_line (e : event) : nat := match e with AssertionFailed _ _ _ l _ _ _ => loc_line l | _ => 0 end.

(** A text for the console: it begins with the word failed, in red if colours are enabled, and has the file and the line. *)
Definition shown_by_console (colours : bool) (e : event) (p : text) : Prop :=
  exists number rest, writes 10 number (N.of_nat (failure_line e)) /\
    p = painted colours Bad (quote "failed: ") ++ rest /\ occurs (quote " " ++ file e ++ quote ":" ++ number ++ feed) rest.

(** A service message for TeamCity: testFailed, with the file and the line in its text. The name of the file is cut if it is too
    long for the buffers of the library. *)
Definition shown_by_teamcity (max_message : nat) (e : event) (p : text) : Prop :=
  exists number coded rest, writes 10 number (N.of_nat (failure_line e)) /\
    (room max_message (file e) -> encoded teamcity_code (file e) coded) /\
    p = quote "##teamCity[testFailed name='" ++ rest /\ occurs (quote " message='" ++ coded ++ quote ":" ++ number ++ quote "|n") rest.

(** In XML: an element Failure, or an element Expression that says that it did not succeed, with the file and the line. *)
Definition shown_by_xml (max_message : nat) (e : event) (p : text) : Prop :=
  exists number coded, writes 10 number (N.of_nat (failure_line e)) /\
    (fits max_message (file e) -> encoded xml_entities (file e) coded) /\
    let place := quote " filename=" ++ double_quote ++ coded ++ double_quote ++ quote " line=" ++ double_quote ++ number ++ double_quote ++ quote ">" in
    match e with
    | AssertionFailed _ _ _ _ (Message _) _ _ => occurs (quote "<Failure" ++ place) p
    | AssertionFailed _ _ _ _ (Expression macro _ _) _ _ =>
      occurs (quote "<Expression success=" ++ double_quote ++ quote "false" ++ double_quote ++ quote " type=" ++ double_quote ++ macro ++ double_quote ++ place) p
    | _ => False
    end.
End Failure.
