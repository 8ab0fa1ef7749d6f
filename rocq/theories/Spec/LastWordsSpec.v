(** What a program should say when a test exceeds a limit (C88). No reference to the model. *)
From Coq Require Import NArith Arith Ascii String Bool List.
From Verif.Spec Require Import TextSpec FilterSpec NumberSpec Events RunSpec.
Import ListNotations.
Local Open Scope list_scope.

(** The limits: on nested sections, on captures in scope, and on sections and checks that are open. There is no option for
    the last one, which depends on the first. *)
Inductive limit := Sections | Captures | Places.

(** The test body [p] exceeds the limit. *)
Definition exceeded (nested captures : nat) (l : limit) (p : prog) : Prop :=
  match l with
  | Sections => nested < nesting p
  | Captures => captures < capturing p
  | Places => S nested < scopes p
  end.

(** The message for the handler of failed assertions. *)
Definition message (l : limit) : text :=
  match l with
  | Sections => quote "max number of nested sections reached"
  | Captures => quote "max number of captures reached"
  | Places => quote "small vector is full"
  end.

(** What is printed before: [prefix], then which limit it is, its present value in decimal and the option that changes
    it. *)
Definition explained (prefix : text) (nested captures : nat) (l : limit) (printed : list text) : Prop :=
  let ending := quote ")" ++ [ascii_of_nat 10] ++ quote "." in
  match l with
  | Sections =>
    exists digits, writes 10 digits (N.of_nat nested) /\
      List.concat printed = prefix ++ quote " max number of nested sections reached; please increase 'SNITCH_MAX_NESTED_SECTIONS' (currently " ++ digits ++ ending
  | Captures =>
    exists digits, writes 10 digits (N.of_nat captures) /\
      List.concat printed = prefix ++ quote " max number of captures reached; please increase 'SNITCH_MAX_CAPTURES' (currently " ++ digits ++ ending
  | Places => printed = []
  end.

(** [l'] starts with [l]. *)
Definition continues {A} (l l' : list A) : Prop := exists rest, l' = l ++ rest.
