(** What is asked of the print functions (C37, C38, C51). No reference to the model. *)
From Coq Require Import Arith Ascii String Bool List.
From Verif.Spec Require Import TextSpec.
Import ListNotations.
Local Open Scope list_scope.

(** An argument of a print function: a text; a number, given by its text; a coloured text, with the sequences that
    switch the colour on and off (both empty when colours are disabled). *)
Inductive piece := Text (s : text) | Number (s : text) | Colored (value start stop : text).

(** What the argument looks like when printed in full. *)
Definition rendered (p : piece) : text :=
  match p with Text s | Number s => s | Colored value start stop => start ++ value ++ stop end.

(** The argument can be printed from an empty buffer of capacity [n] (texts can always). *)
Definition printable (n : nat) (p : piece) : Prop :=
  match p with
  | Text _ => True
  | Number s => length s <= n
  | Colored value start stop => length (start ++ value ++ stop) <= n /\ length (start ++ stop) < n
  end.
