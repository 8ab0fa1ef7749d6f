(** When two command lines ask for the same thing (C89). No reference to the model. *)
From Coq Require Import Ascii String Bool List.
From Verif.Spec Require Import TextSpec FilterSpec CliSpec.
Import ListNotations.
Local Open Scope list_scope.

(** The same options have the same values, and the filters are the same, in the same order. Neither the order of the
    options, nor their place among the filters, nor their spelling (short or long) matters. *)
Definition same_request (argv argv' : list text) : Prop :=
  (forall long, setting (read argv) long = setting (read argv') long) /\ filters (read argv) = filters (read argv').

(** The words of [--color], and those of Catch2's [--colour-mode] that mean the same. *)
Definition colour_words : list (text * text) :=
  [(quote "always", quote "ansi"); (quote "default", quote "default"); (quote "never", quote "none")].

(** The first command line uses [--color] where the second uses [--colour-mode], and otherwise they ask for the same. *)
Definition translated (argv argv' : list text) : Prop :=
  (forall long, long <> quote "--color" -> long <> quote "--colour-mode" -> setting (read argv) long = setting (read argv') long) /\
  filters (read argv) = filters (read argv') /\
  exists word word', In (word, word') colour_words /\
    setting (read argv) (quote "--color") = Some (Some word) /\ setting (read argv) (quote "--colour-mode") = None /\
    setting (read argv') (quote "--color") = None /\ setting (read argv') (quote "--colour-mode") = Some (Some word').
