(** Words for tests divided among several runs (C99, C100), with no reference to the model. *)
From Coq Require Import List Bool.
From Verif.Spec Require Import TextSpec FilterSpec.
Import ListNotations.

(** The tests chosen by the filters of a command line: without filters, those that are not hidden. *)
Definition chosen (name : text) (tags : list text) (filters : list text) : Prop :=
  match filters with [] => ~ hidden tags | _ => selected name tags filters end.

(** Exactly one of these answers is yes, or none if there should be none. *)
Definition once (expected : bool) (answers : list bool) : Prop :=
  count_occ bool_dec answers true = if expected then 1 else 0.

(** A filter in one piece: no unescaped comma, not negated and, if it is about tags, about a single one. *)
Definition in_one_piece (f : text) : Prop :=
  split_commas f [f] /\ negated f = false /\ (about_tags f = true -> split_tags f [f]).
