(** Labels of captured expressions (C29). No reference to the model. *)
From Coq Require Import Ascii String Bool List.
From Verif.Spec Require Import TextSpec.
Import ListNotations.
Local Open Scope list_scope.

Definition double_quote : ascii := ascii_of_nat 34.
Definition single_quote : ascii := ascii_of_nat 39.
Definition plain (c : ascii) : Prop := ~ In c [","%char; "("%char; ")"%char; double_quote; single_quote].

(** Source texts made of plain characters, string literals and character literals (without escaped quotes) and
    parenthesised texts; a comma is allowed inside parentheses only, unless [commas] is set. *)
Inductive balanced : bool -> text -> Prop :=
| bal_nil commas : balanced commas []
| bal_plain commas c s : plain c -> balanced commas s -> balanced commas (c :: s)
| bal_comma s : balanced true s -> balanced true (","%char :: s)
| bal_string commas q s : ~ In double_quote q -> balanced commas s -> balanced commas (double_quote :: q ++ double_quote :: s)
| bal_char commas q s : ~ In single_quote q -> balanced commas s -> balanced commas (single_quote :: q ++ single_quote :: s)
| bal_parens commas s s' : balanced true s -> balanced commas s' -> balanced commas ("("%char :: s ++ ")"%char :: s').

(** The source text of several arguments: separated by commas. *)
Fixpoint joined (l : list text) : text :=
  match l with [] => [] | [a] => a | a :: l' => a ++ ","%char :: joined l' end.

(** [t] is [s] without the blanks around it. *)
Definition blank (c : ascii) : Prop := In c [" "%char; ascii_of_nat 9; ascii_of_nat 10; ascii_of_nat 13].
Definition trimmed (s t : text) : Prop :=
  exists before after, s = before ++ t ++ after /\ Forall blank before /\ Forall blank after /\
    (exists c t', t = c :: t' /\ ~ blank c) /\ (exists c t', t = t' ++ [c] /\ ~ blank c).
