(** Specification of how many arguments of a command line are kept (C83). No reference to the model. *)
From Coq Require Import Arith Ascii String Bool List.
From Verif.Spec Require Import TextSpec FilterSpec CliSpec.
Import ListNotations.
Local Open Scope list_scope.

(** One for each option with its value, and one for each filter. An option that is unknown, repeated or without its
    value is not kept; the value of a repeated option is then a filter. [seen]: the long names of the options so far. *)
Fixpoint stored (seen : list text) (argv : list text) : nat :=
  match argv with
  | [] => 0
  | arg :: rest =>
    if dashed arg then
      match lookup options arg with
      | Some (long, value) =>
        if existsb (same_text long) seen then stored seen rest
        else
          match value, rest with
          | None, _ => S (stored (long :: seen) rest)
          | Some _, _ :: rest' => S (stored (long :: seen) rest')
          | Some _, [] => 0
          end
      | None =>
        if existsb (same_text arg) catch2_with_value then match rest with _ :: rest' => stored seen rest' | [] => 0 end
        else stored seen rest
      end
    else S (stored seen rest)
  end.
