(** The cost of matching a test name with a filter (C98). No reference to the model. *)
From Coq Require Import Arith Ascii List.
Import ListNotations.

(** The wildcards of a pattern: stars that are not escaped. *)
Fixpoint wildcards (pattern : list ascii) : nat :=
  match pattern with
  | [] => 0
  | c :: rest =>
    if Ascii.eqb c "\" then match rest with [] => 0 | _ :: rest' => wildcards rest' end
    else (if Ascii.eqb c "*" then 1 else 0) + wildcards rest
  end.
