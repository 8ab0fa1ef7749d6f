(** Property C98: the cost of matching a test name with a pattern. *)
From Verif.Spec Require Import TextSpec CostSpec.
From Verif.Model Require Import Base StringUtil Cost.
From Verif.Proofs Require Import CostProofs.

(** C98. The iterations are those of a computation with the outcome of [is_match]. *)
Theorem C98_outcome : forall s re : str, outcome (counted_match s re) = is_match s re.
Proof. exact same_outcome. Qed.
Print Assumptions C98_outcome.

(** C98. The number of iterations is at most the length of the pattern times the length of the name, once for each
    wildcard of the pattern; calls are nested once for each wildcard at most. Missing: a bound that does not grow
    exponentially with the number of wildcards, which is refuted below. *)
Theorem C98_cost_partial :
  forall s re : str,
  iterations (counted_match s re) <= (1 + length re) * (1 + length s) ^ wildcards re /\
  nesting (counted_match s re) <= wildcards re.
Proof. exact match_cost. Qed.
Print Assumptions C98_cost_partial.

(** C98. No bound that is polynomial in the lengths: there are patterns of [2 * k + 1] characters, and names of [2 * k]
    characters, for which there are at least [2 ^ k] iterations; calls are then nested once for each wildcard. *)
Theorem C98_cost_refuted :
  forall k : nat, exists re s,
  length re = 2 * k + 1 /\ length s = 2 * k /\ wildcards re = k /\ is_match s re = false /\
  2 ^ k <= iterations (counted_match s re) /\ nesting (counted_match s re) = k.
Proof. exact exponential. Qed.
Print Assumptions C98_cost_refuted.

(** One wildcard; an escaped star is no wildcard; a failed match with five wildcards: more iterations than the product of
    the lengths. *)
Example C98_example :
  wildcards (lit "*world") = 1 /\ counted_match (lit "hello world") (lit "*world") = mkcounted true 19 1 /\
  wildcards (lit "2\*2") = 0 /\ counted_match (lit "2*2") (lit "2\*2") = mkcounted true 3 0 /\
  wildcards (lit "*a*a*a*a*ab") = 5 /\ counted_match (lit "aaaaaaaaaa") (lit "*a*a*a*a*ab") = mkcounted false 2042 5.
Proof. repeat split; vm_compute; reflexivity. Qed.
