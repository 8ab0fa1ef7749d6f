(** Examples for C86. *)
From Verif.Spec Require Import TextSpec FilterSpec ExpressionSpec CaptureSpec Events MacroSpec EquivalenceSpec.
From Verif.Model Require Import Base Vector StringUtil Filter Run Expression Macros.
From Verif.Proofs Require Import Lists RunFacts MacroProofs MacroFacts.
Local Open Scope list_scope.

(** The example of C67, with one CAPTURE for each value. *)
Definition captured_apart : code :=
  match every_macro with
  | Captured [x; y] [v; w] b k => Captured [x] [v] (Captured [y] [w] b Done) k
  | b => b
  end.
Lemma captured_apart_rewritten : rewritten captures_split every_macro captured_apart.
Proof. apply ByRule. exact (Split (quote "x") [quote " f(y, z) "] _ [_] _ _). Qed.
Lemma captured_apart_proper : proper 40 captured_apart.
Proof.
  pose proof every_macro_proper as (_ & L & B & K). cbn [captured_apart every_macro proper].
  inversion L as [|? ? L1 L2]; subst. split; [reflexivity|]. split; [constructor; [exact L1|constructor]|]. split; [|exact K].
  split; [reflexivity|]. split; [exact L2|]. split; [exact B|exact I].
Qed.

(** A CHECK_FALSE and a REQUIRE_THAT that fail, and as they are documented. *)
Definition unlike_zero : nat -> condition := fun _ => Single nat (fun n => negb (n =? 0)) digit 1.
Definition odd_number : nat -> match_request := fun pass => request nat is_even (3 + pass).
Definition with_false_and_that : code :=
  Section_ (mksec (quote "A") [] 2)
    (Do 3 false (Holds false (quote "y") (RunTime unlike_zero)) (Effect 1 Done)
    (Do 4 true (That (quote "n") (quote "even") (RunTime odd_number)) Done
    (Effect 2 Done))) Done.
Definition with_not_and_equal : code :=
  Section_ (mksec (quote "A") [] 2)
    (Do 3 false (Holds true (quote "!(y)") (RunTime (fun pass => Undecomposed (negb (holds (unlike_zero pass)))))) (Effect 1 Done)
    (Do 4 true (Holds true (quote "n == even") (RunTime (fun pass => Matching nat is_even true (3 + pass)))) Done
    (Effect 2 Done))) Done.
Lemma check_example_rewritten : rewritten check_rewritten with_false_and_that with_not_and_equal.
Proof.
  apply InSection_; [|apply Same]. eapply Again; [apply ByRule, (False_is_not _ _ _ (quote "!(y)"))|]. apply InDo; [apply Same|].
  apply ByRule. exact (That_is_equal 4 true (quote "n") (quote "even") (quote "n == even") (RunTime odd_number) Done _).
Qed.
Lemma check_example_proper : proper 40 with_false_and_that /\ proper 40 with_not_and_equal.
Proof.
  split; cbn [proper with_false_and_that with_not_and_equal]; repeat split.
  constructor; [|constructor]. intros pass [|]; cbn; lia.
Qed.

(** A CONSTEXPR_REQUIRE, and as it is documented. *)
Definition constexpr_test (a b : nat) : code :=
  Do 2 true (Holds true (quote "1 > c") (BothTimes (compared Greater 1 a) (fun pass => compared Greater 1 b))) (Effect 1 Done) (Effect 2 Done).
Definition in_two_steps (a b : nat) : code :=
  Do 2 true (Holds true (quote "1 > c") (RunTime (fun _ => compared Greater 1 a))) Done
  (Do 2 true (Holds true (quote "1 > c") (RunTime (fun pass => compared Greater 1 b))) (Effect 1 Done) (Effect 2 Done)).
Lemma constexpr_rewritten a b : rewritten evaluated_when (constexpr_test a b) (in_two_steps a b).
Proof. eapply Again; apply ByRule; [apply Both_holds|apply Compiled_holds]. Qed.
