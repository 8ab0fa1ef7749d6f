(** Starts and ends of sections in tests that catch exceptions around sections (C65). *)
From Verif.Spec Require Import TextSpec FilterSpec Events RunSpec VerdictSpec TreeSpec PathSpec.
From Verif.Model Require Import Base Filter Run.
From Verif.Proofs Require Import Lists BalanceProofs PathEvents.
From Coq Require Import List Lia.
Import ListNotations.

Lemma nested_climb f l : nested l -> forall k, climb f k l = Some k.
Proof.
  induction 1 as [|s a b A IHa B IHb]; intros k; cbn [climb]; [reflexivity|].
  rewrite climb_app, IHa. cbn [climb]. destruct (Nat.leb_spec (weight f s) (weight f s + k)); [|lia].
  replace (weight f s + k - weight f s) with k by lia. apply IHb.
Qed.

Theorem in_try_balanced cf fuel id line p f tags may should :
  cf_verbosity cf = Full -> id_tags id = tag_string tags -> well_formed (cf_max_tag_length cf) tags -> tagged tags may should ->
  outline f -> notified p -> (forall pass, contained pass p /\ snd (flow pass p) = None /\ visits pass p f Nil) ->
  nesting p <= cf_max_nested cf -> scopes p <= S (cf_max_nested cf) -> capturing p <= cf_max_captures cf -> Nat.max 1 (leaves f) <= fuel ->
  exists st, run cf fuel (mktest id line p) [] = Ok st /\ ends_after_start (brackets (trace st)).
Proof.
  intros V T W F O NT P N SC C L.
  destruct (brackets_in_try cf fuel id line p f [] tags may should V T W F O NT P N SC C L) as (st & body & c & s & E & TR & _ & NB).
  exists st. split; [exact E|]. apply climbs_ends. intros g. exists 0. rewrite TR. cbn [app].
  replace (brackets (TestCaseStarted id line :: body ++ [TestCaseEnded id line c s])) with (brackets body).
  { now apply nested_climb. }
  unfold brackets. cbn [flat_map app]. rewrite flat_map_app. cbn [flat_map app]. now rewrite !app_nil_r.
Qed.
