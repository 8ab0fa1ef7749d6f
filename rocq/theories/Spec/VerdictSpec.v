(** Verdict on a test case, from the events reported (C19-C21). No reference to the model. *)
From Coq Require Import Arith Ascii String Bool List.
From Verif.Spec Require Import TextSpec Events.
Import ListNotations.
Local Open Scope list_scope.

Section Verdict.
Context {ID : Type}.
Notation event := (event ID).

Definition is_assertion (e : event) : bool :=
  match e with AssertionFailed _ _ _ _ _ _ _ | AssertionSucceeded _ _ _ _ _ => true | _ => false end.
Definition is_failure (e : event) : bool :=
  match e with AssertionFailed _ _ _ _ _ _ _ => true | _ => false end.
Definition is_skip (e : event) : bool := match e with TestCaseSkipped _ _ _ _ _ => true | _ => false end.

(** Something failed; something was skipped. *)
Definition fails (l : list event) : Prop := Exists (fun e => is_failure e = true) l.
Definition skips (l : list event) : Prop := Exists (fun e => is_skip e = true) l.

(** States from the mildest to the most severe. *)
Definition severity (s : case_state) : nat :=
  match s with Success => 0 | Skipped => 1 | AllowedFail => 2 | Failed => 3 end.
Definition worst (a b : case_state) : case_state := if severity a <? severity b then b else a.

(** What an event says of the test. *)
Definition says (e : event) : case_state :=
  match e with
  | AssertionFailed _ _ _ _ _ expected allowed => if expected || allowed then AllowedFail else Failed
  | TestCaseSkipped _ _ _ _ _ => Skipped
  | _ => Success
  end.
Definition verdict (l : list event) : case_state := fold_left (fun s e => worst s (says e)) l Success.

(** Events of the body of test [id], tagged [may]-fail or [should]-fail. *)
Definition of_body (id : ID) (may should : bool) (e : event) : Prop :=
  match e with
  | AssertionFailed i _ _ _ _ expected allowed => i = id /\ expected = should /\ allowed = may
  | AssertionSucceeded i _ _ _ _ | TestCaseSkipped i _ _ _ _ => i = id
  | SectionStarted _ | SectionEnded _ _ _ | User _ => True
  | _ => False
  end.

(** Once the verdict is "skipped" no assertion is reported. *)
Definition silent_once_skipped (l : list event) : Prop :=
  forall before e after, l = before ++ e :: after -> verdict before = Skipped -> is_assertion e = false.

(** The tests ended, with the counters and state reported for each. *)
Definition ended (l : list event) : list (ID * counts * case_state) :=
  flat_map (fun e => match e with TestCaseEnded id _ c s => [(id, c, s)] | _ => [] end) l.

End Verdict.
