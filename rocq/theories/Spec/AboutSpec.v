(** What a report about a test may be (C114). No reference to the model. *)
From Coq Require Import String Bool List.
From Verif.Spec Require Import TextSpec FilterSpec Events CutServiceSpec CutXmlSpec.
Import ListNotations.
Local Open Scope list_scope.

(** An event that is reported while the test [id] runs, whose tags say that it [may] and that it [should] fail: if it is about a
    test, then about this one; and a failure is reported with what the tags say. The only failure that is not expected in a test
    that should fail is the one that says that nothing else failed. *)
Definition speaks_of {ID} (id : ID) (may should : bool) (e : event ID) : Prop :=
  match e with
  | AssertionFailed i _ _ _ what expected allowed =>
    i = id /\ allowed = may /\ (expected = should \/ expected = false /\ what = Message (quote "expected test to fail"))
  | AssertionSucceeded i _ _ _ _ | TestCaseSkipped i _ _ _ _ => i = id
  | SectionStarted _ | SectionEnded _ _ _ | User _ => True
  | _ => False
  end.

(** A message (its kind, and the values in it) about the test of which this is the name; or about a section. *)
Definition message_about (name : text) (m : text * list (text * text)) : Prop :=
  (In (fst m) [quote "testFailed"; quote "testIgnored"; quote "testStdOut"] /\ exists values, snd m = (quote "name", name) :: values) \/
  In (fst m) [quote "blockOpened"; quote "blockClosed"].

(** The lines about a test that is run: it starts, then there are messages about it, and it ends. *)
Definition lines_about (name : text) (messages : list (text * list (text * text))) (lines : text) : Prop :=
  exists took,
    lines = service_line (quote "testStarted") [(quote "name", name)] ++ flat_map (fun m => service_line (fst m) (snd m)) messages ++
            service_line (quote "testFinished") ((quote "name", name) :: took) /\
    Forall (message_about name) messages.

(** The lines of the XML report about a test that is run: one element, in which there are only elements about sections, checks and
    skips; the last says what became of the test. *)
Definition xml_inside (l : xml_line) : Prop :=
  match l with
  | Start name _ | Stop name =>
    In name [quote "Section"; quote "Info"; quote "Success"; quote "Failure"; quote "Expression"; quote "Original"; quote "Expanded"; quote "Skip"]
  | Empty name _ => name = quote "OverallResults"
  | Whole _ _ => False
  | Contents _ => True
  end.
Definition xml_about (name : text) (success : bool) (lines : list xml_line) : Prop :=
  exists attributes inside results,
    lines = [Start (quote "TestCase") ((quote "name", name) :: attributes)] ++ inside ++
            [Empty (quote "OverallResult") ((quote "success", if success then quote "true" else quote "false") :: results); Stop (quote "TestCase")] /\
    Forall xml_inside inside.
