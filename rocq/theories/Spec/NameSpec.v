(** Objects of a test that hold the names of its sections (C94). No reference to the model. *)
From Coq Require Import Arith List Bool.
From Verif.Spec Require Import TextSpec FilterSpec Events RunSpec UnwindingSpec.
Import ListNotations.
Local Open Scope list_scope.

(** Objects are numbered. Their construction and destruction are effects of the code of the test; its other effects have
    numbers that are multiples of 3. *)
Definition constructed (n : nat) : nat := 3 * n + 1.
Definition destroyed (n : nat) : nat := 3 * n + 2.
Definition ordinary (m : nat) : Prop := exists i, m = 3 * i.

(** { object n; b } k, and a temporary object that is destroyed before k. *)
Definition local (n : nat) (b k : gprog) : gprog := GAct (constructed n) (GScope (GAct (destroyed n) GNil) b k).
Definition temporary (n : nat) (k : gprog) : gprog := GAct (constructed n) (GAct (destroyed n) k).

(** [owner s]: the object that holds the name or the description of the section s; [None] for literals. *)
Section Owner.
Variable owner : section_id -> option nat.

(** An object exists after these events. *)
Definition exists_after {ID} (events : list (Events.event ID)) (n : nat) : Prop :=
  exists a b, events = a ++ User (constructed n) :: b /\ ~ In (User (destroyed n)) b.

(** The sections of an event, and: whenever a section is reported, its name exists. *)
Definition sections_of {ID} (e : Events.event ID) : list section_id :=
  match e with
  | SectionStarted s | SectionEnded s _ _ => [s]
  | AssertionFailed _ l _ _ _ _ _ | AssertionSucceeded _ l _ _ _ | TestCaseSkipped _ l _ _ _ => l
  | _ => []
  end.
Definition names_exist {ID} (events : list (Events.event ID)) : Prop :=
  forall before e after s n, events = before ++ e :: after -> In s (sections_of e) -> owner s = Some n -> exists_after before n.

(** Code of destructors: no such object, names of sections are literals, handlers notify. *)
Fixpoint literal (p : gprog) : Prop :=
  match p with
  | GNil => True
  | GAct n k => ordinary n /\ literal k
  | GThrow _ _ k | GSkip _ _ _ k => literal k
  | GCheck _ _ _ e k => literal e /\ literal k
  | GInSection s b k => owner s = None /\ literal b /\ literal k
  | GCapture _ b k => literal b /\ literal k
  | GCatch _ notify b k => notify = true /\ literal b /\ literal k
  | GScope d b k => literal d /\ literal b /\ literal k
  end.

(** The name of each section is a literal or held by an object in whose block the section stands. If [strict], besides: no
    exception leaves the block of such an object, handlers call [notify_exception_handled()], and destructors have only
    sections named by literals. *)
Inductive named (strict : bool) : list nat -> gprog -> Prop :=
| named_nil objects : named strict objects GNil
| named_act objects m k : ordinary m -> named strict objects k -> named strict objects (GAct m k)
| named_throw objects when x k : named strict objects k -> named strict objects (GThrow when x k)
| named_check objects line w abort e k : named strict objects e -> named strict objects k -> named strict objects (GCheck line w abort e k)
| named_skip objects line message abort k : named strict objects k -> named strict objects (GSkip line message abort k)
| named_section objects s b k : (forall n, owner s = Some n -> In n objects) -> named strict objects b -> named strict objects k ->
    named strict objects (GInSection s b k)
| named_capture objects texts b k : named strict objects b -> named strict objects k -> named strict objects (GCapture texts b k)
| named_catch objects accepts notify b k : (strict = true -> notify = true) -> named strict objects b -> named strict objects k ->
    named strict objects (GCatch accepts notify b k)
| named_scope objects d b k : (strict = true -> literal d) -> named strict objects d -> named strict objects b -> named strict objects k ->
    named strict objects (GScope d b k)
| named_local objects n b k : ~ In n objects -> (strict = true -> never_throws b) -> named strict (n :: objects) b -> named strict objects k ->
    named strict objects (local n b k).
End Owner.
