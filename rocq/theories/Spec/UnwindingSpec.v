(** Test bodies with objects whose destructors contain code of the test (C80). No reference to the model. *)
From Coq Require Import Arith Ascii String Bool List.
From Verif.Spec Require Import TextSpec FilterSpec Events RunSpec.
Import ListNotations.
Local Open Scope list_scope.

(** As [prog] in Spec/Events.v, and [GScope d b k]: { an object with destructor [d]; b } k. *)
Inductive gprog :=
| GNil
| GAct (n : nat) (k : gprog)
| GThrow (when : nat -> bool) (x : exn) (k : gprog)
| GCheck (line : nat) (w : expectation) (abort : bool) (e k : gprog)
| GSkip (line : nat) (message : nat -> text) (abort : bool) (k : gprog)
| GInSection (s : section_id) (b k : gprog)
| GCapture (texts : list (nat -> list text)) (b k : gprog)
| GCatch (accepts : exn -> bool) (notify : bool) (b k : gprog)
| GScope (d b k : gprog).

(** [p], then [q]. *)
Fixpoint gthen (p q : gprog) : gprog :=
  match p with
  | GNil => q
  | GAct n k => GAct n (gthen k q)
  | GThrow when x k => GThrow when x (gthen k q)
  | GCheck line w abort e k => GCheck line w abort e (gthen k q)
  | GSkip line message abort k => GSkip line message abort (gthen k q)
  | GInSection s b k => GInSection s b (gthen k q)
  | GCapture texts b k => GCapture texts b (gthen k q)
  | GCatch accepts notify b k => GCatch accepts notify b (gthen k q)
  | GScope d b k => GScope d b (gthen k q)
  end.
Fixpoint followed (p q : prog) : prog :=
  match p with
  | Nil => q
  | Act n k => Act n (followed k q)
  | Throw when x k => Throw when x (followed k q)
  | Check line w abort e k => Check line w abort e (followed k q)
  | Skip line message abort k => Skip line message abort (followed k q)
  | InSection s b k => InSection s b (followed k q)
  | Capture texts b k => Capture texts b (followed k q)
  | Catch accepts notify b k => Catch accepts notify b (followed k q)
  end.

(** A test case with a fixture: an object is constructed by [c], used by [b], and destroyed by [d]. *)
Definition with_fixture (c d b : gprog) : gprog := gthen c (GScope d b GNil).

(** The body with the code of the destructors at the end of the blocks of their objects. *)
Fixpoint inlined (p : gprog) : prog :=
  match p with
  | GNil => Nil
  | GAct n k => Act n (inlined k)
  | GThrow when x k => Throw when x (inlined k)
  | GCheck line w abort e k => Check line w abort (inlined e) (inlined k)
  | GSkip line message abort k => Skip line message abort (inlined k)
  | GInSection s b k => InSection s (inlined b) (inlined k)
  | GCapture texts b k => Capture texts (inlined b) (inlined k)
  | GCatch accepts notify b k => Catch accepts notify (inlined b) (inlined k)
  | GScope d b k => followed (inlined b) (followed (inlined d) (inlined k))
  end.

(** No exception leaves this code. *)
Fixpoint never_throws (p : gprog) : Prop :=
  match p with
  | GNil => True
  | GAct _ k => never_throws k
  | GThrow _ _ _ => False
  | GCheck _ w abort e k => abort = false /\ match w with IsTrue _ _ => never_throws e | _ => True end /\ never_throws k
  | GSkip _ _ abort k => abort = false /\ never_throws k
  | GInSection _ b k | GCapture _ b k | GScope _ b k => never_throws b /\ never_throws k
  | GCatch accepts _ b k => ((forall x, accepts x = true) \/ never_throws b) /\ never_throws k
  end.

(** No exception leaves a block with such an object, nor a destructor. *)
Fixpoint undisturbed (p : gprog) : Prop :=
  match p with
  | GNil => True
  | GAct _ k | GThrow _ _ k | GSkip _ _ _ k => undisturbed k
  | GCheck _ _ _ e k => undisturbed e /\ undisturbed k
  | GInSection _ b k | GCapture _ b k | GCatch _ _ b k => undisturbed b /\ undisturbed k
  | GScope d b k => never_throws d /\ never_throws b /\ undisturbed d /\ undisturbed b /\ undisturbed k
  end.

(** The code [p] does not have the effects [n] in [l]. *)
Fixpoint without (l : list nat) (p : gprog) : Prop :=
  match p with
  | GNil => True
  | GAct n k => ~ In n l /\ without l k
  | GThrow _ _ k | GSkip _ _ _ k => without l k
  | GCheck _ _ _ e k => without l e /\ without l k
  | GInSection _ b k | GCapture _ b k | GCatch _ _ b k => without l b /\ without l k
  | GScope d b k => without l d /\ without l b /\ without l k
  end.

(** The checks [l], given by line and what they report, one after the other. *)
Fixpoint checks (l : list (nat * (nat -> payload) * (nat -> bool))) : gprog :=
  match l with
  | [] => GNil
  | (line, what, outcome) :: l' => GCheck line (IsTrue what outcome) false GNil (checks l')
  end.

(** Effects of the code of the test that are in [l]. *)
Definition concerns {ID} (l : list nat) (e : Events.event ID) : bool :=
  match e with User n => existsb (Nat.eqb n) l | _ => false end.

(** What is reported for a check of [checks] of the test case [id]. *)
Definition reported {ID} (id : ID) (sections : list section_id) (captures : list text) (line : nat) (should may : bool) (pass : nat)
  (c : nat * (nat -> payload) * (nat -> bool)) : Events.event ID :=
  let '(_, what, outcome) := c in
  if outcome pass then AssertionSucceeded id sections captures (mkloc line Exact) (what pass)
  else AssertionFailed id sections captures (mkloc line Exact) (what pass) should may.

(** No exception leaves a destructor. *)
Fixpoint calm (p : gprog) : Prop :=
  match p with
  | GNil => True
  | GAct _ k | GThrow _ _ k | GSkip _ _ _ k => calm k
  | GCheck _ _ _ e k => calm e /\ calm k
  | GInSection _ b k | GCapture _ b k | GCatch _ _ b k => calm b /\ calm k
  | GScope d b k => never_throws d /\ calm d /\ calm b /\ calm k
  end.
