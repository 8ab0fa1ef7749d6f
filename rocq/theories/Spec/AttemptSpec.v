(** Destructors with checks of all kinds (C80). No reference to the model. *)
From Coq Require Import Arith Bool List.
From Verif.Spec Require Import TextSpec FilterSpec Events RunSpec UnwindingSpec.
Import ListNotations.
Local Open Scope list_scope.

(** Checks one after the other, then [k]: the line, what is checked, and the exception that the checked code throws, if any. *)
Fixpoint attempts (l : list (nat * expectation * option exn)) (k : gprog) : gprog :=
  match l with
  | [] => k
  | (line, w, x) :: l' =>
    GCheck line w false (match x with None => GNil | Some e => GThrow (fun _ => true) e GNil end) (attempts l' k)
  end.

(** The exception is expected to be caught by the check. *)
Definition catches (a : nat * expectation * option exn) : Prop :=
  match a with (_, IsTrue _ _, Some _) => False | _ => True end.

(** Success and contents of the report of a check. *)
Definition said {ID} (e : Events.event ID) : option (bool * payload) :=
  match e with
  | AssertionSucceeded _ _ _ _ what => Some (true, what)
  | AssertionFailed _ _ _ _ what _ _ => Some (false, what)
  | _ => None
  end.

(** What should be said of a check. *)
Definition due (max_message pass : nat) (a : nat * expectation * option exn) : option (bool * payload) :=
  let '(_, w, x) := a in
  conclusion max_message pass w (match x with None => RunSpec.Finished | Some e => Threw e (mkctx [] [] (mkloc 0 Exact)) [] end).
