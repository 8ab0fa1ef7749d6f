(** What exceeding the limits means when the handler of failed assertions throws (C77): the same as a [throw] statement.
    No reference to the model. *)
From Coq Require Import Arith Ascii String Bool List.
From Verif.Spec Require Import TextSpec FilterSpec Events RunSpec.
Import ListNotations.
Local Open Scope list_scope.

Definition too_deep : text := quote "max number of nested sections reached".
Definition too_many : text := quote "max number of captures reached".

(** The body [p] with a [throw] statement in place of the statements that exceed the limits: the sections for which
    [nested] more levels are not enough, the captures of which more than [captures] more would be in scope. [raised m]:
    what the handler throws when called with the message [m]. When there is room for the first values of a CAPTURE, these
    are captured. *)
Fixpoint limited (raised : text -> exn) (nested captures : nat) (p : prog) : prog :=
  match p with
  | Nil => Nil
  | Act n k => Act n (limited raised nested captures k)
  | Throw when x k => Throw when x (limited raised nested captures k)
  | Check line w abort e k => Check line w abort (limited raised nested captures e) (limited raised nested captures k)
  | Skip line message abort k => Skip line message abort (limited raised nested captures k)
  | InSection s b k =>
    match nested with
    | O => Throw (fun _ => true) (raised too_deep) Nil
    | S n => InSection s (limited raised n captures b) (limited raised nested captures k)
    end
  | Capture texts b k =>
    if length texts <=? captures
    then Capture texts (limited raised nested (captures - length texts) b) (limited raised nested captures k)
    else Capture (firstn captures texts) (Throw (fun _ => true) (raised too_many) Nil) Nil
  | Catch accepts notify b k => Catch accepts notify (limited raised nested captures b) (limited raised nested captures k)
  end.

(** Handled exceptions are notified, and statements that exceed the limits are neither in [try] blocks nor in the
    code of a check that looks for exceptions. *)
Fixpoint lets_through (nested captures : nat) (p : prog) : Prop :=
  match p with
  | Nil => True
  | Act _ k | Throw _ _ k | Skip _ _ _ k => lets_through nested captures k
  | Check _ w _ e k =>
    match w with IsTrue _ _ => True | _ => nesting e <= nested /\ capturing e <= captures end /\
    lets_through nested captures e /\ lets_through nested captures k
  | InSection _ b k => lets_through (nested - 1) captures b /\ lets_through nested captures k
  | Capture texts b k => lets_through nested (captures - length texts) b /\ lets_through nested captures k
  | Catch _ notify b k =>
    (notify = true /\ nesting b <= nested /\ capturing b <= captures) /\ lets_through nested captures b /\ lets_through nested captures k
  end.

(** Each CAPTURE has one value. *)
Fixpoint single (p : prog) : Prop :=
  match p with
  | Nil => True
  | Act _ k | Throw _ _ k | Skip _ _ _ k => single k
  | Check _ _ _ e k => single e /\ single k
  | InSection _ b k | Catch _ _ b k => single b /\ single k
  | Capture texts b k => length texts <= 1 /\ single b /\ single k
  end.
