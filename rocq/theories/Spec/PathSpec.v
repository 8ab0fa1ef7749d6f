(** Which sections a pass through a test body goes through, when exceptions are caught in the test (C56). No reference
    to the model. *)
From Coq Require Import Bool List.
From Verif.Spec Require Import TextSpec Events RunSpec.

(** Exceptions that can leave the code [p] in pass number [pass] after they have left a section of [p]. [flow] tells how
    code ends when its sections do not throw. *)
Fixpoint leaving (pass : nat) (p : prog) (x : exn) : Prop :=
  match p with
  | Nil => False
  | Act _ k | Throw _ _ k | Skip _ _ _ k => leaving pass k x
  | Check _ w _ e k => match w with IsTrue _ _ => leaving pass e x | _ => False end \/ leaving pass k x
  | InSection _ b k => snd (flow pass b) = Some x \/ leaving pass b x \/ leaving pass k x
  | Capture _ b k => leaving pass b x \/ leaving pass k x
  | Catch accepts _ b k => (leaving pass b x /\ accepts x = false) \/ leaving pass k x
  end.

(** An exception that leaves a section leaves the test: it is neither caught in a [try] block nor by a check. *)
Fixpoint never_caught (pass : nat) (p : prog) : Prop :=
  match p with
  | Nil => True
  | Act _ k | Throw _ _ k | Skip _ _ _ k => never_caught pass k
  | Check _ w _ e k =>
    match w with IsTrue _ _ => True | _ => forall x, ~ leaving pass e x end /\ never_caught pass e /\ never_caught pass k
  | InSection _ b k | Capture _ b k => never_caught pass b /\ never_caught pass k
  | Catch accepts _ b k => (forall x, leaving pass b x -> accepts x = false) /\ never_caught pass b /\ never_caught pass k
  end.

(** Sections and nothing else. *)
Fixpoint outline (f : prog) : Prop :=
  match f with
  | Nil => True
  | InSection _ b k => outline b /\ outline k
  | _ => False
  end.

(** In pass number [pass], the code [p] goes through the first sections of [f], up to [rest], until it ends or throws.
    Nothing is asked of a section that is left by an exception. *)
Fixpoint visits (pass : nat) (p f rest : prog) : Prop :=
  match p with
  | Nil => f = rest
  | Act _ k => visits pass k f rest
  | Throw when _ k => if when pass then f = rest else visits pass k f rest
  | Skip _ _ abort k => if abort then f = rest else visits pass k f rest
  | Check _ w abort e k =>
    exists f', visits pass e f f' /\
      match holds pass w (snd (flow pass e)) with
      | None => f' = rest
      | Some ok => if negb ok && abort then f' = rest else visits pass k f' rest
      end
  | InSection s b k =>
    exists g f', f = InSection s g f' /\ (snd (flow pass b) = None -> visits pass b g Nil) /\ visits pass k f' rest
  | Capture _ b k =>
    exists f', visits pass b f f' /\ if snd (flow pass b) then f' = rest else visits pass k f' rest
  | Catch accepts _ b k =>
    exists f', visits pass b f f' /\
      if match snd (flow pass b) with Some y => negb (accepts y) | None => false end then f' = rest else visits pass k f' rest
  end.

(** Code that does the same in every pass. *)
Fixpoint steady (p : prog) : Prop :=
  match p with
  | Nil => True
  | Act _ k => steady k
  | Throw when _ k => (forall n, when n = when 0) /\ steady k
  | Check _ w _ e k =>
    match w with IsTrue what outcome => forall n, what n = what 0 /\ outcome n = outcome 0 | _ => True end /\ steady e /\ steady k
  | Skip _ message _ k => (forall n, message n = message 0) /\ steady k
  | InSection _ b k | Catch _ _ b k => steady b /\ steady k
  | Capture texts b k => Forall (fun t => forall n, t n = t 0) texts /\ steady b /\ steady k
  end.

(** No exception leaves a section. *)
Fixpoint contained (pass : nat) (p : prog) : Prop :=
  match p with
  | Nil => True
  | Act _ k | Throw _ _ k | Skip _ _ _ k => contained pass k
  | InSection _ b k => snd (flow pass b) = None /\ contained pass b /\ contained pass k
  | Check _ _ _ b k | Capture _ b k | Catch _ _ b k => contained pass b /\ contained pass k
  end.

(** All exceptions that are caught are notified, and nothing is skipped. *)
Fixpoint notified (p : prog) : Prop :=
  match p with
  | Nil => True
  | Act _ k | Throw _ _ k => notified k
  | Skip _ _ _ _ => False
  | InSection _ b k | Check _ _ _ b k | Capture _ b k => notified b /\ notified k
  | Catch _ notify b k => notify = true /\ notified b /\ notified k
  end.
