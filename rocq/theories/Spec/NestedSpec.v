(** Test cases run inside one another, and on several threads (C31). No reference to the model. *)
From Coq Require Import Arith Bool List.
Import ListNotations.

(** Code that runs test cases, possibly nested; checks and test cases are numbered. *)
Inductive code :=
| Done
| DoCheck (n : nat) (k : code)          (** a check (or any macro that needs the current test), then [k] *)
| DoThrow                               (** throws an exception *)
| DoRun (t : nat) (body k : code)       (** runs the test case [t], whose code is [body], then [k] *)
| DoTry (body k : code).                (** runs [body], catching any exception, then [k] *)

(** The checks executed, each with the innermost enclosing test case (if any), and whether the code ends with an
    exception. A test case that throws is ended (its exceptions are caught). *)
Fixpoint owners (inside : option nat) (c : code) : list (nat * option nat) * bool :=
  match c with
  | Done => ([], false)
  | DoCheck n k => let (l, x) := owners inside k in ((n, inside) :: l, x)
  | DoThrow => ([], true)
  | DoRun t body k => let (l, x) := owners inside k in (fst (owners (Some t) body) ++ l, x)
  | DoTry body k => let (l, x) := owners inside k in (fst (owners inside body) ++ l, x)
  end.

(** What a thread does, step by step. *)
Inductive thread_step := Begin (t : nat) | CheckNow (n : nat) | End.

(** The checks of one thread, each with the innermost test case begun and not ended before it on that thread; [None] if
    the thread makes a check outside any test case, or ends a test case it has not begun. *)
Fixpoint recorded (open : list nat) (steps : list thread_step) : option (list (nat * nat)) :=
  match steps with
  | [] => Some []
  | Begin t :: steps' => recorded (t :: open) steps'
  | CheckNow n :: steps' =>
    match open with [] => None | t :: _ => option_map (cons (n, t)) (recorded open steps') end
  | End :: steps' => match open with [] => None | _ :: open' => recorded open' steps' end
  end.

(** What one thread does in a schedule of several threads. *)
Definition of_thread {A} (i : nat) (l : list (nat * A)) : list A := map snd (filter (fun x => fst x =? i) l).
