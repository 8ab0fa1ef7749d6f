(** Property C31: nested runs and threads. *)
From Verif.Spec Require Import NestedSpec.
From Verif.Model Require Import Base Nested.
From Verif.Proofs Require Import NestedProofs.

(** C31. Whatever the nesting of runs and the exceptions thrown, the current test is the same before and after, and each
    check is recorded in the innermost test case enclosing it. *)
Theorem C31_restores :
  forall (c : code) (current : option nat) (l : list (nat * nat)) (current' : option nat) (x : bool),
  exec_code c current = Ok (l, current', x) ->
  current' = current /\ x = snd (owners current c) /\ map (fun y => (fst y, Some (snd y))) l = fst (owners current c).
Proof. exact exec_restores. Qed.
Print Assumptions C31_restores.

(** The program terminates if a check is executed outside any test case, and only then. *)
Theorem C31_terminates :
  forall (c : code) (current : option nat),
  (Exists (fun x => snd x = None) (fst (owners current c)) -> exec_code c current = Err Terminate) /\
  (~ Exists (fun x => snd x = None) (fst (owners current c)) -> exists r, exec_code c current = Ok r).
Proof. exact exec_terminates. Qed.
Print Assumptions C31_terminates.

Theorem C31_inside : forall (c : code) (t : nat), exists r, exec_code c (Some t) = Ok r.
Proof. exact inside_defined. Qed.
Print Assumptions C31_inside.

(** Threads do not influence one another, for every schedule: the checks recorded by a thread, and its current test, are
    the same as if it had been alone; and if the whole program fails then so does one of the threads alone. *)
Theorem C31_threads :
  forall (schedule : list (nat * thread_step)) (threads : nat -> thread),
  match threads_do schedule threads with
  | Ok (threads', log) => forall i, exists threads1,
      threads_do (filter (fun x => fst x =? i) schedule) threads = Ok (threads1, filter (fun x => fst x =? i) log) /\ threads1 i = threads' i
  | Err e => exists i, threads_do (filter (fun x => fst x =? i) schedule) threads = Err e
  end.
Proof. exact threads_independent. Qed.
Print Assumptions C31_threads.

(** Each check of a thread is recorded in the innermost test case that this thread has begun and not ended, for every
    schedule of the threads; the program fails only if some thread makes a check outside any test case (or ends a test
    it has not begun, which no code does). *)
Theorem C31_threads_record :
  forall (schedule : list (nat * thread_step)),
  match threads_do schedule (fun _ => idle) with
  | Ok (_, log) => forall i, recorded [] (of_thread i schedule) = Some (of_thread i log)
  | Err _ => exists i, recorded [] (of_thread i schedule) = None
  end.
Proof. exact threads_record. Qed.
Print Assumptions C31_threads_record.

Example C31_example :
  let c := DoRun 1 (DoCheck 10 (DoRun 2 (DoCheck 20 DoThrow) (DoCheck 11 (DoTry (DoRun 3 (DoCheck 30 Done) (DoCheck 12 DoThrow)) (DoCheck 13 Done))))) Done in
  exec_code c None = Ok ([(10, 1); (20, 2); (11, 1); (30, 3); (12, 1); (13, 1)], None, false) /\
  exec_code (DoRun 1 (DoCheck 10 Done) (DoCheck 2 Done)) None = Err Terminate /\
  (do (_, log) <- threads_do [(0, Begin 5); (1, Begin 6); (0, CheckNow 1); (1, CheckNow 2); (0, End); (1, CheckNow 3)] (fun _ => idle) ;; Ok log) =
    Ok [(0, (1, 5)); (1, (2, 6)); (1, (3, 6))] /\
  (do (_, log) <- threads_do [(0, Begin 5); (1, CheckNow 2)] (fun _ => idle) ;; Ok log) = Err Terminate /\
  recorded [] [Begin 5; CheckNow 1; Begin 6; CheckNow 2; End; CheckNow 3; End] = Some [(1, 5); (2, 6); (3, 5)] /\
  recorded [] [Begin 5; End; CheckNow 1] = None.
Proof. repeat split; vm_compute; reflexivity. Qed.
