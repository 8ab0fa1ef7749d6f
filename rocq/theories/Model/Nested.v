(** Model of the current test: src/snitch_test_data.cpp:10-29 and its use in src/snitch_registry.cpp:584-704
    [registry::run] (611-614, 701). What test cases do otherwise is in Model/Run.v. *)
From Verif.Spec Require Import NestedSpec.
From Verif.Model Require Import Base.

(** src/snitch_test_data.cpp:14-21 [get_current_test]; the argument is [thread_current_test], [None] for the null
    pointer. *)
Definition get_current_test (current : option nat) : res nat :=
  match current with None => Err Terminate | Some t => Ok t end.

(** The checks executed, with the test they are recorded in; the value of [thread_current_test]; and whether an exception
    leaves the code. [DoRun] is [registry::run]: it saves the current test (611-613), runs the code of the test, catches
    all exceptions, restores the current test (701). Simplification: the checks that [run] makes itself are not shown. *)
Fixpoint exec_code (c : code) (current : option nat) : res (list (nat * nat) * option nat * bool) :=
  match c with
  | Done => Ok ([], current, false)
  | DoCheck n k =>
    do t <- get_current_test current ;;
    do (l, current', x) <- exec_code k current ;;
    Ok ((n, t) :: l, current', x)
  | DoThrow => Ok ([], current, true)
  | DoRun t body k =>
    let previous_run := current in
    do (l1, current1, _) <- exec_code body (Some t) ;;
    (* notify_exception_handled and the final events use the current test *)
    do t' <- get_current_test current1 ;;
    let current2 := previous_run in
    do (l2, current', x) <- exec_code k current2 ;;
    Ok (l1 ++ l2, current', x)
  | DoTry body k =>
    do (l1, current1, _) <- exec_code body current ;;
    do (l2, current', x) <- exec_code k current1 ;;
    Ok (l1 ++ l2, current', x)
  end.

(** Threads. [thread_current_test] is thread-local (src/snitch_test_data.cpp:11); [saved] are the variables
    [previous_run] of the active calls of [run] of the thread, innermost first. *)
Record thread := mkthread { th_current : option nat; th_saved : list (option nat) }.
Definition idle : thread := mkthread None [].
Definition thread_do (s : thread_step) (th : thread) : res (thread * list (nat * nat)) :=
  match s with
  | Begin t => Ok (mkthread (Some t) (th_current th :: th_saved th), [])
  | CheckNow n => do t <- get_current_test (th_current th) ;; Ok (th, [(n, t)])
  | End => match th_saved th with [] => Err UB | p :: l => Ok (mkthread p l, []) end
  end.

(** All threads, numbered, and a schedule: which thread does what, in order. The result tells the thread that recorded
    each check. *)
Fixpoint threads_do (schedule : list (nat * thread_step)) (threads : nat -> thread) : res ((nat -> thread) * list (nat * (nat * nat))) :=
  match schedule with
  | [] => Ok (threads, [])
  | (i, s) :: schedule' =>
    do (th, l) <- thread_do s (threads i) ;;
    do (threads', rest) <- threads_do schedule' (fun j => if j =? i then th else threads j) ;;
    Ok (threads', map (pair i) l ++ rest)
  end.
