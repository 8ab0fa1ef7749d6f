(** Model of include/snitch/snitch_function.hpp, [function_ref]: references to functions. *)
From Verif.Spec Require Import FunctionSpec.
From Verif.Model Require Import Base.

Section Function.
Variables (S X R : Type).
(** The code of functions: what it does to all the objects ([None]: destroyed), and its result or the fact that it throws.
    A member function also gets the number of its object, which stands for its address. *)
Definition store := list (option S).
Variable free : nat -> X -> store -> store * option R.
Variable member : nat -> nat -> X -> store -> store * option R.
(** 33, 82: whether the signature is [noexcept]. *)
Variable is_noexcept : bool.

(** 35-47, 84-96 [to_free_function]: a function that takes the address of an object and calls a member function on it;
    undefined if the object does not exist. *)
Definition function_data_ptr := nat -> X -> store -> res (store * option R).
Definition to_free_function (f : nat) : function_data_ptr :=
  fun object x st => match nth_error st object with Some (Some _) => Ok (member f object x st) | _ => Err UB end.
(** 49-61, 98-110 [to_const_free_function]. *)
Definition to_const_free_function (f : nat) : function_data_ptr :=
  fun object x st => match nth_error st object with Some (Some _) => Ok (member f object x st) | _ => Err UB end.

(** 143-158 [data_type], a [std::variant]. The functions in it are pointers. *)
Inductive function_ref :=
| function_ptr (f : nat)
| function_and_data_ptr (data : nat) (ptr : function_data_ptr)
| function_and_const_data_ptr (data : nat) (ptr : function_data_ptr).

(** 165-191, the constructors; functors are objects with the member function [operator()]. *)
Definition refer (t : target) (constant : bool) : function_ref :=
  match t with
  | Free f => function_ptr f
  | Member object f =>
    if constant then function_and_const_data_ptr object (to_const_free_function f) else function_and_data_ptr object (to_free_function f)
  end.

(** 198-224 [operator()]; an exception that leaves a [noexcept] function terminates the program. *)
Definition call (r : function_ref) (x : X) (st : store) : res (store * option R) :=
  do (st', result) <-
    (match r with
     | function_ptr f => Ok (free f x st)
     | function_and_data_ptr data ptr => ptr data x st
     | function_and_const_data_ptr data ptr => ptr data x st
     end) ;;
  match result with None => if is_noexcept then Err Terminate else Ok (st', None) | Some _ => Ok (st', result) end.

(** A call that is not made through a reference. *)
Definition call_directly (t : target) (x : X) (st : store) : res (store * option R) :=
  do (st', result) <-
    (match t with
     | Free f => Ok (free f x st)
     | Member object f => match nth_error st object with Some (Some _) => Ok (member f object x st) | _ => Err UB end
     end) ;;
  match result with None => if is_noexcept then Err Terminate else Ok (st', None) | Some _ => Ok (st', result) end.

Fixpoint put (st : store) (object : nat) (s : option S) : store :=
  match st, object with
  | [], _ => []
  | _ :: st', O => s :: st'
  | x :: st', Datatypes.S n => x :: put st' n s
  end.

(** A program: its references, its objects, and the results of its calls. 161-162: copies copy the variant. The use of a
    reference that does not exist does not compile; it is ignored here. *)
Fixpoint execute (refs : nat -> option function_ref) (st : store) (p : list (step S X)) : res (store * list (option R)) :=
  match p with
  | [] => Ok (st, [])
  | s :: p' =>
    match s with
    | Create s => execute refs (st ++ [Some s]) p'
    | Destroy object => execute refs (put st object None) p'
    | Change object s => execute refs (match nth_error st object with Some (Some _) => put st object (Some s) | _ => st end) p'
    | Refer v t constant => execute (fun w => if w =? v then Some (refer t constant) else refs w) st p'
    | Copy v w => let r := refs w in execute (fun u => if u =? v then r else refs u) st p'
    | Call v x =>
      match refs v with
      | None => execute refs st p'
      | Some r => do (st', result) <- call r x st ;; do (st2, results) <- execute refs st' p' ;; Ok (st2, result :: results)
      end
    | Direct t x => do (st', result) <- call_directly t x st ;; do (st2, results) <- execute refs st' p' ;; Ok (st2, result :: results)
    end
  end.
End Function.
