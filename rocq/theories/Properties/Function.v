(** Property C79: references to functions. *)
From Verif.Spec Require Import FunctionSpec.
From Verif.Model Require Import Base Function.
From Verif.Proofs Require Import FunctionProofs.

(** [execute S X R free member ne refs st p] runs the program [p], where [free] and [member] are the code of functions and
    member functions and [ne] tells whether their signature is [noexcept]; it gives the states of the objects at the end and
    the results of the calls ([None]: an exception). *)

(** ** C79. A reference to a function stands for the function or object it was last made to refer to *)

(** Calls through references do what direct calls do: the function is called once, with these arguments, on the object itself
    (not a copy), its result or exception is that of the call, and copies refer to the same object. *)
Theorem C79_direct :
  forall (S X R : Type) (free : nat -> X -> store S -> store S * option R) (member : nat -> nat -> X -> store S -> store S * option R)
         (ne : bool) (p : list (step S X)),
  execute S X R free member ne (fun _ => None) [] p = execute S X R free member ne (fun _ => None) [] (direct [] p).
Proof. exact as_direct. Qed.
Print Assumptions C79_direct.

(** If functions neither create nor destroy objects, the calls are valid exactly if the objects then exist. Otherwise the behaviour is
    undefined: a reference does not keep its object alive. *)
Theorem C79_lifetime :
  forall (S X R : Type) (free : nat -> X -> store S -> store S * option R) (member : nat -> nat -> X -> store S -> store S * option R)
         (p : list (step S X)),
  (forall f x st, map present (fst (free f x st)) = map present st) -> (forall f o x st, map present (fst (member f o x st)) = map present st) ->
  ((exists r, execute S X R free member false (fun _ => None) [] p = Ok r) <-> alive_when_called [] p).
Proof. exact valid_calls. Qed.
Print Assumptions C79_lifetime.

Theorem C79_undefined :
  forall (S X R : Type) (free : nat -> X -> store S -> store S * option R) (member : nat -> nat -> X -> store S -> store S * option R)
         (p : list (step S X)) (e : err),
  execute S X R free member false (fun _ => None) [] p = Err e -> e = UB.
Proof. exact dangling_undefined. Qed.
Print Assumptions C79_undefined.

(** Objects are counters; the member function adds its argument to the counter and returns it; the function throws. *)
Definition add_to (_ o x : nat) (st : store nat) : store nat * option nat :=
  match nth_error st o with Some (Some n) => (put nat st o (Some (n + x)), Some (n + x)) | _ => (st, None) end.
Definition throws (_ x : nat) (st : store nat) : store nat * option nat := (st, None).
Definition counting : list (step nat nat) :=
  [Create 1; Create 10; Refer 0 (Member 0 0) false; Copy 1 0; Call 1 2; Refer 0 (Member 1 0) true; Call 0 5; Change 0 100; Call 1 3;
   Refer 1 (Free 0) false; Call 1 4; Destroy 0].
Example C79_keeps : forall f o x st, map present (fst (add_to f o x st)) = map present st.
Proof.
  intros f o x st. unfold add_to. revert o. induction st as [|[n|] st IH]; intros [|o]; cbn; try reflexivity; specialize (IH o);
    destruct (nth_error st o) as [[m|]|]; cbn in *; congruence.
Qed.
Example C79_example :
  execute nat nat nat throws add_to false (fun _ => None) [] counting = Ok ([None; Some 15], [Some 3; Some 15; Some 103; None]) /\
  direct [] counting = [Create 1; Create 10; Direct (Member 0 0) 2; Direct (Member 1 0) 5; Change 0 100; Direct (Member 0 0) 3; Direct (Free 0) 4; Destroy 0] /\
  alive_when_called [] counting /\
  execute nat nat nat throws add_to true (fun _ => None) [] counting = Err Terminate /\
  execute nat nat nat throws add_to false (fun _ => None) [] [Create 1; Refer 0 (Member 0 0) false; Destroy 0; Call 0 2] = Err UB /\
  ~ alive_when_called [] [Create 1; Refer 0 (Member 0 0) false; Destroy 0; Call 0 2 : step nat nat].
Proof.
  repeat split; try reflexivity. cbn. intros (_ & _ & _ & H & _). discriminate.
Qed.
