(** References to functions (C79): programs that call functions through references, and directly. No reference to the model. *)
From Coq Require Import Arith List.
Import ListNotations.

(** What can be called: a function, or a member function of an object. Objects are numbered as they are created. *)
Inductive target := Free (f : nat) | Member (object f : nat).

(** The steps of a program. [S]: the states of objects, [X]: arguments. *)
Inductive step (S X : Type) :=
| Create (s : S)                                   (** an object *)
| Destroy (object : nat)
| Change (object : nat) (s : S)                    (** not through a function *)
| Refer (v : nat) (t : target) (constant : bool)   (** the reference [v] is constructed or assigned; to a constant object? *)
| Copy (v w : nat)                                 (** [v] is constructed as a copy of [w], or assigned from it *)
| Call (v : nat) (x : X)                           (** through the reference [v] *)
| Direct (t : target) (x : X).                     (** not through a reference *)
Arguments Create {S X}. Arguments Destroy {S X}. Arguments Change {S X}. Arguments Refer {S X}. Arguments Copy {S X}.
Arguments Call {S X}. Arguments Direct {S X}.

(** What [v] refers to after a program, given backwards: what it was last made to refer to. *)
Fixpoint bound {S X} (past : list (step S X)) (v : nat) : option target :=
  match past with
  | [] => None
  | Refer v' t _ :: past' => if v =? v' then Some t else bound past' v
  | Copy v' w :: past' => if v =? v' then bound past' w else bound past' v
  | _ :: past' => bound past' v
  end.

(** The same program without references: each call is made directly. *)
Fixpoint direct {S X} (past p : list (step S X)) : list (step S X) :=
  match p with
  | [] => []
  | s :: p' =>
    match s with
    | Call v x => match bound past v with Some t => [Direct t x] | None => [] end
    | Refer _ _ _ | Copy _ _ => []
    | _ => [s]
    end ++ direct (s :: past) p'
  end.

(** Objects that do not exist any more are [None]. *)
Definition present {S} (object : option S) : bool := match object with Some _ => true | None => false end.

(** Which objects exist after a program, given backwards. *)
Fixpoint kill (l : list bool) (object : nat) : list bool :=
  match l, object with
  | [], _ => []
  | _ :: l', O => false :: l'
  | x :: l', S n => x :: kill l' n
  end.
Fixpoint living {S X} (past : list (step S X)) : list bool :=
  match past with
  | [] => []
  | Create _ :: past' => living past' ++ [true]
  | Destroy object :: past' => kill (living past') object
  | _ :: past' => living past'
  end.

(** The objects whose member functions are called exist when they are called. *)
Definition exists_for (alive : list bool) (t : option target) : Prop :=
  match t with Some (Member object _) => nth_error alive object = Some true | _ => True end.
Fixpoint alive_when_called {S X} (past p : list (step S X)) : Prop :=
  match p with
  | [] => True
  | s :: p' =>
    match s with
    | Call v _ => exists_for (living past) (bound past v)
    | Direct t _ => exists_for (living past) (Some t)
    | _ => True
    end /\ alive_when_called (s :: past) p'
  end.
