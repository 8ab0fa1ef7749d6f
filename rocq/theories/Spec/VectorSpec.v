(** What a user expects of a bounded vector: a plain list with a capacity (C01).
    No reference to the model. *)
From Coq Require Import List Arith.
Import ListNotations.

(** The public operations. *)
Inductive vop (A : Type) :=
| Push (x : A)          (* push_back(x) *)
| Pop                   (* pop_back() *)
| Back                  (* back() *)
| Get (i : nat)         (* v[i] *)
| Put (i : nat) (x : A) (* v[i] = x *)
| Clear                 (* clear() *)
| Resize (n : nat)      (* resize(n) *)
| Grow (n : nat).       (* grow(n) *)
Arguments Push {A}. Arguments Pop {A}. Arguments Back {A}. Arguments Get {A}. Arguments Put {A}.
Arguments Clear {A}. Arguments Resize {A}. Arguments Grow {A}.

(** What the user sees of one operation: it returned (with or without a value), or the library reported a
    failed assertion. *)
Inductive vout (A : Type) := Done | Value (x : A) | Failed.
Arguments Done {A}. Arguments Value {A}. Arguments Failed {A}.

(** The documented [Requires] clauses. *)
Definition requires {A} (cap : nat) (l : list A) (o : vop A) : Prop :=
  match o with
  | Push _ => length l < cap
  | Pop | Back => l <> []
  | Get i | Put i _ => i < length l
  | Clear => True
  | Resize n => n <= cap
  | Grow n => length l + n <= cap
  end.

(** Effect of an operation whose [Requires] clause holds: from content [l], with the given outcome, to
    content [l']. When growing, the added elements are unspecified. *)
Definition effect {A} (l : list A) (o : vop A) (out : vout A) (l' : list A) : Prop :=
  match o with
  | Push x => out = Done /\ l' = l ++ [x]
  | Pop => out = Done /\ exists x, l = l' ++ [x]
  | Back => l' = l /\ exists l0 x, l = l0 ++ [x] /\ out = Value x
  | Get i => l' = l /\ exists x, nth_error l i = Some x /\ out = Value x
  | Put i x => out = Done /\ length l' = length l /\ nth_error l' i = Some x /\
               forall j, j <> i -> nth_error l' j = nth_error l j
  | Clear => out = Done /\ l' = []
  | Resize n => out = Done /\ length l' = n /\
                forall j, j < n -> j < length l -> nth_error l' j = nth_error l j
  | Grow n => out = Done /\ length l' = length l + n /\
              forall j, j < length l -> nth_error l' j = nth_error l j
  end.

(** [conforms cap l ops outs l']: starting from content [l] and applying [ops] in turn, the user may see
    [outs] and end with content [l']. A failed assertion is reported exactly when the [Requires] clause is
    violated, and nothing happens after it ([assertion_failed] does not return). *)
Inductive conforms {A} (cap : nat) : list A -> list (vop A) -> list (vout A) -> list A -> Prop :=
| conf_nil l : conforms cap l [] [] l
| conf_fail l o ops : ~ requires cap l o -> conforms cap l (o :: ops) [Failed] l
| conf_step l o ops out outs l1 l2 :
    requires cap l o -> effect l o out l1 -> length l1 <= cap ->
    conforms cap l1 ops outs l2 -> conforms cap l (o :: ops) (out :: outs) l2.
