(** Type-erased storages (C46): what they hold after a sequence of operations. No reference to the model. *)
From Coq Require Import Arith Bool List.
Import ListNotations.
Local Open Scope list_scope.

(** Objects: each one constructed gets a new number; types are numbered too. *)
Record object := mkobject { o_type : nat; o_number : nat }.

(** Construction and destruction of objects. *)
Inductive happening := Constructed (o : object) | Destroyed (o : object).

(** How often something happened. *)
Definition object_dec (a b : object) : {a = b} + {a <> b}.
Proof. decide equality; apply Nat.eq_dec. Qed.
Definition happening_dec (a b : happening) : {a = b} + {a <> b}.
Proof. decide equality; apply object_dec. Qed.
Notation occurrences h l := (count_occ happening_dec l h).

(** Operations. Storages are numbered in the order of their creation. [ok] tells whether the constructor of the object
    succeeds (otherwise it throws). *)
Inductive operation :=
| Create                              (** inplace_any<N> x; *)
| CreateWith (type : nat) (ok : bool) (** inplace_any<N> x{std::in_place_type_t<type>{}, ...}; *)
| CreateFrom (j : nat)                (** inplace_any<N> x{std::move(y_j)}; *)
| Assign (i j : nat)                  (** y_i = std::move(y_j); *)
| Emplace (i : nat) (type : nat) (ok : bool) (** y_i.emplace<type>(...); *)
| Clear (i : nat)                     (** y_i.reset(); *)
| Delete (i : nat).                   (** end of the lifetime of y_i *)

(** What the storages hold: [None] for a storage that does not exist any more, [Some None] for an empty one. *)
Definition contents := list (option (option object)).

Fixpoint put {A} (l : list A) (i : nat) (x : A) : list A :=
  match l, i with
  | [], _ => []
  | _ :: l', 0 => x :: l'
  | y :: l', S i' => y :: put l' i' x
  end.

(** The operation uses storages that exist. *)
Definition exists_in (c : contents) (i : nat) : Prop := exists x, nth_error c i = Some (Some x).
Definition possible (c : contents) (op : operation) : Prop :=
  match op with
  | Create | CreateWith _ _ => True
  | CreateFrom j => exists_in c j
  | Assign i j => exists_in c i /\ exists_in c j
  | Emplace i _ _ | Clear i | Delete i => exists_in c i
  end.

Definition held (c : contents) (i : nat) : option object :=
  match nth_error c i with Some (Some x) => x | _ => None end.
Definition gone (x : option object) : list happening := match x with Some o => [Destroyed o] | None => [] end.

(** One operation; [n] is the number for a new object. Assigning a storage to itself destroys what it holds. *)
Definition effect (c : contents) (n : nat) (op : operation) : contents * list happening :=
  match op with
  | Create => (c ++ [Some None], [])
  | CreateWith t true => (c ++ [Some (Some (mkobject t n))], [Constructed (mkobject t n)])
  | CreateWith t false => (c, [])
  | CreateFrom j => (put c j (Some None) ++ [Some (held c j)], [])
  | Assign i j => if i =? j then (put c i (Some None), gone (held c i))
                  else (put (put c i (Some (held c j))) j (Some None), gone (held c i))
  | Emplace i t true => (put c i (Some (Some (mkobject t n))), gone (held c i) ++ [Constructed (mkobject t n)])
  | Emplace i t false => (put c i (Some None), gone (held c i))
  | Clear i => (put c i (Some None), gone (held c i))
  | Delete i => (put c i None, gone (held c i))
  end.

(** A sequence of possible operations, with what happened. The number of an object is the number of happenings before
    its operation. *)
Inductive history : list operation -> contents -> list happening -> Prop :=
| no_operation : history [] [] []
| one_more ops c l op : history ops c l -> possible c op ->
    history (ops ++ [op]) (fst (effect c (length l) op)) (l ++ snd (effect c (length l) op)).
