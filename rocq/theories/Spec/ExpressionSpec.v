(** Expressions in checks, and matchers (C44, C45). No reference to the model. *)
From Coq Require Import Arith Ascii String Bool List.
From Verif.Spec Require Import TextSpec FilterSpec.
Import ListNotations.
Local Open Scope list_scope.

(** The comparisons, how they are written, and which one is printed for a operator that does not hold. *)
Inductive operator := Less | Greater | LessEqual | GreaterEqual | Equal | NotEqual.
Definition written (o : operator) : text :=
  match o with
  | Less => quote " < " | Greater => quote " > " | LessEqual => quote " <= "
  | GreaterEqual => quote " >= " | Equal => quote " == " | NotEqual => quote " != "
  end.
Definition opposite (o : operator) : operator :=
  match o with
  | Less => GreaterEqual | GreaterEqual => Less | Greater => LessEqual | LessEqual => Greater
  | Equal => NotEqual | NotEqual => Equal
  end.

(** What the comparisons of some types evaluate to. They agree with each other if exactly one of a operator and its
    opposite holds, as for numbers and texts (but not for floating-point numbers, because of NaN). *)
Definition comparisons (A B : Type) : Type := operator -> A -> B -> bool.
Definition agreeing {A B} (c : comparisons A B) : Prop := forall o a b, c (opposite o) a b = negb (c o a b).

(** A value as it is printed: its text or, for types that cannot be printed, a question mark. *)
Definition printed (s : option text) : text := match s with Some t => t | None => quote "?" end.

(** A text that is dropped when it is longer than [n]. *)
Definition kept (n : nat) (s : text) : text := if List.length s <=? n then s else [].

(** What a matcher for values of type [A] says of a value: whether it matches, and a description for each status. *)
Inductive match_status := DidNotMatch | Matched.
Record matcher (A : Type) := mkmatcher { matches : A -> bool; describe : A -> match_status -> text }.
Arguments mkmatcher {A}.
Arguments matches {A}.
Arguments describe {A}.
Definition status_of (b : bool) : match_status := if b then Matched else DidNotMatch.

(** Descriptions given by the matchers of the library. *)
Definition quoted (s : text) : text := [ascii_of_nat 39] ++ s ++ [ascii_of_nat 39].
Definition substring_description (pattern message : text) (s : match_status) : text :=
  (match s with Matched => quote "found" | DidNotMatch => quote "could not find" end) ++
  quote " " ++ quoted pattern ++ quote " in " ++ quoted message.
Fixpoint alternatives (l : list text) : text :=
  match l with
  | [] => []
  | [v] => quoted v
  | v :: l' => quoted v ++ quote ", " ++ alternatives l'
  end.
Definition any_of_description (value : text) (l : list text) (s : match_status) : text :=
  quoted value ++ quote " was " ++ (match s with Matched => [] | DidNotMatch => quote "not " end) ++
  quote "found in {" ++ alternatives l ++ quote "}".
