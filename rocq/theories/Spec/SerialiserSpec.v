(** Functions [append] of the user, which write values as texts (C95; README.md:729-777). No reference to the model. *)
From Coq Require Import Arith List Bool Ascii.
From Verif.Spec Require Import TextSpec.
Import ListNotations.
Local Open Scope list_scope.

(** What a function does: from the capacity and the content of a string to its new content, and the boolean returned. *)
Definition behaviour : Type := nat -> text -> text * bool.

(** What the README asks of a function that writes a value with the text [t]. It adds to the string; it returns true if and
    only if there is room for [t], and has then added [t]. *)
Definition serialises (t : text) (f : behaviour) : Prop :=
  forall capacity content, length content <= capacity ->
  exists added ok, f capacity content = (content ++ added, ok) /\ length (content ++ added) <= capacity /\
    (ok = true <-> length (content ++ t) <= capacity) /\ (ok = true -> added = t).

(** What it recommends besides, when there is no room: to write as many characters as possible. Less: to write the
    beginning of the text, or nothing. *)
Definition writes_most (t : text) (f : behaviour) : Prop :=
  forall capacity content, length content <= capacity -> fst (f capacity content) = firstn capacity (content ++ t).
Definition begins (a t : text) : Prop := exists b, t = a ++ b.
Definition writes_beginning (t : text) (f : behaviour) : Prop :=
  forall capacity content, length content <= capacity -> exists added, fst (f capacity content) = content ++ added /\ begins added t.

(** The functions, for one value. *)
Inductive serialiser :=
| Nothing                                (** return true; *)
| Value (t : text)                       (** return append(ss, v); where v is of a type of the library, with the text t *)
| Then (first next : serialiser)         (** if (!append(ss, a)) return false; return append(ss, b); *)
| ByHand (by_growing : bool) (t : text)  (** compare available() with the length of t, grow or resize, write t *)
| Own (t : text) (f : behaviour).        (** any other code, for a value with the text t *)

(** return append(ss, a, b, ...); *)
Definition several (l : list serialiser) : serialiser := fold_right Then Nothing l.

Fixpoint text_of (s : serialiser) : text :=
  match s with
  | Nothing => []
  | Value t | ByHand _ t | Own t _ => t
  | Then a b => text_of a ++ text_of b
  end.

(** All other code in it has a property. *)
Fixpoint own_code (P : text -> behaviour -> Prop) (s : serialiser) : Prop :=
  match s with
  | Own t f => P t f
  | Then a b => own_code P a /\ own_code P b
  | _ => True
  end.
Fixpoint nothing_by_hand (s : serialiser) : Prop :=
  match s with
  | ByHand _ _ => False
  | Then a b => nothing_by_hand a /\ nothing_by_hand b
  | _ => True
  end.

(** A value of a type that has no such function is written as a question mark. *)
Definition text_or_mark (s : option serialiser) : text := match s with Some s => text_of s | None => ["?"%char] end.

(** The texts of several values, one after the other. *)
Definition texts (l : list serialiser) : text := concat (map text_of l).

(** As recommended: all other code writes as many characters as possible, and there is nothing by hand. *)
Definition recommended (t : text) (f : behaviour) : Prop := serialises t f /\ writes_most t f.
Definition plainly (s : serialiser) : Prop := nothing_by_hand s /\ own_code recommended s.
