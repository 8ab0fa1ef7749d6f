(** Small specifications about texts, with no reference to the model:
    truncation, textbook replacement, escape pairs, glob patterns (C02, C03, C06-C11). *)
From Coq Require Import List Arith Ascii String.
Import ListNotations.
Local Open Scope list_scope.

Definition text := list ascii.

(** ** Truncated texts (C03, C51): the first [n-3] characters and three dots, exactly [n] characters;
    only dots if [n < 3]. *)
Definition dots (n : nat) : text := repeat "."%char n.
Definition truncated (n : nat) (s : text) : text := firstn (n - 3) s ++ dots (Nat.min 3 n).

(** A text, truncated only if it is longer than [n]. *)
Definition fit (n : nat) (s : text) : text := if List.length s <=? n then s else truncated n s.

(** ** Replacement of every non-overlapping occurrence, left to right (C06, C07, C09). *)

(** [p] occurs in [s]. *)
Definition occurs (p s : text) : Prop := exists a b, s = a ++ p ++ b.

(** The only occurrence of [p] in [a ++ p] is the final one: so in any text starting with [a ++ p], the
    leftmost occurrence of [p] is at offset [length a]. *)
Definition first_at (p a : text) : Prop := forall a' b', a ++ p = a' ++ p ++ b' -> b' = [].

(** [replaced p r s t]: [t] is [s] with every occurrence of [p], found by scanning from left to right
    without overlap, replaced by [r]. *)
Inductive replaced (p r : text) : text -> text -> Prop :=
| repl_none s : ~ occurs p s -> replaced p r s s
| repl_some a s t : first_at p a -> replaced p r s t -> replaced p r (a ++ p ++ s) (a ++ r ++ t).

(** ** Escape pairs (C10): offsets at which a character starts when [s] is read from the left, a backslash
    and the character after it being read together. *)
Definition bslash : ascii := "\"%char.

Inductive starts_at (s : text) : nat -> Prop :=
| sa_0 : starts_at s 0
| sa_char i c : starts_at s i -> nth_error s i = Some c -> c <> bslash -> starts_at s (S i)
| sa_pair i c : starts_at s i -> nth_error s i = Some bslash -> nth_error s (S i) = Some c ->
                starts_at s (S (S i)).

(** Character [c] stands, unescaped, at offset [i]. A backslash at such an offset is an escape, not a
    character. *)
Definition unescaped_at (s : text) (c : ascii) (i : nat) : Prop :=
  starts_at s i /\ nth_error s i = Some c /\ c <> bslash.

(** ** Glob patterns (C11). *)
Inductive token := Lit (c : ascii) | Any.

(** Reading of a pattern; [None] if it ends with a dangling backslash. *)
Fixpoint tokens (re : text) : option (list token) :=
  match re with
  | [] => Some []
  | x :: re' =>
    if Ascii.eqb x bslash then
      match re' with
      | [] => None
      | y :: re'' => option_map (cons (Lit y)) (tokens re'')
      end
    else option_map (cons (if Ascii.eqb x "*"%char then Any else Lit x)) (tokens re')
  end.

(** A pattern matches the whole of a text. *)
Inductive glob : list token -> text -> Prop :=
| glob_nil : glob [] []
| glob_lit c ts s : glob ts s -> glob (Lit c :: ts) (c :: s)
| glob_any ts s1 s2 : glob ts s2 -> glob (Any :: ts) (s1 ++ s2).
