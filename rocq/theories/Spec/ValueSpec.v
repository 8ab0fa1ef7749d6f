(** The texts of values of built-in types (C87). No reference to the model. *)
From Coq Require Import List Ascii String NArith ZArith.
From Verif.Spec Require Import TextSpec NumberSpec FloatSpec.
Import ListNotations.
Local Open Scope list_scope.

(** Integer types, among which the character types, by their number of bits: the numbers they hold. *)
Definition integer_range (signed : bool) (width : nat) (z : Z) : Prop :=
  if signed then (- 2 ^ (Z.of_nat width - 1) <= z < 2 ^ (Z.of_nat width - 1))%Z
  else (0 <= z < 2 ^ Z.of_nat width)%Z.

(** Values of built-in types, and of types converted to [std::string_view].
    [Array] is an array of [N] characters, [CString] a pointer to constant characters and what is in memory from there
    on ([None] is the null pointer), [Address] any other pointer to an object, by its address, [Code] a pointer to a
    function or member function (null or not). *)
Inductive value :=
| Boolean (b : bool)
| Integer (signed : bool) (width : nat) (z : Z)
| Enumerator (underlying : value)
| Float (bits : Z)
| Double (bits : Z)
| View (s : text)
| Array (s : text)
| CString (memory : option text)
| NullPtr
| Address (a : N)
| Code (null : bool).

(** What the language guarantees: numbers in the range of their type, here of at most 64 bits; arrays not empty; an
    enumeration has an integer type or [bool] underneath. What the user must ensure: strings are terminated. *)
Inductive possible : value -> Prop :=
| possible_boolean b : possible (Boolean b)
| possible_integer s w z : (1 <= w <= 64)%nat -> integer_range s w z -> possible (Integer s w z)
| possible_enumerator v : (exists b, v = Boolean b) \/ (exists s w z, v = Integer s w z) -> possible v -> possible (Enumerator v)
| possible_float bits : pattern binary32 bits -> possible (Float bits)
| possible_double bits : pattern binary64 bits -> possible (Double bits)
| possible_view s : possible (View s)
| possible_array s : s <> [] -> possible (Array s)
| possible_null : possible (CString None)
| possible_string s : In Ascii.zero s -> possible (CString (Some s))
| possible_nullptr : possible NullPtr
| possible_address a : (a < 2 ^ 64)%N -> possible (Address a)
| possible_code b : possible (Code b).

Definition quoted (s : string) : text := list_ascii_of_string s.

(** [shows constant to_chars v t]: the text of the value [v] is [t]. [constant]: during constant evaluation, when
    addresses are not known; [to_chars]: the texts the standard library makes of floating-point numbers (at run time,
    if it can). *)
Inductive shows (constant : bool) (to_chars : option (format -> Z -> text)) : value -> text -> Prop :=
| shows_true : shows constant to_chars (Boolean true) (quoted "true")
| shows_false : shows constant to_chars (Boolean false) (quoted "false")
| shows_integer s w z t : writes_int t z -> shows constant to_chars (Integer s w z) t
| shows_enumerator v t : shows constant to_chars v t -> shows constant to_chars (Enumerator v) t
| shows_float bits t : (constant = true \/ to_chars = None) -> prints 7 (number_of binary32 bits) t -> shows constant to_chars (Float bits) t
| shows_float_std bits f : constant = false -> to_chars = Some f -> shows constant to_chars (Float bits) (f binary32 bits)
| shows_double bits t : (constant = true \/ to_chars = None) -> prints 16 (number_of binary64 bits) t -> shows constant to_chars (Double bits) t
| shows_double_std bits f : constant = false -> to_chars = Some f -> shows constant to_chars (Double bits) (f binary64 bits)
| shows_view s : shows constant to_chars (View s) s
| shows_array s c : shows constant to_chars (Array (s ++ [c])) s
| shows_string s rest : ~ In Ascii.zero s -> shows constant to_chars (CString (Some (s ++ Ascii.zero :: rest))) s
| shows_null : shows constant to_chars (CString None) (quoted "nullptr")
| shows_nullptr : shows constant to_chars NullPtr (quoted "nullptr")
| shows_no_address : shows constant to_chars (Address 0) (quoted "nullptr")
| shows_address a hex : constant = false -> a <> 0%N -> writes_fixed 16 16 hex a -> shows constant to_chars (Address a) (quoted "0x" ++ hex)
| shows_some_address a : constant = true -> a <> 0%N -> shows constant to_chars (Address a) (quoted "0x????????")
| shows_no_code : shows constant to_chars (Code true) (quoted "nullptr")
| shows_code : shows constant to_chars (Code false) (quoted "0x????????").

(** The texts of several values in a row. *)
Inductive shows_all (constant : bool) (to_chars : option (format -> Z -> text)) : list value -> text -> Prop :=
| shows_none : shows_all constant to_chars [] []
| shows_more v l t t' : shows constant to_chars v t -> shows_all constant to_chars l t' -> shows_all constant to_chars (v :: l) (t ++ t').

(** Two values of one type among [bool], the integer types and the enumerations. *)
Inductive comparable : value -> value -> Prop :=
| comparable_booleans b b' : comparable (Boolean b) (Boolean b')
| comparable_integers s w z z' : comparable (Integer s w z) (Integer s w z')
| comparable_enumerators v v' : comparable v v' -> comparable (Enumerator v) (Enumerator v').
