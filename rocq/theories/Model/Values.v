(** Model of the choice of a text for a value: the overloads of [append] in include/snitch/snitch_append.hpp:280-382.
    Overload resolution itself is not modelled: the kind of a value ([ValueSpec.value]) says which overload is called.
    Not modelled: [long double] (converted by the caller to one of the overloads, or ambiguous), overloads of the user
    (those are the [option text] of Model/Expression.v). *)
From Verif.Spec Require Import TextSpec FloatSpec ValueSpec.
From Verif.Model Require Import Base Vector StringUtil Integer Fixed FloatText File.
Local Open Scope N_scope.

(** [std::is_constant_evaluated()], and SNITCH_APPEND_TO_CHARS (src/snitch_append.cpp:17-72): with [std::to_chars], the
    texts it makes of floating-point numbers and what it leaves behind when there is not enough room (the same each time,
    a simplification: nothing depends on it). *)
Inductive evaluation :=
| AtCompileTime
| AtRunTime (std : option (format -> Z -> str)) (g1 g2 : str).

(** snitch_append.hpp:281-287 [append(std::string_view)]. *)
Definition append_view (ev : evaluation) (ss : sstr) (s : str) : res (sstr * bool) :=
  match ev with AtCompileTime => append_constexpr ss s | AtRunTime _ _ _ => append_fast ss s end.

(** src/snitch_append.cpp:89-113 [append_fast(const void* )] without [std::to_chars] (61-71); with it, [append_ptr]. *)
Definition append_ptr_portable (ss : sstr) (addr : N) : res (sstr * bool) :=
  if addr =? 0 then append ss (lit "nullptr")
  else
    do (ss1, ok) <- append_fast ss (lit "0x") ;;
    if negb ok then Ok (ss1, false)
    else
      do n <- num_digits_u int_fuel 16 addr ;;
      do padding <- csub 16 n ;;
      do (ss2, ok2) <- pad_loop 17 ss1 padding ;;
      if negb ok2 then Ok (ss2, false)
      else append_uint_constexpr 16 ss2 addr.

(** snitch_append.hpp:269-277 [append_constexpr(const void* )]. *)
Definition append_ptr_constexpr (ss : sstr) (addr : N) : res (sstr * bool) :=
  if addr =? 0 then append_constexpr ss (lit "nullptr") else append_constexpr ss (lit "0x????????").

(** snitch_append.hpp:289-295 [append(const void* )]. *)
Definition append_void (ev : evaluation) (ss : sstr) (addr : N) : res (sstr * bool) :=
  match ev with
  | AtCompileTime => append_ptr_constexpr ss addr
  | AtRunTime (Some _) g1 g2 => append_ptr ss addr g1 g2
  | AtRunTime None _ _ => append_ptr_portable ss addr
  end.

(** snitch_append.hpp:297-300 [append(std::nullptr_t)]. *)
Definition append_nullptr (ev : evaluation) (ss : sstr) : res (sstr * bool) := append_view ev ss (lit "nullptr").

(** snitch_append.hpp:302-308 [append(large_uint_t)]. *)
Definition append_large_uint (ev : evaluation) (ss : sstr) (i : N) : res (sstr * bool) :=
  match ev with
  | AtCompileTime | AtRunTime None _ _ => append_uint_constexpr 10 ss i
  | AtRunTime (Some _) g1 g2 => append_uint ss i g1 g2
  end.

(** snitch_append.hpp:309-315 [append(large_int_t)]. *)
Definition append_large_int (ev : evaluation) (ss : sstr) (i : Z) : res (sstr * bool) :=
  match ev with
  | AtCompileTime | AtRunTime None _ _ => append_int_constexpr 10 ss i
  | AtRunTime (Some _) g1 g2 => append_int ss i g1 g2
  end.

(** snitch_append.hpp:317-323 [append(float)], 325-331 [append(double)], with [std::bit_cast]. *)
Definition append_floating (ev : evaluation) (t : traits) (f : format) (ss : sstr) (bits : Z) : res (sstr * bool) :=
  match ev with
  | AtCompileTime | AtRunTime None _ _ => append_float t ss bits (t_precision t)
  | AtRunTime (Some std) g1 g2 => append_float_to_chars ss (std f bits) g1 g2
  end.

(** snitch_append.hpp:333-337 [append(bool)]. *)
Definition append_boolean (ev : evaluation) (ss : sstr) (b : bool) : res (sstr * bool) :=
  append_view ev ss (if b then lit "true" else lit "false").

(** [static_cast] to a 64-bit integer type: modulo 2^64. *)
Definition to_large_uint (z : Z) : N := Z.to_N (z mod 2 ^ 64).
Definition to_large_int (z : Z) : Z := ((z + 2 ^ 63) mod 2 ^ 64 - 2 ^ 63)%Z.

(** [std::string_view(const char* )]: up to the terminator, reading past the block ([UB]) if there is none. *)
Definition view_of_string (memory : str) : res str := c_string memory.

(** snitch_append.hpp:280-374: one value. 339-342 signed integers, 344-347 unsigned integers, 349-352 enumerations,
    354-374 arrays of characters and pointers; [std::string_view(value, std::extent_v<...> - 1u)] of an array of 0
    characters (not standard C++) would wrap around. *)
Fixpoint append_built_in (ev : evaluation) (ss : sstr) (v : value) : res (sstr * bool) :=
  match v with
  | Boolean b => append_boolean ev ss b
  | Integer true _ z => append_large_int ev ss (to_large_int z)
  | Integer false _ z => append_large_uint ev ss (to_large_uint z)
  | Enumerator u => append_built_in ev ss u
  | Float bits => append_floating ev float_traits binary32 ss bits
  | Double bits => append_floating ev double_traits binary64 ss bits
  | View s => append_view ev ss s
  | Array s => do n <- csub (length s) 1 ;; append_view ev ss (firstn n s)
  | CString None => append_nullptr ev ss
  | CString (Some memory) => do s <- view_of_string memory ;; append_view ev ss s
  | NullPtr => append_nullptr ev ss
  | Address a => if a =? 0 then append_nullptr ev ss else append_void ev ss a
  | Code null => if null then append_nullptr ev ss else append_view ev ss (lit "0x????????")
  end.

(** snitch_append.hpp:378-382: several values, a fold with [&&]. *)
Fixpoint append_values (ev : evaluation) (ss : sstr) (l : list value) : res (sstr * bool) :=
  match l with
  | [] => Ok (ss, true)
  | v :: l' =>
    do (ss1, ok) <- append_built_in ev ss v ;;
    if ok : bool then append_values ev ss1 l' else Ok (ss1, false)
  end.
