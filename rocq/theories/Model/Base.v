(** Common vocabulary of the model: strings, outcomes, checked arithmetic, memory blocks.
    Nothing here models a particular snitch function; these are the C++ language/library
    primitives that the modelled functions are written with. *)
From Coq Require Export Bool Arith NArith ZArith Ascii String Lia List.
Export ListNotations.

(** A [std::string_view] is modelled by its content (lifetime/aliasing not modelled). *)
Definition str := list ascii.

(** String literals. *)
Definition lit (x : string) : str := list_ascii_of_string x.

(** Ways an operation can fail.
    [Assert]: [assertion_failed(...)] was called (src/snitch_error_handling.cpp:16-23, never returns);
    [Terminate]: [terminate_with(...)] was called (src/snitch_error_handling.cpp:8-14);
    [UB]: out-of-bounds access or invalid iterator range;
    [Wrap]: an unsigned subtraction wrapped around;
    [Fuel]: the fuel given to a non-structural loop was exhausted (the loop did not end yet). *)
Inductive err := Assert | Terminate | UB | Wrap | Fuel.

Inductive res (A : Type) :=
| Ok (a : A)
| Err (e : err).
Arguments Ok {A} a.
Arguments Err {A} e.

Definition bind {A B} (x : res A) (f : A -> res B) : res B :=
  match x with Ok a => f a | Err e => Err e end.

Declare Scope res_scope.
Delimit Scope res_scope with res.
Notation "'do' x <- a ;; b" := (bind a (fun x => b))
  (at level 200, x pattern, a at level 100, b at level 200) : res_scope.
Open Scope res_scope.

(** [std::size_t] subtraction, with wrap-around as a distinct outcome. *)
Definition csub (a b : nat) : res nat := if b <=? a then Ok (a - b) else Err Wrap.

(** [std::memcpy]/[std::memmove] of [data] to offset [pos] of a memory block. *)
Definition memwrite {A} (b : list A) (pos : nat) (data : list A) : res (list A) :=
  if pos + length data <=? length b
  then Ok (firstn pos b ++ data ++ skipn (pos + length data) b)
  else Err UB.

(** [std::rotate(b + i, b + m, b + e)] on a memory block. *)
Definition rotate {A} (b : list A) (i m e : nat) : res (list A) :=
  if (i <=? m) && (m <=? e) && (e <=? length b)
  then Ok (firstn i b ++ firstn (e - m) (skipn m b) ++ firstn (m - i) (skipn i b) ++ skipn e b)
  else Err UB.

(** Equality tests on characters and strings. *)
Definition aeqb : ascii -> ascii -> bool := Ascii.eqb.

Fixpoint seqb (a b : str) : bool :=
  match a, b with
  | [], [] => true
  | x :: a', y :: b' => aeqb x y && seqb a' b'
  | _, _ => false
  end.

(** [std::string_view::starts_with]. *)
Fixpoint starts_with (s p : str) {struct p} : bool :=
  match p, s with
  | [], _ => true
  | c :: p', d :: s' => aeqb c d && starts_with s' p'
  | _ :: _, [] => false
  end.

(** [std::string_view::find(pattern)]: first offset at which [p] occurs ([None] = npos). *)
Fixpoint find (s p : str) : option nat :=
  if starts_with s p then Some 0
  else match s with
       | [] => None
       | _ :: s' => match find s' p with Some n => Some (S n) | None => None end
       end.

(** [std::string_view::find(pattern, pos)]. *)
Definition find_from (s p : str) (pos : nat) : option nat :=
  if pos <=? length s
  then match find (skipn pos s) p with Some n => Some (pos + n) | None => None end
  else None.

(** [std::string_view::substr(pos, n)] with [pos <= size]. *)
Definition substr {A} (s : list A) (pos n : nat) : list A := firstn n (skipn pos s).

(** [std::string_view::find_first_of(set)] / [find_first_not_of(set)] (offset of the first
    character for which [f] holds). *)
Fixpoint find_if {A} (f : A -> bool) (s : list A) : option nat :=
  match s with
  | [] => None
  | c :: s' => if f c then Some 0 else match find_if f s' with Some n => Some (S n) | None => None end
  end.

(** Offset of the last character for which [f] holds ([find_last_of]/[find_last_not_of]). *)
Definition find_last_if {A} (f : A -> bool) (s : list A) : option nat :=
  match find_if f (rev s) with Some n => Some (length s - 1 - n) | None => None end.
