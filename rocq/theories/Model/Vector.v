(** Model of include/snitch/snitch_vector.hpp and include/snitch/snitch_string.hpp.
    A span/vector/string is a memory block (all [capacity] cells, including stale ones past the end)
    and a size. [small_vector] and [small_string] forward every operation to the span
    (snitch_vector.hpp:231-331, snitch_string.hpp:38-140), so one model serves all three. *)
From Verif.Model Require Import Base.
From Verif.Spec Require Import VectorSpec. (* only for the vocabulary [vop]/[vout] *)

Record vec (A : Type) := mkvec { vbuf : list A; vsize : nat }.
Arguments mkvec {A}.
Arguments vbuf {A}.
Arguments vsize {A}.

(** The elements the user sees: [begin()..end()] (snitch_vector.hpp:117-134, 288-305). *)
Definition vcontent {A} (v : vec A) : list A := firstn (vsize v) (vbuf v).

(** snitch_vector.hpp:23-25 / 231-233. *)
Definition vcap {A} (v : vec A) : nat := length (vbuf v).

(** snitch_vector.hpp:26-28 / 234-236: unsigned subtraction. *)
Definition vavailable {A} (v : vec A) : res nat := csub (vcap v) (vsize v).

(** snitch_vector.hpp:35-37 / 243-245. *)
Definition vclear {A} (v : vec A) : vec A := mkvec (vbuf v) 0.

(** snitch_vector.hpp:40-46 / 248-250. *)
Definition vresize {A} (v : vec A) (n : nat) : res (vec A) :=
  if vcap v <? n then Err Assert else Ok (mkvec (vbuf v) n).

(** snitch_vector.hpp:49-55 / 253-255. *)
Definition vgrow {A} (v : vec A) (n : nat) : res (vec A) :=
  if vcap v <? vsize v + n then Err Assert else Ok (mkvec (vbuf v) (vsize v + n)).

(** snitch_vector.hpp:58-82 / 258-265: [size == capacity] is tested with [==]. *)
Definition vpush {A} (v : vec A) (x : A) : res (vec A) :=
  if vsize v =? vcap v then Err Assert
  else do b <- memwrite (vbuf v) (vsize v) [x] ;; Ok (mkvec b (S (vsize v))).

(** snitch_vector.hpp:85-91 / 268-270. *)
Definition vpop {A} (v : vec A) : res (vec A) :=
  if vsize v =? 0 then Err Assert else Ok (mkvec (vbuf v) (vsize v - 1)).

(** snitch_vector.hpp:94-109, 180-186 / 273-280. Reading a cell outside the block is [UB]. *)
Definition vback {A} (v : vec A) : res A :=
  if vsize v =? 0 then Err Assert
  else match nth_error (vbuf v) (vsize v - 1) with Some x => Ok x | None => Err UB end.

(** snitch_vector.hpp:137-150, 205-210 / 324-331 (read access). *)
Definition vget {A} (v : vec A) (i : nat) : res A :=
  if vsize v <=? i then Err Assert
  else match nth_error (vbuf v) i with Some x => Ok x | None => Err UB end.

(** snitch_vector.hpp:137-142 / 324-326 (write access, [v[i] = x]). *)
Definition vset {A} (v : vec A) (i : nat) (x : A) : res (vec A) :=
  if vsize v <=? i then Err Assert
  else do b <- memwrite (vbuf v) i [x] ;; Ok (mkvec b (vsize v)).

(** The initializer-list constructor, snitch_vector.hpp:222-226: value-initialised cells
    ([std::array<ElemType, MaxLength> data_buffer = {}], line 215), then [push_back] in turn. *)
Fixpoint vpush_all {A} (v : vec A) (l : list A) : res (vec A) :=
  match l with
  | [] => Ok v
  | x :: l' => do v' <- vpush v x ;; vpush_all v' l'
  end.

(** Default construction: [N] value-initialised cells, size 0 (snitch_vector.hpp:215-219). *)
Definition vempty {A} (zero : A) (n : nat) : vec A := mkvec (repeat zero n) 0.

(** The class invariant [size <= capacity]. *)
Definition wf {A} (v : vec A) : Prop := vsize v <= vcap v.

(** One public operation, by dispatch to the functions above. *)
Definition vexec {A} (v : vec A) (o : vop A) : res (vec A * vout A) :=
  match o with
  | Push x => do v' <- vpush v x ;; Ok (v', Done)
  | Pop => do v' <- vpop v ;; Ok (v', Done)
  | Back => do x <- vback v ;; Ok (v, Value x)
  | Get i => do x <- vget v i ;; Ok (v, Value x)
  | Put i x => do v' <- vset v i x ;; Ok (v', Done)
  | Clear => Ok (vclear v, Done)
  | Resize n => do v' <- vresize v n ;; Ok (v', Done)
  | Grow n => do v' <- vgrow v n ;; Ok (v', Done)
  end.

(** A sequence of public operations, with what the user sees; it stops at the first failed assertion
    ([assertion_failed] is [[noreturn]], src/snitch_error_handling.cpp:16-23). Any other error is passed on. *)
Fixpoint vrun {A} (v : vec A) (ops : list (vop A)) : res (vec A * list (vout A)) :=
  match ops with
  | [] => Ok (v, [])
  | o :: ops' =>
    match vexec v o with
    | Ok (v1, out) => do (v2, outs) <- vrun v1 ops' ;; Ok (v2, out :: outs)
    | Err Assert => Ok (v, [Failed])
    | Err e => Err e
    end
  end.
