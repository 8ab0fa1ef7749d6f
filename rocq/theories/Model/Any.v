(** Model of include/snitch/snitch_any.hpp [inplace_any]. *)
From Verif.Model Require Import Base.
From Verif.Spec Require Import AnySpec. (* only for the vocabulary: object, operation, happening *)

(** 21-30, the members: the bytes of [storage], by the object they represent, if any (moving a storage copies bytes, so
    the object is relocated; types for which this is not valid are not distinguished); [deleter], by the type of the
    object it destroys, if it is not the empty function; [id], [None] for [type_id<void>()]. *)
Record any := mkany { storage : option object; deleter : option nat; tid : option nat }.
Definition any_init : any := mkany None None None.

(** 26-29 [release]. *)
Definition release (a : any) : any := mkany (storage a) None None.

(** The program: the storages in existence, the number of objects constructed or destroyed so far, the numbers of
    those destroyed, and what happened. *)
Record world := mkworld { heap : list (option any); dead : list nat; log : list happening }.
Definition no_world : world := mkworld [] [] [].

(** 14-18 [delete_object<type>]: undefined if the bytes are not those of a live object of this type. *)
Definition delete_object (type : nat) (bytes : option object) (w : world) : res world :=
  match bytes with
  | Some o =>
    if (o_type o =? type) && negb (existsb (Nat.eqb (o_number o)) (dead w))
    then Ok (mkworld (heap w) (o_number o :: dead w) (log w ++ [Destroyed o]))
    else Err UB
  | None => Err UB
  end.

(** Access to a storage; using one that does not exist is undefined. *)
Definition get_any (w : world) (i : nat) : res any :=
  match nth_error (heap w) i with Some (Some a) => Ok a | _ => Err UB end.
Definition set_any (w : world) (i : nat) (x : option any) : world := mkworld (put (heap w) i x) (dead w) (log w).

(** 100-103 [reset]. *)
Definition any_reset (w : world) (i : nat) : res world :=
  do a <- get_any w i ;;
  do w1 <- (match deleter a with Some t => delete_object t (storage a) w | None => Ok w end) ;;
  Ok (set_any w1 i (Some (release a))).

(** 68-80 [emplace<type>]; the constructor may throw. *)
Definition any_emplace (w : world) (i type : nat) (ok : bool) : res world :=
  do w1 <- any_reset w i ;;
  if ok then
    let o := mkobject type (length (log w)) in
    Ok (mkworld (put (heap w1) i (Some (mkany (Some o) (Some type) (Some type)))) (dead w1) (log w1 ++ [Constructed o]))
  else Ok w1.

(** 33 default constructor; 37-40 move constructor; 44-51 move assignment; 53-56 in-place constructor; 58-60
    destructor. *)
Definition any_exec (w : world) (op : operation) : res world :=
  match op with
  | Create => Ok (mkworld (heap w ++ [Some any_init]) (dead w) (log w))
  | CreateWith t ok =>
    let w0 := mkworld (heap w ++ [Some any_init]) (dead w) (log w) in
    do w1 <- any_emplace w0 (length (heap w)) t ok ;;
    Ok (if ok then w1 else mkworld (heap w) (dead w1) (log w1))
  | CreateFrom j =>
    do a <- get_any w j ;;
    let w1 := mkworld (heap w ++ [Some (mkany (storage a) (deleter a) (tid a))]) (dead w) (log w) in
    Ok (set_any w1 j (Some (release a)))
  | Assign i j =>
    do w1 <- any_reset w i ;;
    do b <- get_any w1 j ;;
    let w2 := set_any w1 i (Some (mkany (storage b) (deleter b) (tid b))) in
    do b2 <- get_any w2 j ;;
    Ok (set_any w2 j (Some (release b2)))
  | Emplace i t ok => any_emplace w i t ok
  | Clear i => any_reset w i
  | Delete i =>
    do w1 <- any_reset w i ;;
    Ok (set_any w1 i None)
  end.

Fixpoint any_run (w : world) (ops : list operation) : res world :=
  match ops with
  | [] => Ok w
  | op :: ops' => do w1 <- any_exec w op ;; any_run w1 ops'
  end.

(** 62-64 [has_value], 66-68 [type], 83-98 [get<type>]. *)
Definition any_has_value (a : any) : bool := match tid a with Some _ => true | None => false end.
Definition any_get (w : world) (i type : nat) : res object :=
  do a <- get_any w i ;;
  match tid a with
  | None => Err Assert
  | Some t =>
    if t =? type
    then match storage a with
         | Some o => if (o_type o =? type) && negb (existsb (Nat.eqb (o_number o)) (dead w)) then Ok o else Err UB
         | None => Err UB
         end
    else Err Assert
  end.
