(** Model of the output file: src/snitch_file.cpp, include/snitch/snitch_file.hpp. *)
From Verif.Spec Require Import FileSpec.
From Verif.Model Require Import Base Vector StringUtil.

(** A null-terminated string in a memory block: the characters before the first null character. [UB] if there is
    none ([std::fopen] reads past the end of the block). *)
Definition c_string (block : str) : res str :=
  match find_if (aeqb Ascii.zero) block with Some n => Ok (firstn n block) | None => Err UB end.

(** src/snitch_file.cpp:9-28, the constructor: the path given to [std::fopen]. [mp] is [max_path_length].
    Which paths can be opened for writing is a parameter. *)
Definition open_file (mp : nat) (can_open : str -> bool) (path : str) : res str :=
  do (ss, ok) <- append (new_string (mp + 1)) path ;;
  if ok : bool then
    do p <- c_string (vbuf ss) ;;
    if can_open p then Ok p else Err Assert
  else Err Assert.

(** The [file_writer] objects of a program, numbered in the order of their construction: each with its [file_handle]
    ([None] is the null pointer), or [None] once destroyed. [f_count] is the number of files opened so far and [f_log]
    the calls to the C library, in order. *)
Record files := mkfiles { f_objects : list (option (option nat)); f_count : nat; f_log : list file_action }.

(** Using an object that does not exist, or no longer, is undefined behaviour. *)
Definition handle (st : files) (w : nat) : res (option nat) :=
  match nth_error (f_objects st) w with Some (Some h) => Ok h | _ => Err UB end.
Definition set_object (w : nat) (o : option (option nat)) (l : list (option (option nat))) := firstn w l ++ o :: skipn (S w) l.
Definition set_handle (st : files) (w : nat) (h : option nat) : files :=
  mkfiles (set_object w (Some h) (f_objects st)) (f_count st) (f_log st).

Inductive file_op :=
| ODefault                   (** the default constructor, include/snitch/snitch_file.hpp:18 *)
| OOpen                      (** the constructor, src/snitch_file.cpp:9-28, when the file can be opened: a new file *)
| OMove (other : nat)        (** the move constructor, 30-32: swaps a null handle with the other object's *)
| OAssign (w other : nat)    (** the move assignment, 34-37: swaps the handles *)
| OWrite (w : nat) (s : str) (** 47-55 [write] *)
| ODestroy (w : nat).        (** 39-45, the destructor *)

Definition file_step (st : files) (o : file_op) : res files :=
  match o with
  | ODefault => Ok (mkfiles (f_objects st ++ [Some None]) (f_count st) (f_log st))
  | OOpen => Ok (mkfiles (f_objects st ++ [Some (Some (f_count st))]) (S (f_count st)) (f_log st ++ [FOpen (f_count st)]))
  | OMove other =>
    do h <- handle st other ;;
    let st1 := set_handle st other None in
    Ok (mkfiles (f_objects st1 ++ [Some h]) (f_count st1) (f_log st1))
  | OAssign w other =>
    do a <- handle st w ;;
    do b <- handle st other ;;
    Ok (set_handle (set_handle st w b) other a)
  | OWrite w s =>
    do h <- handle st w ;;
    match h with
    | None => Ok st
    | Some f => Ok (mkfiles (f_objects st) (f_count st) (f_log st ++ [FWrite f s]))
    end
  | ODestroy w =>
    do h <- handle st w ;;
    let objects := set_object w None (f_objects st) in
    match h with
    | None => Ok (mkfiles objects (f_count st) (f_log st))
    | Some f => Ok (mkfiles objects (f_count st) (f_log st ++ [FClose f]))
    end
  end.

Fixpoint file_run (st : files) (ops : list file_op) : res files :=
  match ops with [] => Ok st | o :: ops' => do st' <- file_step st o ;; file_run st' ops' end.
Definition no_files : files := mkfiles [] 0 [].
