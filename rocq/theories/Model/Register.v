(** Model of registration in full: what is printed when it fails, what the handler of failed assertions is told, and what is
    left in the registry. *)
From Verif.Spec Require Import NumberSpec PrintSpec Events.
From Verif.Model Require Import Base Vector StringUtil Print Filter Run Cli Session Reporters.

Section Register.
Variable mm : nat.             (** [max_message_length] *)
Variable with_color : bool.    (** of the registry *)

Definition error_prefix : piece := make_colored (lit "error:") with_color color_fail.

(** src/snitch_registry.cpp:351-377 [add_impl]; the last result is what [assertion_failed] is called with, if it is. *)
Definition try_add_test (max_tests mn : nat) (tests : list test_id) (id : test_id) : res (list test_id * list str * option str) :=
  do av <- csub max_tests (length tests) ;;
  if av =? 0 then
    do out <- registry_print mm
      [error_prefix; Text (lit " max number of test cases reached; please increase 'SNITCH_MAX_TEST_CASES' (currently ");
       Number (decimal max_tests); Text (lit ")." ++ newline)] ;;
    Ok (tests, out, Some (lit "max number of test cases reached"))
  else
    let tests1 := tests ++ [id] in
    do full <- make_full_name mn id ;;
    match full with
    | [] =>
      do out <- registry_print mm
        [error_prefix; Text (lit " max length of test name reached; please increase 'SNITCH_MAX_TEST_NAME_LENGTH' (currently ");
         Number (decimal mn); Text (lit ")" ++ newline ++ lit ".")] ;;
      Ok (tests1, out, Some (lit "test case name exceeds max length"))
    | _ => Ok (tests1, [], None)
    end.

(** src/snitch_registry.cpp:303-335 [add_reporter]. *)
Definition try_add_reporter (max_reporters : nat) (reporters : list reporter) (p : reporter) : res (list reporter * list str * option str) :=
  do av <- csub max_reporters (length reporters) ;;
  if av =? 0 then
    do out <- registry_print mm
      [error_prefix; Text (lit " max number of reporters reached; please increase 'SNITCH_MAX_REGISTERED_REPORTERS' (currently ");
       Number (decimal max_reporters); Text (lit ")." ++ newline)] ;;
    Ok (reporters, out, Some (lit "max number of reporters reached"))
  else
    match Base.find (r_name p) (lit "::") with
    | Some _ =>
      do out <- registry_print mm
        [error_prefix; Text (lit " reporter name cannot contains '::' (trying to register '"); Text (r_name p); Text (lit "')" ++ newline ++ lit ".")] ;;
      Ok (reporters, out, Some (lit "invalid reporter name"))
    | None => Ok (reporters ++ [p], [], None)
    end.

(** Registrations one after the other with a handler of failed assertions that throws, each exception being caught. *)
Fixpoint attempts {A} (add : list A -> A -> res (list A * list str * option str)) (l xs : list A)
  : res (list A * list (list str * option str)) :=
  match xs with
  | [] => Ok (l, [])
  | x :: xs' =>
    do (l1, out, failed) <- add l x ;;
    do (l2, rest) <- attempts add l1 xs' ;;
    Ok (l2, (out, failed) :: rest)
  end.

(** Registrations one after the other with the handler of the library, src/snitch_error_handling.cpp:8-14 [terminate_with]:
    what is printed, and whether the program is terminated. *)
Fixpoint until_failure {A} (add : list A -> A -> res (list A * list str * option str)) (l xs : list A)
  : res (list A * list str * bool) :=
  match xs with
  | [] => Ok (l, [], false)
  | x :: xs' =>
    do (l1, out, failed) <- add l x ;;
    match failed with
    | Some m => Ok (l1, out ++ [lit "terminate called with message: "; m; newline], true)
    | None =>
      do (l2, rest, terminated) <- until_failure add l1 xs' ;;
      Ok (l2, out ++ rest, terminated)
    end
  end.
End Register.
