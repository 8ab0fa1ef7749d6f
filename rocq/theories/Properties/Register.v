(** Property C78: registrations that fail. *)
From Coq Require Import NArith.
From Verif.Spec Require Import TextSpec FilterSpec PrintSpec NumberSpec Events RunSpec RegisterSpec.
From Verif.Model Require Import Base Vector StringUtil Print Filter Run Cli Session Reporters Register.
From Verif.Proofs Require Import RegisterProofs.
Local Open Scope string_scope.
Local Open Scope list_scope.
Local Open Scope nat_scope.

(** ** C78. A registration that fails says why and leaves nothing behind *)

(** [attempts] registers tests or reporters one after the other with a handler of failed assertions that throws, [until_failure]
    with the handler of the library, which ends the program. [mm] is the maximum length of messages. *)

(** Reporters: the registry holds the first ones with a valid name, as many as there is room for. They are those whose
    registration did not fail. *)
Theorem C78_reporters :
  forall (mm : nat) (color : bool), 40 <= mm -> forall (max : nat) (valid : reporter -> bool) (ps : list reporter),
  (N.of_nat max < 2 ^ 64)%N -> (forall p, valid p = true <-> ~ occurs (quote "::") (r_name p)) ->
  exists outcomes, attempts (try_add_reporter mm color max) [] ps = Ok (kept valid max ps, outcomes) /\ length outcomes = length ps /\
    accepted ps (map snd outcomes) = kept valid max ps.
Proof. exact reporters_left. Qed.
Print Assumptions C78_reporters.

(** Each of them: why it fails, what the handler is told and what is printed. *)
Theorem C78_reporter :
  forall (mm : nat) (color : bool), 40 <= mm -> forall (max : nat) (ps : list reporter) (p : reporter),
  (N.of_nat max < 2 ^ 64)%N -> length ps <= max ->
  let prefix := rendered (make_colored (quote "error:") color color_fail) in
  exists ps' printed failed, try_add_reporter mm color max ps p = Ok (ps', printed, failed) /\
    (length ps = max -> ps' = ps /\ failed = Some (message TooManyReporters) /\ explained prefix TooManyReporters max printed) /\
    (length ps < max -> occurs (quote "::") (r_name p) ->
       ps' = ps /\ failed = Some (message (InvalidReporter (r_name p))) /\ List.concat printed = prefix ++ explanation (InvalidReporter (r_name p)) []) /\
    (length ps < max -> ~ occurs (quote "::") (r_name p) -> ps' = ps ++ [p] /\ failed = None /\ printed = []).
Proof. exact reporter_attempt. Qed.
Print Assumptions C78_reporter.

(** Tests: the same if no name is empty or too long. In general, the registry holds the first tests whether their registration
    failed or not. *)
Theorem C78_tests_partial :
  forall (mm : nat) (color : bool), 40 <= mm -> forall (max mn : nat) (ids : list test_id),
  (N.of_nat max < 2 ^ 64)%N -> (N.of_nat mn < 2 ^ 64)%N ->
  exists registered outcomes, attempts (try_add_test mm color max mn) [] ids = Ok (registered, outcomes) /\ length outcomes = length ids /\
    registered = firstn max ids /\
    accepted ids (map snd outcomes) = filter (fun id => name_fits mn (id_name id) (id_type id)) (firstn max ids) /\
    (Forall (fun id => name_fits mn (id_name id) (id_type id) = true) ids ->
     registered = kept (fun id => name_fits mn (id_name id) (id_type id)) max ids /\ registered = accepted ids (map snd outcomes)).
Proof. exact tests_left. Qed.
Print Assumptions C78_tests_partial.

Theorem C78_test_partial :
  forall (mm : nat) (color : bool), 40 <= mm -> forall (max mn : nat) (tests : list test_id) (id : test_id),
  (N.of_nat max < 2 ^ 64)%N -> (N.of_nat mn < 2 ^ 64)%N -> length tests <= max ->
  let prefix := rendered (make_colored (quote "error:") color color_fail) in
  exists tests' printed failed, try_add_test mm color max mn tests id = Ok (tests', printed, failed) /\
    if length tests =? max then tests' = tests /\ failed = Some (message TooManyTests) /\ explained prefix TooManyTests max printed
    else tests' = tests ++ [id] /\
      if name_fits mn (id_name id) (id_type id) then failed = None /\ printed = []
      else failed = Some (message NameTooLong) /\ explained prefix NameTooLong mn printed.
Proof. exact test_attempt. Qed.
Print Assumptions C78_test_partial.

(** A test whose registration failed because of its name is registered, and takes the place of another. *)
Theorem C78_tests_refuted :
  exists (mm max mn : nat) (long good : test_id) (outcomes : list (list text * option text)),
  attempts (try_add_test mm false max mn) [] [long; good] = Ok ([long], outcomes) /\
  kept (fun id => name_fits mn (id_name id) (id_type id)) max [long; good] = [good] /\ accepted [long; good] (map snd outcomes) = [].
Proof.
  exists 40, 1, 3, (mkid (quote "long") [] [] []), (mkid (quote "abc") [] [] []). eexists. vm_compute. repeat split.
Qed.
Print Assumptions C78_tests_refuted.

(** With the handler of the library the program ends at the first failure, and then the registration was refused (C36). *)
Theorem C78_terminates :
  forall (mm : nat) (color : bool), 40 <= mm -> forall (max mn : nat),
  (N.of_nat max < 2 ^ 64)%N -> (N.of_nat mn < 2 ^ 64)%N -> forall (ids tests : list test_id), length tests <= max ->
  let prefix := rendered (make_colored (quote "error:") color color_fail) in
  exists registered printed terminated, until_failure (try_add_test mm color max mn) tests ids = Ok (registered, printed, terminated) /\
    if terminated then
      add_tests max mn tests ids = Err Assert /\
      exists why limit out, (why = TooManyTests /\ limit = max \/ why = NameTooLong /\ limit = mn) /\ explained prefix why limit out /\
        printed = out ++ [quote "terminate called with message: "; message why; [ascii_of_nat 10]]
    else add_tests max mn tests ids = Ok registered /\ registered = tests ++ ids /\ printed = [].
Proof. exact ends_tests. Qed.
Print Assumptions C78_terminates.

Example C78_example :
  let reporter name := mkreporter (quote name) false unit (fun m => Ok (tt, m, [])) (fun m x _ _ => Ok (x, m, [], false)) (fun _ x _ => Ok (x, [])) in
  let r := attempts (try_add_reporter 80 false 2) [] [reporter "a"; reporter "b::c"; reporter "d"; reporter "e"] in
  (do (ps, outcomes) <- r ;; Ok (map r_name ps, map (fun o => List.concat (fst o)) outcomes)) =
    Ok ([quote "a"; quote "d"],
        [[]; quote "error: reporter name cannot contains '::' (trying to register 'b::c')" ++ [ascii_of_nat 10] ++ quote "."; [];
         quote "error: max number of reporters reached; please increase 'SNITCH_MAX_REGISTERED_REPORTERS' (currently 2)." ++ [ascii_of_nat 10]]) /\
  (do (tests, printed, terminated) <- until_failure (try_add_test 80 false 2 8) [] [mkid (quote "a") [] (quote "int") []; mkid (quote "b") [] (quote "float") []] ;;
   Ok (List.concat printed, terminated)) =
    Ok (quote "error: max length of test name reached; please increase 'SNITCH_MAX_TEST_NAME_LENGTH' (currently 8)" ++ [ascii_of_nat 10] ++
        quote ".terminate called with message: test case name exceeds max length" ++ [ascii_of_nat 10], true).
Proof. split; vm_compute; reflexivity. Qed.
