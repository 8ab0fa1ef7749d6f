(** Properties C99, C100: tests divided among several runs, and filters combined. *)
From Coq Require Import Permutation Lia.
From Verif.Spec Require Import TextSpec FilterSpec PrintSpec CliSpec Events VerdictSpec SessionSpec ProgramSpec ShardSpec.
From Verif.Model Require Import Base Vector StringUtil Filter Run Print Cli File Session.
From Verif.Proofs Require Import FilterProofs SessionProofs ProgramProofs NegationProofs ShardProofs.
Local Open Scope string_scope.
Local Open Scope list_scope.
Local Open Scope nat_scope.

(** ** The program used in the examples *)
Definition small : Session.limits := mklimits 5 5 40 60 20 40 8 32 3 12 false (lit "1.2").
Definition case_of (name tags : string) (line : nat) (b : prog) : test_case :=
  mktest (mkid (quote name) (quote tags) [] []) line b.
Definition tests : list test_case :=
  [case_of "ab" "[x]" 10 (Check 1 (IsTrue (fun _ => Message (quote "m")) (fun _ => false)) false Nil Nil);
   case_of "cd" "[x][y]" 20 (Act 1 Nil);
   case_of "ef" "" 30 (Check 2 (IsTrue (fun _ => Message (quote "m")) (fun _ => true)) false Nil (Act 2 Nil))].
Definition tagged_tests : list (test_case * list text) :=
  List.combine tests [[quote "x"]; [quote "x"; quote "y"]; []].
Definition demo : registry := mkregistry tests [] Full false None None false Vacant.
Definition exits (argv : list string) : res nat := do (_, c) <- main small 10 (fun _ => true) demo (quote "demo") (map quote argv) ;; Ok c.

(** ** C99. Tests divided among several runs *)

(** What is reported about a test depends neither on the other tests nor on the rest of the selection: two runs of it,
    among any tests, give the same events for it, at the same verbosity. *)
Theorem C99_same_events :
  forall (lm : Session.limits) (fuel : nat) (p q : test_id -> res bool) (tests tests' : list test_case) (name name' : text)
    (filters filters' : list text) (events events' : list event) (success success' : bool) (v : verbosity) (t : test_case),
  run_selected_tests lm fuel v tests name filters p = Ok (events, success) ->
  run_selected_tests lm fuel v tests' name' filters' q = Ok (events', success') ->
  In t tests -> In t tests' -> p (t_id t) = Ok true -> q (t_id t) = Ok true ->
  exists body c s before after before' after',
    let part := filter (Events.visible v) ([TestCaseStarted (t_id t) (t_line t)] ++ body ++ [TestCaseEnded (t_id t) (t_line t) c s]) in
    Forall (fun e => inner e = true) body /\ events = before ++ part ++ after /\ events' = before' ++ part ++ after'.
Proof. exact same_events. Qed.
Print Assumptions C99_same_events.

(** One run with the selection [p], and several runs with other selections, so that each test that [p] selects is selected
    by exactly one of them, and the others by none. The one run completes if and only if all the others do; then the
    outcomes of the tests are the same, and it is a success if and only if the others all are. *)
Theorem C99_divided :
  forall (lm : Session.limits) (fuel : nat) (p : test_id -> res bool) (qs : list (list text * (test_id -> res bool)))
    (tests : list test_case) (name : text) (filters : list text),
  Forall (fun t => exists (b : bool) (bs : list bool), p (t_id t) = Ok b /\ Forall2 (fun q c => snd q (t_id t) = Ok c) qs bs /\ once b bs) tests ->
  ((exists r, run_selected_tests lm fuel Full tests name filters p = Ok r) <->
   Forall (fun q => exists r, run_selected_tests lm fuel Full tests name (fst q) (snd q) = Ok r) qs) /\
  forall events success results,
  run_selected_tests lm fuel Full tests name filters p = Ok (events, success) ->
  Forall2 (fun q r => run_selected_tests lm fuel Full tests name (fst q) (snd q) = Ok r) qs results ->
  success = forallb snd results /\ Permutation (ended events) (List.concat (map (fun r => ended (fst r)) results)).
Proof. exact divided. Qed.
Print Assumptions C99_divided.

(** The same for whole programs: the exit code is 0 for one command line if and only if it is 0 for all of several others
    that choose the same tests together. *)
Theorem C99_exit_codes :
  forall (lm : Session.limits) (fuel : nat) (can_open : text -> bool) (r : registry) (path : text) (argv : list text) (argvs : list (list text))
    (tagged_tests : list (test_case * list text)) (out : list output) (code : nat) (codes : list nat),
  Forall (fun a => length a <= l_max_command_line_args lm /\ acceptable a /\ asks_run (setting (read a))) (argv :: argvs) ->
  g_tests r = map fst tagged_tests ->
  Forall (fun x => id_tags (t_id (fst x)) = tag_string (snd x) /\ well_formed (l_max_tag_length lm) (snd x) /\
                   length (full_name_of (id_name (t_id (fst x))) (id_type (t_id (fst x)))) <= l_max_test_name_length lm) tagged_tests ->
  (forall x, In x tagged_tests ->
     let picks a := chosen (full_name_of (id_name (t_id (fst x))) (id_type (t_id (fst x)))) (snd x) (filters (read a)) in
     picks argv <-> Exists picks argvs) ->
  main lm fuel can_open r path argv = Ok (out, code) ->
  Forall2 (fun a c => exists out, main lm fuel can_open r path a = Ok (out, c)) argvs codes ->
  (code = 0 <-> Forall (fun c => c = 0) codes).
Proof. exact exit_divided. Qed.
Print Assumptions C99_exit_codes.

Example C99_example :
  let by_tag s := (([] : list text), fun id => Ok (same_text (id_tags id) (quote s))) in
  let qs := [by_tag "[x]"; by_tag "[x][y]"; by_tag ""] in
  Forall (fun t => exists (b : bool) (bs : list bool), Ok true = Ok b /\ Forall2 (fun q c => snd q (t_id t) = Ok c) qs bs /\ once b bs) tests /\
  (do (events, success) <- run_selected_tests small 10 Full tests (quote "demo") [] (fun _ => Ok true) ;; Ok (map (fun x => id_name (fst (fst x))) (ended events), success)) =
    Ok ([quote "ab"; quote "cd"; quote "ef"], false) /\
  map (fun q : list text * (test_id -> res bool) =>
         do (events, success) <- run_selected_tests small 10 Full tests (quote "demo") [] (snd q) ;; Ok (map (fun x => id_name (fst (fst x))) (ended events), success)) qs =
    [Ok ([quote "ab"], false); Ok ([quote "cd"], true); Ok ([quote "ef"], true)].
Proof.
  cbv zeta. split; [|split; vm_compute; reflexivity]. unfold tests.
  constructor; [exists true, [true; false; false]|constructor; [exists true, [false; true; false]|constructor; [exists true, [false; false; true]|constructor]]];
    (split; [reflexivity|]; split; [repeat constructor|reflexivity]).
Qed.

(** ** C100. Filters combined *)

(** A filter in one piece and its negation: each test that is not hidden is selected by exactly one; hidden tests are not
    selected by the negation. *)
Theorem C100_negation_partial :
  forall (mt mn : nat) (f : text) (id : test_id) (tags : list text),
  id_tags id = tag_string tags -> well_formed mt tags -> length (full_name_of (id_name id) (id_type id)) <= mn ->
  in_one_piece f ->
  exists b b', cli_selects mt mn [f] id = Ok b /\ cli_selects mt mn [quote "~" ++ f] id = Ok b' /\
    (~ hidden tags -> b' = negb b) /\ (hidden tags -> b' = false).
Proof. exact negation. Qed.
Print Assumptions C100_negation_partial.

(** With several tags, or commas, this is false: the negation applies to the first only. *)
Theorem C100_negation_refuted :
  exists (mt mn : nat) (f g : text) (id id' : test_id) (tags tags' : list text),
  id_tags id = tag_string tags /\ well_formed mt tags /\ ~ hidden tags /\
  cli_selects mt mn [f] id = Ok false /\ cli_selects mt mn [quote "~" ++ f] id = Ok false /\
  id_tags id' = tag_string tags' /\ well_formed mt tags' /\ ~ hidden tags' /\
  cli_selects mt mn [g] id' = Ok true /\ cli_selects mt mn [quote "~" ++ g] id' = Ok true.
Proof. exact negation_refuted. Qed.
Print Assumptions C100_negation_refuted.

(** Filters separated by a comma select the tests that one of them selects. *)
Theorem C100_commas :
  forall (mt mn : nat) (f g : text) (id : test_id) (tags : list text),
  id_tags id = tag_string tags -> well_formed mt tags -> length (full_name_of (id_name id) (id_type id)) <= mn ->
  tokens f <> None ->
  exists a b, cli_selects mt mn [f] id = Ok a /\ cli_selects mt mn [g] id = Ok b /\ cli_selects mt mn [f ++ quote "," ++ g] id = Ok (a || b).
Proof. exact union. Qed.
Print Assumptions C100_commas.

(** Filters given as several arguments select the tests that all of them select, among those that are not hidden. *)
Theorem C100_arguments_partial :
  forall (mt mn : nat) (fs gs : list text) (id : test_id) (tags : list text),
  id_tags id = tag_string tags -> well_formed mt tags -> length (full_name_of (id_name id) (id_type id)) <= mn ->
  fs <> [] -> gs <> [] -> ~ hidden tags ->
  exists a b, cli_selects mt mn fs id = Ok a /\ cli_selects mt mn gs id = Ok b /\ cli_selects mt mn (fs ++ gs) id = Ok (a && b).
Proof. exact narrow. Qed.
Print Assumptions C100_arguments_partial.

Theorem C100_hidden_partial :
  forall (mt mn : nat) (fs gs : list text) (id : test_id) (tags : list text),
  id_tags id = tag_string tags -> well_formed mt tags -> length (full_name_of (id_name id) (id_type id)) <= mn ->
  fs <> [] -> gs <> [] -> hidden tags ->
  exists a b c, cli_selects mt mn fs id = Ok a /\ cli_selects mt mn gs id = Ok b /\ cli_selects mt mn (fs ++ gs) id = Ok c /\
    (a && b = true -> c = true) /\ (c = true -> a || b = true).
Proof. exact narrow_hidden. Qed.
Print Assumptions C100_hidden_partial.

(** A hidden test may be selected when a filter is added. *)
Theorem C100_arguments_refuted :
  exists (mt mn : nat) (f g : text) (id : test_id) (tags : list text),
  id_tags id = tag_string tags /\ well_formed mt tags /\ hidden tags /\
  cli_selects mt mn [f] id = Ok false /\ cli_selects mt mn [f; g] id = Ok true.
Proof. exact narrow_refuted. Qed.
Print Assumptions C100_arguments_refuted.

(** A run, and the two runs with one filter more and with its negation: one exits with 0 if and only if the other two do. *)
Theorem C100_exit_codes_partial :
  forall (lm : Session.limits) (fuel : nat) (can_open : text -> bool) (r : registry) (path : text) (argv argv1 argv2 : list text) (f : text)
    (tagged_tests : list (test_case * list text)) (out out1 out2 : list output) (code code1 code2 : nat),
  Forall (fun a => length a <= l_max_command_line_args lm /\ acceptable a /\ asks_run (setting (read a))) [argv; argv1; argv2] ->
  in_one_piece f -> filters (read argv1) = filters (read argv) ++ [f] -> filters (read argv2) = filters (read argv) ++ [quote "~" ++ f] ->
  g_tests r = map fst tagged_tests ->
  Forall (fun x => id_tags (t_id (fst x)) = tag_string (snd x) /\ well_formed (l_max_tag_length lm) (snd x) /\ ~ hidden (snd x) /\
                   length (full_name_of (id_name (t_id (fst x))) (id_type (t_id (fst x)))) <= l_max_test_name_length lm) tagged_tests ->
  main lm fuel can_open r path argv = Ok (out, code) ->
  main lm fuel can_open r path argv1 = Ok (out1, code1) ->
  main lm fuel can_open r path argv2 = Ok (out2, code2) ->
  (code = 0 <-> code1 = 0 /\ code2 = 0).
Proof. exact exit_complement. Qed.
Print Assumptions C100_exit_codes_partial.

Example C100_example :
  in_one_piece (quote "[y]") /\ in_one_piece (quote "a\,*") /\
  exits [] = Ok 1 /\ exits ["[y]"] = Ok 0 /\ exits ["~[y]"] = Ok 1 /\ exits ["c*,ef"] = Ok 0 /\ exits ["[x]"; "~a*"] = Ok 0 /\
  exits ["c*"] = Ok 0 /\ exits ["~c*"] = Ok 1 /\
  filters (read (map quote ["~[y]"])) = filters (read []) ++ [quote "~" ++ quote "[y]"] /\
  Forall (fun x => id_tags (t_id (fst x)) = tag_string (snd x) /\ length (full_name_of (id_name (t_id (fst x))) (id_type (t_id (fst x)))) <= l_max_test_name_length small) tagged_tests.
Proof.
  split; [exact (proj1 piece_example)|]. split; [exact (proj2 piece_example)|]. do 7 (split; [vm_compute; reflexivity|]).
  split; [reflexivity|]. repeat constructor.
Qed.

(** The conditions of C99_exit_codes and C100_exit_codes_partial. *)
Example C100_exit_example :
  Forall (fun a => length a <= l_max_command_line_args small /\ acceptable a /\ asks_run (setting (read a))) [[]; [quote "[y]"]; [quote "~[y]"]] /\
  g_tests demo = map fst tagged_tests /\
  Forall (fun x => id_tags (t_id (fst x)) = tag_string (snd x) /\ well_formed (l_max_tag_length small) (snd x) /\ ~ hidden (snd x) /\
                   length (full_name_of (id_name (t_id (fst x))) (id_type (t_id (fst x)))) <= l_max_test_name_length small) tagged_tests.
Proof.
  split; [|split; [reflexivity|]].
  - repeat (apply Forall_cons || apply Forall_nil); (split; [cbn; lia|]; split; [split; [intros arg H; vm_compute in H; intuition discriminate|vm_compute; constructor]|]);
      intros n H; cbn in H; intuition (subst; reflexivity).
  - repeat (apply Forall_cons || apply Forall_nil); (split; [reflexivity|]; split; [now apply plain_tags|]; split; [intros H; vm_compute in H; intuition discriminate|repeat constructor]).
Qed.
