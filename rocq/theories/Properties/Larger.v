(** Property C101: larger limits. *)
From Verif.Spec Require Import TextSpec FilterSpec PrintSpec CliSpec Events SessionSpec LimitClaims.
From Verif.Model Require Import Base Vector StringUtil Filter Run Print Cli File Session Program.
From Verif.Proofs Require Import FilterProofs LargerProofs LargerTexts.
From Coq Require Import Lia.
Local Open Scope string_scope.
Local Open Scope list_scope.
Local Open Scope nat_scope.

(** ** The program used in the examples *)
Definition few : Session.limits := mklimits 2 1 10 60 5 6 3 32 3 12 false (quote "1.2").
Definition more : Session.limits := mklimits 9 7 10 60 30 80 20 40 8 50 false (quote "1.2").
Definition case_of (name tags : string) (line : nat) (b : prog) : test_case :=
  mktest (mkid (quote name) (quote tags) [] []) line b.
Definition fails_in (s : list section_id) (texts : list (nat -> list text)) : prog :=
  Capture texts (fold_right (fun i b => InSection i b Nil) (Check 1 (IsTrue (fun _ => Message (quote "m")) (fun _ => false)) false Nil Nil) s) Nil.
Definition sec (name : string) (line : nat) : section_id := mksec (quote name) [] line.
Definition tests (depth : nat) : list test_case :=
  [case_of "ab" "[x][y]" 10 (fails_in (repeat (sec "s" 3) depth) [fun _ => [quote "c := 12345678"]]); case_of "cd" "[xyz]" 20 (Act 1 Nil)].
Definition program_with (depth : nat) : registry := mkregistry (tests depth) [] Full false None None false Vacant.
Definition go (lm : Session.limits) (depth : nat) (argv : list string) : res (list output * nat) :=
  main lm 10 (fun _ => true) (program_with depth) (quote "demo") (map quote argv).
Definition code_of (r : res (list output * nat)) : res nat := do (_, c) <- r ;; Ok c.

(** ** C101. A program that completes with some limits does the same with larger ones: the same events, in the same order,
    with the same contents, the same texts printed and the same exit code. *)
Theorem C101_events :
  forall (lm lm' : Session.limits) (fuel : nat) (can_open : text -> bool) (r : registry) (path : text) (argv : list text) (result : list output * nat),
  at_least_as_large lm lm' -> 2 <= l_max_command_line_args lm ->
  Forall (fun t => length (full_name_of (id_name (t_id t)) (id_type (t_id t))) <= l_max_test_name_length lm) (g_tests r) ->
  main lm fuel can_open r path argv = Ok result -> main lm' fuel can_open r path argv = Ok result.
Proof. exact carries_main. Qed.
Print Assumptions C101_events.

(** The same for what is printed, by the console reporter or by any other (which is the same object in both programs). *)
Theorem C101_texts :
  forall (lm lm' : Session.limits) (file : event -> text) (duration : event -> option text) (fuel : nat) (can_open : text -> bool)
    (r : registry) (path : text) (argv : list text) (result : list output * nat),
  at_least_as_large lm lm' -> 2 <= l_max_command_line_args lm ->
  Forall (fun t => length (full_name_of (id_name (t_id t)) (id_type (t_id t))) <= l_max_test_name_length lm) (g_tests r) ->
  main_program lm fuel file duration can_open r path argv = Ok result -> main_program lm' fuel file duration can_open r path argv = Ok result.
Proof. exact carries_program_names. Qed.
Print Assumptions C101_texts.

(** The tests and the reporters that can be registered with some limits can be registered with larger ones. *)
Theorem C101_registration :
  forall (max max' mn mn' : nat) (ids tests : list test_id) (lm lm' : Session.limits) (ps reporters : list reporter),
  (max <= max' -> mn <= mn' -> add_tests max mn [] ids = Ok tests -> add_tests max' mn' [] ids = Ok tests) /\
  (at_least_as_large lm lm' -> add_reporters lm [] ps = Ok reporters -> add_reporters lm' [] ps = Ok reporters).
Proof. exact registration. Qed.
Print Assumptions C101_registration.

Example C101_example :
  at_least_as_large few more /\ 2 <= l_max_command_line_args few /\
  code_of (go few 2 ["[x]"; "--color"; "never"]) = Ok 1 /\ go more 2 ["[x]"; "--color"; "never"] = go few 2 ["[x]"; "--color"; "never"] /\
  code_of (go few 2 ["--list-tags"]) = Ok 0 /\
  code_of (go few 3 ["[x]"]) = Err Assert /\ code_of (go more 3 ["[x]"]) = Ok 1 /\
  (exists l, add_tests 2 6 [] (map t_id (tests 2)) = Ok l /\ length l = 2) /\ add_tests 1 6 [] (map t_id (tests 2)) = Err Assert.
Proof.
  split; [constructor; cbn; (reflexivity || lia)|]. split; [cbn; lia|]. 
  repeat (split; [vm_compute; (reflexivity || (eexists; split; reflexivity))|]). vm_compute; reflexivity.
Qed.

(** It is not so for the limits on the lengths of texts, which are cut: with a larger limit on captures, or on messages,
    there is more of the text. *)
Theorem C101_lengths_refuted :
  ~ (forall (lm lm' : Session.limits) (fuel : nat) (can_open : text -> bool) (r : registry) (path : text) (argv : list text) (result : list output * nat),
     lm' = mklimits (l_max_nested lm) (l_max_captures lm) (S (l_max_capture_length lm)) (l_max_message_length lm) (l_max_tag_length lm)
       (l_max_test_name_length lm) (l_max_unique_tags lm) (l_max_command_line_args lm) (l_max_reporters lm) (l_max_path_length lm)
       (l_default_with_color lm) (l_version lm) ->
     2 <= l_max_command_line_args lm ->
     Forall (fun t => length (full_name_of (id_name (t_id t)) (id_type (t_id t))) <= l_max_test_name_length lm) (g_tests r) ->
     main lm fuel can_open r path argv = Ok result -> main lm' fuel can_open r path argv = Ok result).
Proof. exact longer_refuted. Qed.
Print Assumptions C101_lengths_refuted.

(** Nor for the limit on names of tests, with the XML reporter of the library: it cuts the name after it has been escaped. *)
Theorem C101_xml_names_refuted :
  exists (lm lm' : Session.limits) (file : event -> text) (duration : event -> option text) (can_open : text -> bool) (t : test_case) (argv : list text)
    (out out' : list output) (code : nat),
  let program := fun lm => mkregistry [t] [xml_reporter lm file duration] Full false None None false Vacant in
  at_least_as_large lm lm' /\ length (full_name_of (id_name (t_id t)) (id_type (t_id t))) <= l_max_test_name_length lm /\
  main_program lm 2 file duration can_open (program lm) (quote "p") argv = Ok (out, code) /\
  main_program lm' 2 file duration can_open (program lm') (quote "p") argv = Ok (out', code) /\ out <> out'.
Proof. exact xml_names_cut. Qed.
Print Assumptions C101_xml_names_refuted.
