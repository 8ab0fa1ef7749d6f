(** Property C109: programs that list their tests. *)
From Coq Require Import NArith Lia.
From Verif.Spec Require Import TextSpec FilterSpec PrintSpec EscapeSpec RunSpec TreeSpec Events NumberSpec SessionSpec ProgramSpec XmlSpec ServiceSpec CutSpec CutServiceSpec CutXmlSpec CliSpec ListingSpec.
From Verif.Model Require Import Base Vector StringUtil Integer Print Filter Run Cli File Session Reporters Program.
From Verif.Spec Require Import ProgramClaims LinkClaims ListingClaims.
From Verif.Proofs Require Import ReportExamples ProgramFacts LinkProofs LinkExamples ListingProofs ListingExamples.
Local Open Scope string_scope.
Local Open Scope list_scope.
Local Open Scope nat_scope.

(** ** C109. What a program prints when it is asked for its tests (Spec/ListingSpec.v, Spec/ListingClaims.v)

    With the console reporter: a first line, each test with its tags, and the number of tests, exactly, whatever the texts and the
    limits. The tests are those asked for, in order; the exit code is 0. *)
Theorem C109_console :
  exists shown : nat -> text, (forall n, (N.of_nat n < 2 ^ 64)%N -> writes 10 (shown n) (N.of_nat n)) /\
  forall (lm : Session.limits) (fuel : nat) (file : event -> text) (duration : event -> option text) (can_open : text -> bool)
    (r : registry) (path : text) (argv : list text) (out : list output) (code : nat),
  length argv <= l_max_command_line_args lm -> acceptable argv -> asks_list (setting (read argv)) -> g_to_file r = false ->
  console_asked lm file duration r argv -> main_program lm fuel file duration can_open r path argv = Ok (out, code) ->
  exists colours : bool, report_colours r argv colours /\
    lists_tests (cut_listing (l_max_message_length lm) (l_max_test_name_length lm) colours id_name id_type (fun id => full_name_of (id_name id) (id_type id)) id_tags
                   file duration shown (l_version lm)) lm r argv out code.
Proof. exact console_lists. Qed.
Print Assumptions C109_console.

(** With the TeamCity reporter: the full name of each test on a line, encoded, and cut if there is no room. *)
Theorem C109_teamcity :
  exists name_of : nat -> test_id -> text,
  (forall n id, cut_field teamcity_code n (firstn n (full_name_of (id_name id) (id_type id))) (name_of n id)) /\
  forall (lm : Session.limits) (fuel : nat) (file : event -> text) (duration : event -> option text) (can_open : text -> bool)
    (r : registry) (path : text) (argv : list text) (out : list output) (code : nat),
  length argv <= l_max_command_line_args lm -> acceptable argv -> asks_list (setting (read argv)) -> g_to_file r = false ->
  reporter_asked (teamcity_reporter lm file duration) r argv -> main_program lm fuel file duration can_open r path argv = Ok (out, code) ->
  lists_tests (flat_map (fun t => name_of (l_max_test_name_length lm) (fst t) ++ [ascii_of_nat 10])) lm r argv out code.
Proof. exact teamcity_lists. Qed.
Print Assumptions C109_teamcity.

(** With the XML reporter: a document with one element for each test. *)
Theorem C109_xml :
  exists (shown : nat -> text) (field : nat -> text -> text) (name_of : nat -> test_id -> text),
  (forall n, (N.of_nat n < 2 ^ 64)%N -> writes 10 (shown n) (N.of_nat n)) /\
  (forall n s, cut_field xml_entities n (fit n s) (field n s)) /\
  (forall n id, cut_field xml_entities n (firstn n (full_name_of (id_name id) (id_type id))) (name_of n id)) /\
  forall (lm : Session.limits) (fuel : nat) (file : event -> text) (duration : event -> option text) (can_open : text -> bool)
    (r : registry) (path : text) (argv : list text) (out : list output) (code : nat),
  length argv <= l_max_command_line_args lm -> acceptable argv -> asks_list (setting (read argv)) -> g_to_file r = false ->
  reporter_asked (xml_reporter lm file duration) r argv -> main_program lm fuel file duration can_open r path argv = Ok (out, code) ->
  lists_tests (drawn_listing (field (l_max_message_length lm)) (name_of (l_max_test_name_length lm)) id_tags id_fixture file shown) lm r argv out code.
Proof. exact xml_lists. Qed.
Print Assumptions C109_xml.

(** The hypotheses hold for a program with a test whose name is too long and a hidden test, with the three reporters, filters, an
    output file and options of lower priority; these are its listings. *)
Example C109_example :
  g_to_file three_tests = false /\ Forall (fun x => asks_for_list (fst x) /\ said_by three_tests (fst x) = Some (snd x)) listings /\
  console_asked small at_file untimed three_tests (map quote ["--list-tests"; "~[z]"]) /\
  reporter_asked (teamcity_reporter small at_file untimed) three_tests (map quote ["--list-tests"; "--reporter"; "teamcity"]) /\
  reporter_asked (xml_reporter small at_file untimed) three_tests (map quote ["--list-tests"; "--reporter"; "xml"; "[y]"; "-o"; "f"]).
Proof. exact listing_example. Qed.

(** A program that is not asked to run its tests executes none of their code: two programs whose tests have the same names, tags,
    types and lines do and print the same (help, listings of tests, tags and reporters, and errors in the command line), with any
    reporters; however long the tests would run ([fuel]). *)
Theorem C109_bodies :
  forall (lm : Session.limits) (fuel fuel' : nat) (file : event -> text) (duration : event -> option text) (can_open : text -> bool)
    (r r' : registry) (path : text) (argv : list text),
  length argv <= l_max_command_line_args lm -> ~ asks_run (setting (read argv)) -> same_but_bodies r r' ->
  main_program lm fuel file duration can_open r path argv = main_program lm fuel' file duration can_open r' path argv.
Proof. exact bodies_ignored. Qed.
Print Assumptions C109_bodies.

(** So such a program completes even if its tests would never end, or would be terminated: they need not be [able] as in C66. *)
Theorem C109_completes :
  forall (lm : Session.limits) (fuel : nat) (file : event -> text) (duration : event -> option text) (can_open : text -> bool)
    (r : registry) (path : text) (argv : list text) (tests : list (test_case * list text)),
  length argv <= l_max_command_line_args lm -> ~ asks_run (setting (read argv)) -> g_reporter r = None -> g_to_file r = false ->
  g_tests r = map fst tests ->
  Forall (fun x => id_tags (t_id (fst x)) = tag_string (snd x) /\ well_formed (l_max_tag_length lm) (snd x) /\
                   length (full_name_of (id_name (t_id (fst x))) (id_type (t_id (fst x)))) <= l_max_test_name_length lm) tests ->
  listable lm argv tests ->
  (forall f, setting (read argv) (quote "--out") = Some (Some f) -> ~ In zero f /\ length f <= l_max_path_length lm /\ can_open f = true) ->
  Forall (fun p => starts p /\ (speaks p \/ p = xml_reporter lm file duration)) (g_reporters r) ->
  exists out code, main_program lm fuel file duration can_open r path argv = Ok (out, code) /\ code <= 1.
Proof. exact listing_completes. Qed.
Print Assumptions C109_completes.

(** A program and another one all of whose tests fail: the listings are the same, the runs are not. *)
Example C109_bodies_example :
  same_but_bodies three_tests three_others /\ ~ asks_run (setting (read (map quote ["--list-tests"]))) /\
  said_by three_others ["--list-tests"] = said_by three_tests ["--list-tests"] /\ said_by three_others ["-v"; "quiet"] <> said_by three_tests ["-v"; "quiet"].
Proof. exact bodies_example. Qed.

(** A program whose tests have sections nested too deeply: a run is terminated, a listing is not. *)
Example C109_completes_example :
  let tests := [(mktest (t_id hidden_test) 3 (deep 9), [quote "."; quote "y"]); (mktest (t_id plain_test) 5 (deep 9), [quote "y"])] in
  g_tests too_deep = map fst tests /\
  Forall (fun x => id_tags (t_id (fst x)) = tag_string (snd x) /\ well_formed (l_max_tag_length small) (snd x) /\
                   length (full_name_of (id_name (t_id (fst x))) (id_type (t_id (fst x)))) <= l_max_test_name_length small) tests /\
  listable small (map quote ["-l"; "[y]"]) tests /\
  ~ asks_run (setting (read (map quote ["-l"; "[y]"]))) /\
  said_by too_deep ["[y]"] = None /\
  said_by too_deep ["-l"; "[y]"] = Some (texts [quote "Matching test cases:"; quote "  h <int>"; quote "      [.][y]"; quote "  p"; quote "      [y]"; quote "2 matching test cases"]).
Proof. exact completes_example. Qed.
