(** Properties C61-C66: whole programs, from the command line to the texts printed and the exit code. *)
From Coq Require Import NArith Lia.
From Verif.Spec Require Import TextSpec FilterSpec PrintSpec NumberSpec RunSpec TreeSpec Events VerdictSpec SessionSpec ProgramSpec XmlSpec ConsoleSpec ServiceSpec CliSpec.
From Verif.Model Require Import Base Vector StringUtil Print Filter Run Cli File Session Reporters Program.
From Verif.Spec Require Import ProgramClaims PathSpec.
From Verif.Proofs Require Import ReportProofs ReportExamples ConsoleProofs ServiceProofs XmlProofs ChoiceProofs WholeProofs LifetimeProofs TotalProofs BalanceFacts ProgramFacts WitnessProofs OptionProofs BalanceInTry.
Local Open Scope string_scope.
Local Open Scope list_scope.
Local Open Scope nat_scope.

(** [main_program] is a whole program: its registered tests and reporters are those of [r], [argv] is the command line
    after the path of the program, [file] gives the source file of what an event is about and [duration] how long it
    took, [can_open] tells which output files can be opened. Its result is what is printed and the exit code. [main] is
    the same program observed as the list of events given to its reporter. *)

(** ** C61. The command line chooses the reporter and the verbosity *)

(** Configuring the program leaves its tests and reporters as they are. The verbosity is the one asked for or, if none is
    asked for or it is unknown, the one before. The reporter is the first one with the name asked for; if there is none,
    or no reporter is asked for, nothing changes. The XML and TeamCity reporters raise the verbosity to at least high. *)
Theorem C61_choice :
  forall (lm : Session.limits) (file : event -> text) (duration : event -> option text) (can_open : text -> bool) (r : registry) (path : text)
    (argv : list text) (printed : list text) (args : input) (r' : registry) (out : list output),
  length argv <= l_max_command_line_args lm -> parse_arguments (cli_of lm) path argv = Ok (printed, Some args) ->
  configure lm can_open r args = Ok (r', out) ->
  let asked := asked_verbosity (setting (read argv) (quote "--verbosity")) (g_verbose r) in
  let unchanged := g_verbose r' = asked /\ g_reporter r' = g_reporter r /\ g_storage r' = g_storage r in
  g_tests r' = g_tests r /\ g_reporters r' = g_reporters r /\
  (setting (read argv) (quote "--reporter") = None -> unchanged) /\
  forall arg, setting (read argv) (quote "--reporter") = Some (Some arg) ->
    ((forall p, In p (g_reporters r) -> ~ names arg (r_name p)) -> unchanged) /\
    forall i p, first_named (g_reporters r) i p -> names arg (r_name p) ->
      (p = console_reporter lm file duration -> g_verbose r' = asked /\ g_reporter r' = Some i) /\
      (p = xml_reporter lm file duration \/ p = teamcity_reporter lm file duration -> g_verbose r' = at_least High asked /\ g_reporter r' = Some i).
Proof. exact choice. Qed.
Print Assumptions C61_choice.

(** What the reporters of the library make of an option (C34): the console reporter knows two, which set its colours; the
    others know none. A warning is printed for unknown keys and unknown values. *)
Theorem C34_console_partial :
  forall (lm : Session.limits) (file : event -> text) (duration : event -> option text) (r : registry) (i : nat) (k v : text),
  first_named (g_reporters r) i (console_reporter lm file duration) ->
  k <> [] -> ~ In "="%char k -> ~ occurs (quote "::") (k ++ quote "=" ++ v) ->
  exists r' warnings, parse_reporter lm r (quote "console::" ++ k ++ quote "=" ++ v) = Ok (r', [Initialized i; Configured i k v] ++ map Printed warnings) /\
    g_reporter r' = Some i /\ g_verbose r' = g_verbose r /\
    let warning p w := cli_print (l_max_message_length lm) (make_colored (quote "warning:") (g_with_color r) color_warning :: p) = Ok w in
    match console_option k v (g_with_color r) with
    | Colours b => g_with_color r' = b /\ warnings = []
    | UnknownValue choices => g_with_color r' = g_with_color r /\
        exists w, warning [Text (quote " unknown color directive; please use one of " ++ choices ++ [ascii_of_nat 10])] w /\ warnings = [w]
    | UnknownKey => g_with_color r' = g_with_color r /\
        exists w, warning [Text (quote " unknown reporter option '"); Text k; Text (quote "'" ++ [ascii_of_nat 10])] w /\ warnings = [w]
    end.
Proof. exact console_options. Qed.
Print Assumptions C34_console_partial.

Theorem C34_others_partial :
  forall (lm : Session.limits) (file : event -> text) (duration : event -> option text) (r : registry) (i : nat) (p : reporter) (k v : text),
  first_named (g_reporters r) i p -> p = xml_reporter lm file duration \/ p = teamcity_reporter lm file duration ->
  k <> [] -> ~ In "="%char k -> ~ occurs (quote "::") (k ++ quote "=" ++ v) ->
  exists r' w, parse_reporter lm r (r_name p ++ quote "::" ++ k ++ quote "=" ++ v) = Ok (r', [Initialized i; Configured i k v; Printed w]) /\
    g_reporter r' = Some i /\ g_verbose r' = at_least High (g_verbose r) /\ g_with_color r' = g_with_color r /\
    cli_print (l_max_message_length lm)
      [make_colored (quote "warning:") (g_with_color r) color_warning; Text (quote " unknown reporter option '"); Text k; Text (quote "'" ++ [ascii_of_nat 10])] = Ok w.
Proof. exact other_options. Qed.
Print Assumptions C34_others_partial.

Example C34_library_example :
  let ask arg := do (r, out) <- parse_reporter small library (quote arg) ;;
                 Ok (g_reporter r, g_with_color r, flat_map (fun o => match o with Printed s => [s] | _ => [] end) out) in
  (exists i, first_named (g_reporters library) i (console_reporter small at_file untimed)) /\
  ask "console::color=always" = Ok (Some 0, true, []) /\
  ask "console::color=ansi" = Ok (Some 0, false, [quote "warning: unknown color directive; please use one of alway..."]) /\
  ask "console::size=3" = Ok (Some 0, false, [quote "warning: unknown reporter option 'size'" ++ [ascii_of_nat 10]]) /\
  ask "xml::color=always" = Ok (Some 1, false, [quote "warning: unknown reporter option 'color'" ++ [ascii_of_nat 10]]).
Proof. split; [|repeat split; vm_compute; reflexivity]. exists 0. split; [reflexivity|]. intros j q H. inversion H. Qed.

(** Hence the XML and TeamCity reporters are told of the start and end of every test that the filters select, whatever
    the verbosity asked for. *)
Theorem C61_every_test :
  forall (lm : Session.limits) (fuel : nat) (file : event -> text) (duration : event -> option text) (can_open : text -> bool) (r : registry) (path : text)
    (argv : list text) (out : list output) (code : nat) (i : nat) (p : reporter) (arg : text) (tagged_tests : list (test_case * list text)),
  length argv <= l_max_command_line_args lm -> acceptable argv -> asks_run (setting (read argv)) ->
  setting (read argv) (quote "--reporter") = Some (Some arg) -> first_named (g_reporters r) i p -> names arg (r_name p) ->
  p = xml_reporter lm file duration \/ p = teamcity_reporter lm file duration ->
  g_tests r = map fst tagged_tests ->
  Forall (fun x => id_tags (t_id (fst x)) = tag_string (snd x) /\ well_formed (l_max_tag_length lm) (snd x) /\
                   length (full_name_of (id_name (t_id (fst x))) (id_type (t_id (fst x)))) <= l_max_test_name_length lm) tagged_tests ->
  main lm fuel can_open r path argv = Ok (out, code) ->
  exists keep, (forall x, In x tagged_tests -> (keep x = true <->
       match filters (read argv) with
       | [] => ~ hidden (snd x)
       | fs => selected (full_name_of (id_name (t_id (fst x))) (id_type (t_id (fst x)))) (snd x) fs
       end)) /\
    let run := map fst (filter keep tagged_tests) in
    started (events_of out) = map (fun t => (t_id t, t_line t)) run /\ map (fun x => fst (fst x)) (ended (events_of out)) = map t_id run.
Proof. exact every_test. Qed.
Print Assumptions C61_every_test.

Example C61_example :
  first_named (g_reporters library) 1 (xml_reporter small at_file untimed) /\ names (quote "xml") (quote "xml") /\ names (quote "xml::a=b") (quote "xml") /\
  length (started (events_for ["--reporter"; "xml"; "-v"; "quiet"])) = 3 /\ started (events_for ["-v"; "quiet"]) = [] /\
  Forall (fun x => id_tags (t_id (fst x)) = tag_string (snd x) /\ well_formed 20 (snd x) /\
                   length (full_name_of (id_name (t_id (fst x))) (id_type (t_id (fst x)))) <= 40) tagged_tests.
Proof.
  split. { split; [reflexivity|]. intros [|j] q L; [intros [= <-]; discriminate|lia]. }
  split; [now left|]. split; [right; now exists (quote "a=b")|]. split; [vm_compute; reflexivity|]. split; [vm_compute; reflexivity|].
  eapply Forall_impl; [|exact tagged_tests_able]. intros x H. unfold able in H. tauto.
Qed.

(** ** C62. What a program prints by default *)

(** With the console reporter, asked for or by default, the report of a run is the text of every event (C60), alone in
    the output file if there is one, otherwise on the console after the warnings about the command line. Unless the
    verbosity is quiet, it ends with the summary, which announces success if and only if the exit code is zero. The colours
    are those that the command line asks for (Spec/ColourSpec.v): in particular reports in files have none otherwise. *)
Theorem C62_console :
  exists shown : nat -> text, (forall n, (N.of_nat n < 2 ^ 64)%N -> writes 10 (shown n) (N.of_nat n)) /\
  forall (lm : Session.limits) (fuel : nat) (file : event -> text) (duration : event -> option text) (can_open : text -> bool)
    (r : registry) (path : text) (argv : list text) (out : list output) (code : nat) (out' : list output) (code' : nat),
  let full_name := fun id => full_name_of (id_name id) (id_type id) in
  let fits := fun colours => displayable id_name id_type full_name duration shown (l_version lm) (painted colours) (l_max_message_length lm) (l_max_test_name_length lm) in
  let asked := asked_verbosity (setting (read argv) (quote "--verbosity")) (g_verbose r) in
  length argv <= l_max_command_line_args lm -> acceptable argv -> asks_run (setting (read argv)) -> g_to_file r = false ->
  console_asked lm file duration r argv -> 32 <= l_max_message_length lm ->
  main_program lm fuel file duration can_open r path argv = Ok (out, code) ->
  main lm fuel can_open r path argv = Ok (out', code') ->
  code = code' /\
  exists (colours : bool) (report : text),
    report_goes lm r argv out report /\
    (Forall (fits colours) (events_of out') ->
     report = flat_map (event_text id_name id_type full_name id_tags file duration shown (l_version lm) (painted colours)) (events_of out')) /\
    (vlevel Normal <= vlevel asked ->
     exists before e name fs run failed allowed skipped c,
       events_of out' = before ++ [e] /\ e = TestRunEnded name fs run failed allowed skipped c (code =? 0) /\ (failed = 0 <-> code = 0) /\
       (fits colours e -> exists first, report = first ++ rule ++ summary_text duration shown (painted colours) e run failed skipped c (code =? 0))) /\
    report_colours r argv colours.
Proof. exact console_end_to_end. Qed.
Print Assumptions C62_console.

Definition lines (l : list string) : text := flat_map (fun s => quote s ++ [ascii_of_nat 10]) l.
Definition line_of_equals : string := "==========================================".
Example C62_example :
  asks ["-v"; "high"] /\ console_asked small at_file untimed library (map quote ["-v"; "high"]) /\
  (forall colours, Forall (displayable id_name id_type (fun id => full_name_of (id_name id) (id_type id)) untimed decimal (l_version small) (painted colours) 60 40) (events_for ["-v"; "high"])) /\
  printed_by ["-v"; "high"; "m"] =
    Some (lines ["starting demo with snitch v1.2"; line_of_equals; "starting: m at f:7"; "finished: m"; line_of_equals;
                 "success: all tests passed (1 test cases, 1 assertions)"], [], 0) /\
  printed_by ["-o"; "out"; "-z"; "n"] =
    Some (quote "warning: unknown command line argument '-z'" ++ [ascii_of_nat 10],
          lines ["starting demo with snitch v1.2"; line_of_equals;
                 "failed: running test case ""n"""; "          in section ""s&2"""; "          at f:3"; "          CHECK(a < b), got: 3 >= 2";
                 "failed: running test case ""n"""; "          in section ""s&2"""; "          at f:3"; "          CHECK(a < b), got: 3 >= 2"; line_of_equals;
                 "error: all tests failed (1 out of 1 test cases, 3 assertions)"], 1).
Proof. split; [exact asks_console|]. split; [left; split; vm_compute; reflexivity|]. split; [exact shown_events|]. split; vm_compute; reflexivity. Qed.

(** ** C63. What a program prints with the XML and TeamCity reporters *)

(** The report is one well-formed XML document that tells every event (C42). Partial: for tests that leave no section
    open, and for texts that fit and need no escape where there is none ([readable]). *)
Theorem C63_xml_partial :
  exists shown : nat -> text, (forall n, (N.of_nat n < 2 ^ 64)%N -> writes 10 (shown n) (N.of_nat n)) /\
  forall (lm : Session.limits) (fuel : nat) (file : event -> text) (duration : event -> option text) (can_open : text -> bool)
    (r : registry) (path : text) (argv : list text) (out : list output) (code : nat) (out' : list output) (code' : nat) (arg : text),
  let full_name := fun id => full_name_of (id_name id) (id_type id) in
  length argv <= l_max_command_line_args lm -> acceptable argv -> asks_run (setting (read argv)) -> g_to_file r = false ->
  setting (read argv) (quote "--reporter") = Some (Some arg) -> names arg (quote "xml") ->
  (exists i, first_named (g_reporters r) i (xml_reporter lm file duration)) ->
  Forall (tidy lm fuel) (g_tests r) -> harmless (l_version lm) ->
  main_program lm fuel file duration can_open r path argv = Ok (out, code) ->
  main lm fuel can_open r path argv = Ok (out', code') ->
  Forall (readable full_name id_tags id_fixture file duration (l_max_message_length lm) (l_max_test_name_length lm)) (events_of out') ->
  code = code' /\
  exists root report name fs run failed allowed skipped c,
    told_run full_name id_tags file duration shown (l_version lm) (events_of out') root /\
    report_goes lm r argv out report /\ document root report /\
    hd_error (rev (events_of out')) = Some (TestRunEnded name fs run failed allowed skipped c (code =? 0)) /\ (failed = 0 <-> code = 0).
Proof. exact xml_end_to_end. Qed.
Print Assumptions C63_xml_partial.

(** The report is one service message per event, each on its line (C59). Partial: the texts fit, and names of sections
    need no escape ([telling]). *)
Theorem C63_teamcity_partial :
  exists shown : nat -> text, (forall n, (N.of_nat n < 2 ^ 64)%N -> writes 10 (shown n) (N.of_nat n)) /\
  forall (lm : Session.limits) (fuel : nat) (file : event -> text) (duration : event -> option text) (can_open : text -> bool)
    (r : registry) (path : text) (argv : list text) (out : list output) (code : nat) (out' : list output) (code' : nat) (arg : text),
  let full_name := fun id => full_name_of (id_name id) (id_type id) in
  length argv <= l_max_command_line_args lm -> acceptable argv -> asks_run (setting (read argv)) -> g_to_file r = false ->
  setting (read argv) (quote "--reporter") = Some (Some arg) -> names arg (quote "teamcity") ->
  (exists i, first_named (g_reporters r) i (teamcity_reporter lm file duration)) ->
  main_program lm fuel file duration can_open r path argv = Ok (out, code) ->
  main lm fuel can_open r path argv = Ok (out', code') ->
  Forall (telling full_name file duration shown (l_max_message_length lm) (l_max_test_name_length lm)) (events_of out') ->
  code = code' /\
  exists report, report_goes lm r argv out report /\
    message_lines (flat_map (messages_of full_name file duration shown) (events_of out')) report.
Proof. exact teamcity_end_to_end. Qed.
Print Assumptions C63_teamcity_partial.

Example C63_example :
  asks ["--reporter"; "xml"; "-o"; "out"] /\ Forall (tidy small 5) (g_tests library) /\
  Forall (readable (fun id => full_name_of (id_name id) (id_type id)) id_tags id_fixture at_file untimed 60 40) (events_for ["--reporter"; "xml"; "-o"; "out"]) /\
  match printed_by ["--reporter"; "xml"; "-o"; "out"] with
  | Some (console, report, code) => console = [] /\ code = 1 /\
      exists first, report = first ++ quote "  <OverallResultsCases successes=""2"" failures=""1"" expectedFailures=""0"" skips=""1""/>" ++ [ascii_of_nat 10] ++ quote "</Catch2TestRun>" ++ [ascii_of_nat 10]
  | None => False
  end /\
  asks ["m"; "--reporter"; "teamcity"] /\
  Forall (telling (fun id => full_name_of (id_name id) (id_type id)) at_file untimed decimal 60 40) (events_for ["m"; "--reporter"; "teamcity"]) /\
  printed_by ["m"; "--reporter"; "teamcity"] =
    Some (lines ["##teamCity[testSuiteStarted name='demo ""m""']"; "##teamCity[testStarted name='m']"; "##teamCity[testFinished name='m']";
                 "##teamCity[testSuiteFinished name='demo ""m""']"], [], 0).
Proof.
  split; [exact asks_xml|]. split; [exact tagged_tests_tidy|]. split; [exact (proj1 written_events)|]. split.
  { destruct (printed_by ["--reporter"; "xml"; "-o"; "out"]) as [[[c rep] n]|] eqn:E; vm_compute in E; [|discriminate]. injection E as <- <- <-. split; [reflexivity|]. split; [reflexivity|].
    match goal with |- exists first, ?x = first ++ ?y => exists (firstn (length x - length y) x) end. vm_compute. reflexivity. }
  split; [exact asks_teamcity|]. split; [exact (proj1 told_events)|]. vm_compute. reflexivity.
Qed.

(** ** C64. Reporter objects live as long as they are used *)

(** In a program no report is given to a reporter object that does not exist: if the program does not fail otherwise,
    it does not fail for its reports. *)
Theorem C64_alive :
  forall (lm : Session.limits) (fuel : nat) (file : event -> text) (duration : event -> option text) (can_open : text -> bool)
    (r : registry) (path : text) (argv : list text) (out' : list output) (code : nat),
  g_reporter r = None -> g_to_file r = false -> Forall speaks (g_reporters r) ->
  main lm fuel can_open r path argv = Ok (out', code) ->
  exists out, main_program lm fuel file duration can_open r path argv = Ok (out, code).
Proof. exact always_alive. Qed.
Print Assumptions C64_alive.

(** But a second run of the tests of the same registry fails, if the reporter is an object: the first run has destroyed
    it. *)
Theorem C64_refuted :
  forall (lm : Session.limits) (fuel : nat) (file : event -> text) (duration : event -> option text)
    (r : registry) (args : input) (r2 : registry) (out : list output) (s : bool) (i : nat) (p : reporter) (memory : r_memory p),
  g_reporter r = Some i -> g_storage r = Holds p memory -> r_typed p = true -> (g_to_file r = true -> g_file r <> None) ->
  run_program lm fuel file duration r args = Ok (r2, out, s) ->
  g_reporter r2 = Some i /\ g_storage r2 = Vacant /\
  forall args' r3 out3 s3, run_tests lm fuel r2 args' = Ok (r3, out3, s3) -> events_of out3 <> [] ->
    run_program lm fuel file duration r2 args' = Err Assert.
Proof. exact second_run. Qed.
Print Assumptions C64_refuted.

Example C64_example :
  Forall speaks [console_reporter small at_file untimed; teamcity_reporter small at_file untimed] /\
  let twice name :=
    match parse_arguments (cli_of small) (quote "./demo") [quote "--reporter"; quote name] with
    | Ok (_, Some args) =>
      do (r1, _) <- configure small (fun _ => true) library args ;;
      do (r2, out, s) <- run_program small 5 at_file untimed r1 args ;;
      do (_, out', s') <- run_program small 5 at_file untimed r2 args ;;
      Ok (length out, length out')
    | _ => Err UB
    end in
  twice "console" = Err Assert /\ twice "xml" = Err Assert /\ twice "teamcity" = Ok (86, 86).
Proof.
  split; [|repeat split; vm_compute; reflexivity].
  constructor; [apply console_speaks|]. constructor; [apply teamcity_speaks|constructor].
Qed.

(** ** C65. Sections start before they end *)

(** For every body in which exceptions are caught by the library only: at any time, the sections of any kind (for example
    those of some name) have ended at most as often as they have started. Partial: see the next theorem. *)
Theorem C65_partial :
  forall (cf : config) (fuel : nat) (id : test_id) (line : nat) (p : prog) (tags : list text) (may should : bool),
  cf_verbosity cf = Full -> id_tags id = tag_string tags -> well_formed (cf_max_tag_length cf) tags -> tagged tags may should ->
  regular p -> nesting p <= cf_max_nested cf -> scopes p <= S (cf_max_nested cf) -> capturing p <= cf_max_captures cf -> Nat.max 1 (leaves p) <= fuel ->
  exists st, run cf fuel (mktest id line p) [] = Ok st /\ ends_after_start (brackets (trace st)).
Proof. exact run_balanced. Qed.
Print Assumptions C65_partial.

(** Also with sections inside [try] blocks and inside code evaluated by checks, if no exception leaves a section, handlers
    notify, and all passes go through the same sections [f] (see [C23_in_try]). *)
Theorem C65_in_try_partial :
  forall (cf : config) (fuel : nat) (id : test_id) (line : nat) (p f : prog) (tags : list text) (may should : bool),
  cf_verbosity cf = Full -> id_tags id = tag_string tags -> well_formed (cf_max_tag_length cf) tags -> tagged tags may should ->
  outline f -> notified p -> (forall pass, contained pass p /\ snd (flow pass p) = None /\ visits pass p f Nil) ->
  nesting p <= cf_max_nested cf -> scopes p <= S (cf_max_nested cf) -> capturing p <= cf_max_captures cf -> Nat.max 1 (leaves f) <= fuel ->
  exists st, run cf fuel (mktest id line p) [] = Ok st /\ ends_after_start (brackets (trace st)).
Proof. exact in_try_balanced. Qed.
Print Assumptions C65_in_try_partial.

(** A test that catches the exceptions of its sections itself gets two ends for a section, and with the XML reporter the
    depth of the document wraps around. *)
Theorem C65_refuted :
  (exists p st, run RunFacts.small 5 (mktest RunFacts.plain_id 0 p) [] = Ok st /\ ~ ends_after_start (brackets (trace st))) /\
  main_program caught_limits 5 (fun _ => quote "f") (fun _ => None) (fun _ => true) (caught_program [caught_xml]) (quote "p") [quote "--reporter"; quote "xml"] = Err Wrap.
Proof. exact (conj balance_refuted xml_balance_refuted). Qed.
Print Assumptions C65_refuted.

(** A handler that does not call [notify_exception_handled()] is enough: README.md calls that unnecessary in most cases,
    with consequences only if another exception is thrown. *)
Theorem C65_unnotified_refuted :
  RunFacts.shown_brackets (run RunFacts.small 5 (mktest RunFacts.plain_id 0 unnotified) []) =
    Some [Start (RunFacts.sec "A" 1); End (RunFacts.sec "A" 1); End (RunFacts.sec "A" 1); Start (RunFacts.sec "B" 2); End (RunFacts.sec "B" 2)].
Proof. exact unnotified_brackets. Qed.
Print Assumptions C65_unnotified_refuted.

Example C65_example :
  RunFacts.shown_brackets (run RunFacts.small 5 (mktest RunFacts.plain_id 0 RunFacts.crossed) []) =
    Some [Start (RunFacts.sec "A" 1); Start (RunFacts.sec "B" 3); Start (RunFacts.sec "C" 4); End (RunFacts.sec "C" 4); End (RunFacts.sec "A" 1)] /\
  regular RunFacts.crossed /\ nesting RunFacts.crossed = 3 /\ leaves RunFacts.crossed = 2 /\
  RunFacts.shown_brackets (run RunFacts.small 5 (mktest RunFacts.plain_id 0 caught) []) =
    Some [Start (RunFacts.sec "A" 1); Start (RunFacts.sec "B" 2); End (RunFacts.sec "B" 2); Start (RunFacts.sec "C" 3); End (RunFacts.sec "C" 3); End (RunFacts.sec "A" 1);
          Start (RunFacts.sec "D" 4); End (RunFacts.sec "D" 4); End (RunFacts.sec "A" 1)].
Proof. split; [vm_compute; reflexivity|]. split; [cbn; tauto|]. split; [reflexivity|]. split; [reflexivity|]. exact caught_brackets. Qed.

(** ** C66. Programs do not fail *)

(** If the tests are well formed and within the limits ([able]), the reporters are those of the library or others that
    never fail, and the output file can be opened, then whatever the command line (within the limit on its length) the
    program ends with exit code 0 or 1: it is not terminated, does not go on for ever, and does nothing undefined. *)
Theorem C66_never_fails :
  forall (lm : Session.limits) (fuel : nat) (file : event -> text) (duration : event -> option text) (can_open : text -> bool)
    (r : registry) (path : text) (argv : list text) (tests : list (test_case * list text)),
  length argv <= l_max_command_line_args lm -> g_reporter r = None -> g_to_file r = false ->
  g_tests r = map fst tests -> Forall (able lm fuel) tests -> listable lm argv tests ->
  (forall f, setting (read argv) (quote "--out") = Some (Some f) -> ~ In zero f /\ length f <= l_max_path_length lm /\ can_open f = true) ->
  Forall (fun p => starts p /\ (speaks p \/ p = xml_reporter lm file duration)) (g_reporters r) ->
  exists out code, main_program lm fuel file duration can_open r path argv = Ok (out, code) /\ code <= 1.
Proof. exact never_fails. Qed.
Print Assumptions C66_never_fails.

(** The reporters of the library are such reporters. *)
Theorem C66_reporters :
  forall (lm : Session.limits) (file : event -> text) (duration : event -> option text),
  Forall (fun p => starts p /\ (speaks p \/ p = xml_reporter lm file duration))
    [console_reporter lm file duration; xml_reporter lm file duration; teamcity_reporter lm file duration].
Proof. exact library_reporters. Qed.
Print Assumptions C66_reporters.

Example C66_example :
  Forall (able small 5) tagged_tests /\ (forall argv, listable small argv tagged_tests) /\
  Forall (fun p => starts p /\ (speaks p \/ p = xml_reporter small at_file untimed)) (g_reporters library) /\ g_tests library = map fst tagged_tests.
Proof.
  split; [exact tagged_tests_able|]. split; [|split; [exact (library_reporters _ _ _)|reflexivity]].
  intros argv. right. split; [repeat constructor; discriminate|]. exists [quote "[x]"]. split; [apply Nat.leb_le; reflexivity|].
  intros x t [<-|[<-|[<-|[]]]]; cbn; tauto.
Qed.
