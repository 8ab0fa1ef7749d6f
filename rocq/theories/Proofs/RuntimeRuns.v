(** Validation of the model against the project's own unit tests on sections, captures, runs and command lines:
    /repo/tests/runtime_tests/{section,capture,registry,cli,matchers,skip,check}.cpp, built with exceptions. These are tests of the model, not
    properties. The test bodies are those of Proofs/ApprovalTests.v and the ones below. *)
From Coq Require Import NArith ZArith.
From Verif.Spec Require Import TextSpec FilterSpec ExpressionSpec ValueSpec DeclareSpec CliSpec SessionSpec ProgramSpec UnwindingSpec Events.
From Verif.Model Require Import Base Vector StringUtil Filter Run Cli Session Reporters Values Expression Comparison Capture Declare Program Unwinding.
From Verif.Proofs Require Import ApprovalTests.
Local Open Scope list_scope.
Local Open Scope nat_scope.
Local Open Scope string_scope.
Local Open Scope list_scope.

(** ** sections and captures *)
Definition full_config : config := config_of approval_limits Full.
(** The failures, each with the names of the sections and the captures, and the end of the test case. *)
Definition failures (l : list Run.event) : list (list string * list string) :=
  flat_map (fun e => match e with
    | AssertionFailed _ sections captures _ _ _ _ => [(map (fun s => string_of_list_ascii (sec_name s)) sections, map string_of_list_ascii captures)]
    | _ => [] end) l.
Definition ending (l : list Run.event) : option (case_state * nat * nat) :=
  match rev l with TestCaseEnded _ _ c s :: _ => Some (s, n_all c, n_failed c) | _ => None end.
Definition run_body (b : prog) : option (list (list string * list string) * option (case_state * nat * nat)) :=
  match run full_config 20 (mktest (mkid (quote "mock") [] [] []) here b) [] with
  | Ok st => Some (failures (trace st), ending (trace st))
  | Err _ => None
  end.
Definition in_sections (b : prog) : option (list (list string) * option (case_state * nat * nat)) :=
  match run_body b with Some (l, e) => Some (map fst l, e) | None => None end.
Definition in_captures (b : prog) : option (list (list string)) :=
  match run_body b with Some (l, _) => Some (map snd l) | None => None end.
Definition trigger : prog := fail_check "trigger" Nil.
Definition throw_std (k : prog) : prog := Throw always (StdExn (quote "bad")) k.
Definition caught (notify : bool) (b k : prog) : prog := Catch (fun _ => true) notify b k.
Definition check_true (k : prog) : prog := Check here (IsTrue (fun _ => Expression (quote "CHECK") (quote "true") []) always) false Nil k.
Definition check_that (b : bool) (k : prog) : prog := Check here (IsTrue (fun _ => Expression (quote "CHECK") (quote "b") []) (fun _ => b)) false Nil k.
Definition fail_named (m : string) : prog := fail_with (quote m).
(** A block followed by [k]. *)
Definition block (b k : prog) : prog := followed b k.
Fixpoint repeated (n : nat) (i : nat) (b : nat -> prog -> prog) : prog := match n with 0 => Nil | S n' => b i (repeated n' (S i) b) end.

(** section.cpp:28-420 *)
Example runtime_sections :
  in_sections trigger = Some ([[]], Some (Failed, 2, 1)) /\
  in_sections (section "section 1" trigger Nil) = Some ([["section 1"]], Some (Failed, 2, 1)) /\
  in_sections (section "section 1" trigger (section "section 2" trigger Nil)) = Some ([["section 1"]; ["section 2"]], Some (Failed, 3, 2)) /\
  in_sections (section "section 1" (fail_check "trigger1" (section "section 1.1" trigger Nil)) Nil) =
    Some ([["section 1"]; ["section 1"; "section 1.1"]], Some (Failed, 3, 2)) /\
  (* nested sections abort early; std::exception throw; unknown exception throw *)
  in_sections (section "section 1" (followed (fail_named "trigger1") (section "section 1.1" trigger Nil)) (section "section 2" (fail_named "trigger2") Nil)) =
    Some ([["section 1"]], Some (Failed, 1, 1)) /\
  in_sections (section "section 1" (throw_std (section "section 1.1" trigger Nil)) (section "section 2" (fail_named "trigger2") Nil)) =
    Some ([["section 1"]], Some (Failed, 1, 1)) /\
  in_sections (section "section 1" (Throw always OtherExn (section "section 1.1" trigger Nil)) (section "section 2" (fail_named "trigger2") Nil)) =
    Some ([["section 1"]], Some (Failed, 1, 1)).
Proof. vm_compute. repeat split. Qed.

(** section.cpp:158-203 "unexpected throw with destructor assert" *)
Definition with_destructor (pass : bool) : option (list (list string) * option (case_state * nat * nat)) :=
  let check := GCheck here (IsTrue (fun _ => Expression (quote "CHECK") (quote "pass") []) (fun _ => pass)) false GNil GNil in
  match unwinding_run full_config 20 (mkid (quote "mock") [] [] []) here
    (GInSection (mksec (quote "section 1") [] here)
      (GScope check (GInSection (mksec (quote "section 2") [] here) (GThrow always (StdExn (quote "no can do")) GNil) GNil) GNil) GNil) [] with
  | Ok st => Some (map fst (failures (trace st)), ending (trace st))
  | Err _ => None
  end.
Example runtime_destructor_assert :
  with_destructor true = Some ([["section 1"; "section 2"]], Some (Failed, 2, 1)) /\
  with_destructor false = Some ([["section 1"; "section 2"]; ["section 1"; "section 2"]], Some (Failed, 2, 2)).
Proof. split; vm_compute; reflexivity. Qed.

(** section.cpp:206-376 *)
Example runtime_sections_nested :
  in_sections
    (check_true
    (section "section 1"
      (section "section 1.1" Nil
      (section "section 1.2" trigger
      (section "section 1.3" (section "section 1.3.1" trigger Nil)
      (section "section 1.3" Nil Nil))))
    (section "section 2" (section "section 2.1" trigger trigger)
    (section "section 3" trigger Nil)))) =
    Some ([["section 1"; "section 1.2"]; ["section 1"; "section 1.3"; "section 1.3.1"]; ["section 2"; "section 2.1"]; ["section 2"]; ["section 3"]],
      Some (Failed, 12, 5)) /\
  in_sections
    (section "section 1" (section "section 1.1" (section "section 1.1.1" trigger (section "section 1.1.2" trigger (section "section 1.1.3" trigger Nil))) Nil)
    (section "section 2" (section "section 2.1" (section "section 2.1.1" trigger (section "section 2.1.2" trigger (section "section 2.1.3" trigger Nil))) Nil)
    Nil)) =
    Some ([["section 1"; "section 1.1"; "section 1.1.1"]; ["section 1"; "section 1.1"; "section 1.1.2"]; ["section 1"; "section 1.1"; "section 1.1.3"];
           ["section 2"; "section 2.1"; "section 2.1.1"]; ["section 2"; "section 2.1"; "section 2.1.2"]; ["section 2"; "section 2.1"; "section 2.1.3"]],
      Some (Failed, 7, 6)) /\
  in_sections (repeated 5 0 (fun i k => check_true (section "section 1" trigger k))) =
    Some ([["section 1"]; ["section 1"]; ["section 1"]; ["section 1"]; ["section 1"]], Some (Failed, 31, 5)) /\
  in_sections (repeated 5 0 (fun i k => check_true (section "section 1" (check_that (Nat.even i) Nil) (section "section 2" (check_that (Nat.odd i) Nil) k)))) =
    Some ([["section 2"]; ["section 1"]; ["section 2"]; ["section 1"]; ["section 2"]], Some (Failed, 61, 5)) /\
  in_sections (section "section 1" Nil (section "section 2" (fail_named "trigger2") (section "section 3" (fail_named "trigger3") Nil))) =
    Some ([["section 2"]], Some (Failed, 1, 1)).
Proof. vm_compute. repeat split. Qed.

(** section.cpp:378-505 *)
Definition handled_section (notify : bool) (name : string) (k : prog) : prog := caught notify (section name (throw_std Nil) Nil) k.
Definition sections_of (b : prog) : option (list (list string)) := option_map fst (in_sections b).
Example runtime_sections_handled :
  sections_of (handled_section false "section 1" (section "section 2" trigger Nil)) = Some [["section 2"]] /\
  sections_of (handled_section false "section 1" trigger) = Some [[]] /\
  sections_of (handled_section false "section 1" (handled_section false "section 2" (section "section 3" trigger Nil))) = Some [["section 3"]] /\
  sections_of (handled_section false "section 1" (section "section 2" (throw_std Nil) Nil)) = Some [["section 2"]] /\
  sections_of (handled_section false "section 1" (throw_std Nil)) = Some [["section 1"]] /\
  sections_of (handled_section true "section 1" (throw_std Nil)) = Some [[]].
Proof. vm_compute. repeat split. Qed.

(** section.cpp:509-555 "section readme example": S|1|E|S|2|E|S|3|3.1|E|S|3|3.2|E; what is printed is known by numbers. *)
Definition acts (l : list Run.event) : list nat := flat_map (fun e => match e with User n => [n] | _ => [] end) l.
Example runtime_sections_readme :
  match run full_config 20 (mktest (mkid (quote "mock") [] [] []) here
    (Act 0
      (section "first section" (Act 1 Nil)
      (section "second section" (Act 2 Nil)
      (section "third section" (Act 3 (section "nested section 1" (Act 31 Nil) (section "nested section 2" (Act 32 Nil) Nil)))
      (Act 9 Nil)))))) [] with
  | Ok st => Some (acts (trace st))
  | Err _ => None
  end = Some [0; 1; 9; 0; 2; 9; 0; 3; 31; 9; 0; 3; 32; 9].
Proof. vm_compute. reflexivity. Qed.

(** capture.cpp:15-300 *)
Definition capture_all (names : string) (values : list string) (b k : prog) : prog :=
  match capture_texts (quote names) (map quote values) with Ok l => Events.Capture (map (fun p _ => p) l) b k | Err _ => Act 0 k end.
Example runtime_captures :
  in_captures (capture "1" "1" trigger Nil) = Some [["1 := 1"]] /\
  in_captures (capture """hello""" "hello" trigger Nil) = Some [["""hello"" := hello"]] /\
  in_captures (capture "i" "1" trigger Nil) = Some [["i := 1"]] /\
  in_captures (capture "2 * i + 1" "3" trigger Nil) = Some [["2 * i + 1 := 3"]] /\
  in_captures (capture "s + "", 'world' (string),)(""" "hello, 'world' (string),)(" trigger Nil) =
    Some [["s + "", 'world' (string),)("" := hello, 'world' (string),)("]] /\
  in_captures (capture "s.find_first_of('e')" "1" (capture "s.find_first_of('""')" "3" trigger Nil) Nil) =
    Some [["s.find_first_of('e') := 1"; "s.find_first_of('""') := 3"]] /\
  in_captures (capture_all "i, j" ["1"; "2"] trigger Nil) = Some [["i := 1"; "j := 2"]] /\
  in_captures (capture_all "i, j, s" ["1"; "2"; "hello"] trigger Nil) = Some [["i := 1"; "j := 2"; "s := hello"]] /\
  in_captures (capture "i" "1" Nil trigger) = Some [[]] /\
  in_captures (capture "i" "1" (capture "j" "2" Nil trigger) Nil) = Some [["i := 1"]] /\
  in_captures (capture "i" "1" (fail_check "trigger1" (fail_check "trigger2" Nil)) Nil) = Some [["i := 1"]; ["i := 1"]] /\
  in_captures (capture "i" "1" (fail_check "trigger1" (capture "2 * i" "2" (fail_check "trigger2" Nil) Nil)) Nil) = Some [["i := 1"]; ["i := 1"; "2 * i := 2"]] /\
  in_captures (capture "i" "0" Nil (capture "i" "1" (throw_std Nil) Nil)) = Some [["i := 1"]].
Proof. vm_compute. repeat split. Qed.
Definition handled_capture (notify : bool) (name value : string) (k : prog) : prog := caught notify (capture name value (throw_std Nil) Nil) k.
Example runtime_captures_handled :
  in_captures (handled_capture false "i" "1" (capture "j" "2" (check_that false Nil) Nil)) = Some [["j := 2"]] /\
  in_captures (handled_capture false "i" "1" (check_that false Nil)) = Some [[]] /\
  in_captures (handled_capture false "i" "1" (handled_capture false "j" "2" (capture "k" "3" (check_that false Nil) Nil))) = Some [["k := 3"]] /\
  in_captures (handled_capture false "i" "1" (capture "j" "2" (throw_std Nil) Nil)) = Some [["j := 2"]] /\
  in_captures (handled_capture false "i" "1" (throw_std Nil)) = Some [["i := 1"]] /\
  in_captures (handled_capture true "i" "1" (throw_std Nil)) = Some [[]].
Proof. vm_compute. repeat split. Qed.

(** ** registry.cpp:279-345 *)
Definition registry_declarations : list (declaration prog) := [
  TestCase (quote "how are you") (quote "[tag]") here (Act 1 Nil);
  TestCase (quote "how many lights") (quote "[tag][other_tag]") here (Act 2 (fail_check "there are four lights" Nil));
  TestCase (quote "drink from the cup") (quote "[tag][skipped]") here (Act 3 (Skip here (fun _ => quote "not thirsty") false Nil));
  TemplateTestCase (quote "how many templated lights") (quote "[tag][tag with spaces]") [quote "int"; quote "float"] here
    (fun t => if seqb t (quote "int") then Act 4 (fail_check "there are four lights (int)" Nil) else Act 5 (fail_check "there are four lights (float)" Nil));
  TestCase (quote "hidden test 1") (quote "[.][hidden][other_tag]") here (Act 6 Nil);
  TestCase (quote "hidden test 2") (quote "[.hidden]") here (Act 7 Nil);
  TestCase (quote "may fail that does not fail") (quote "[.][may fail][!mayfail]") here Nil;
  TestCase (quote "may fail that does fail") (quote "[.][may fail][!mayfail]") here (fail_check "it did fail" Nil);
  TestCase (quote "should fail that does not fail") (quote "[.][should fail][!shouldfail]") here Nil;
  TestCase (quote "should fail that does fail") (quote "[.][should fail][!shouldfail]") here (fail_check "it did fail" Nil);
  TestCase (quote "may+should fail that does not fail") (quote "[.][may+should fail][!mayfail][!shouldfail]") here Nil;
  TestCase (quote "may+should fail that does fail") (quote "[.][may+should fail][!mayfail][!shouldfail]") here (fail_check "it did fail" Nil)
].
Definition registry_tests : list test_case := match declare_all Gcc 200 130 [] registry_declarations with Ok l => l | Err _ => [] end.
(** The arguments of CHECK_RUN, and the tests called. *)
Definition summary_of (l : list Run.event) : option (bool * list nat) :=
  match rev l with TestRunEnded _ _ run failed allowed skipped c success :: _ => Some (success, [run; failed; allowed; skipped; n_all c; n_failed c; n_allowed c]) | _ => None end.
Definition selected (predicate : test_id -> res bool) (filters : list str) : option (option (bool * list nat) * list nat) :=
  match run_selected_tests approval_limits 20 Full registry_tests (quote "test_app") filters predicate with
  | Ok (l, _) => Some (summary_of l, acts l) | Err _ => None end.
Definition by_name (f : string) := selected (fun id => Ok (included (is_filter_match_name (id_name id) (quote f)))) [quote f].
Definition by_tags (f : string) := selected (fun id => do x <- is_filter_match_tags 256 (id_tags id) (quote f) ;; Ok (included x)) [quote f].
Definition by_default : option (option (bool * list nat) * list nat) :=
  match run_default approval_limits 20 Full registry_tests (quote "test_app") with Ok (l, _) => Some (summary_of l, acts l) | Err _ => None end.

(** registry.cpp:347-545 "run tests" *)
Example runtime_runs :
  by_default = Some (Some (false, [5; 3; 0; 1; 7; 3; 0]), [1; 2; 3; 4; 5]) /\
  by_name "*are you" = Some (Some (true, [1; 0; 0; 0; 1; 0; 0]), [1]) /\
  by_name "*lights*" = Some (Some (false, [3; 3; 0; 0; 6; 3; 0]), [2; 4; 5]) /\
  by_name "*cup" = Some (Some (true, [1; 0; 0; 1; 0; 0; 0]), [3]) /\
  by_tags "[other_tag]" = Some (Some (false, [2; 1; 0; 0; 3; 1; 0]), [2; 6]) /\
  by_tags "*tag]" = Some (Some (false, [6; 3; 0; 1; 8; 3; 0]), [1; 2; 3; 4; 5; 6]) /\
  by_tags "[hidden]" = Some (Some (true, [2; 0; 0; 0; 2; 0; 0]), [6; 7]) /\
  by_tags "[may fail]" = Some (Some (true, [2; 0; 1; 0; 3; 0; 1]), []) /\
  by_tags "[should fail]" = Some (Some (false, [2; 1; 1; 0; 5; 1; 1]), []) /\
  by_tags "[may+should fail]" = Some (Some (true, [2; 0; 2; 0; 5; 0; 2]), []).
Proof. vm_compute. repeat split. Qed.

(** ** cli.cpp *)
Definition cc : cli_config := cli_of approval_limits.
Definition contains (t : text) (p : string) : bool := match find t (quote p) with Some _ => true | None => false end.
(** The executable and the arguments, if accepted; nothing was said. *)
Definition accepted (path : string) (l : list string) : option (string * list (string * option string * option string)) :=
  match parse_arguments cc (quote path) (map quote l) with
  | Ok ([], Some i) =>
    Some (string_of_list_ascii (executable i),
      map (fun a => (string_of_list_ascii (a_name a), option_map string_of_list_ascii (a_value_name a), option_map string_of_list_ascii (a_value a))) (arguments i))
  | _ => None
  end.
(** Whether the arguments are accepted, how many are kept, and whether [p] is in the messages. *)
Definition said (l : list string) (p : string) : option (option nat * bool) :=
  match parse_arguments cc (quote "test") (map quote l) with
  | Ok (out, i) => Some (option_map (fun i => length (arguments i)) i, contains (concat out) p)
  | _ => None
  end.
Definition positional (l : list string) : option (option string * list string) :=
  match parse_arguments cc (quote "test") (map quote l) with
  | Ok (_, Some i) =>
    match get_positional_argument i (quote "test regex"), for_each_positional_argument i (quote "test regex") with
    | a, Ok v => Some (match a with Some a => option_map string_of_list_ascii (a_value a) | None => None end, map string_of_list_ascii v)
    | _, _ => None
    end
  | _ => None
  end.
Example runtime_cli :
  accepted "test" [] = Some ("test", []) /\ accepted "test.exe" [] = Some ("test", []) /\ accepted "test.something.exe" [] = Some ("test.something", []) /\
  accepted "test" ["--help"] = Some ("test", [("--help", None, None)]) /\
  accepted "test" ["-h"] = Some ("test", [("--help", None, None)]) /\
  said ["--help"; "--help"] "duplicate command line argument '--help'" = Some (None, true) /\
  accepted "test" ["--verbosity"; "high"] = Some ("test", [("--verbosity", Some "quiet|normal|high|full", Some "high")]) /\
  accepted "test" ["-v"; "high"] = Some ("test", [("--verbosity", Some "quiet|normal|high|full", Some "high")]) /\
  said ["--verbosity"] "missing value '<quiet|normal|high|full>' for command line argument '--verbosity'" = Some (None, true) /\
  said ["--make-coffee"] "unknown command line argument '--make-coffee'" = Some (Some 0, true) /\
  said ["--invisibles"] "unknown command line argument '--invisibles'" = Some (Some 0, true) /\
  said ["--wait-for-keypress"; "never"] "unknown command line argument '--wait-for-keypress'" = Some (Some 0, true) /\
  accepted "test" ["arg1"] = Some ("test", [("", Some "test regex", Some "arg1")]) /\
  accepted "test" ["arg1"; "arg2"] = Some ("test", [("", Some "test regex", Some "arg1"); ("", Some "test regex", Some "arg2")]).
Proof. vm_compute. repeat split. Qed.
(** No color codes in the errors. *)
Example runtime_cli_color :
  option_map snd (said ["--color"; "never"; "--color"; "always"] esc) = Some false /\
  option_map snd (said ["--color"; "never"; "--verbosity"] esc) = Some false /\
  option_map snd (said ["--color"; "never"; "--foobar"] esc) = Some false.
Proof. vm_compute. repeat split. Qed.
Example runtime_cli_positional :
  positional ["--help"; "--verbosity"; "high"; "arg1"] = Some (Some "arg1", ["arg1"]) /\
  positional ["--help"; "arg1"; "--verbosity"; "high"] = Some (Some "arg1", ["arg1"]) /\
  positional ["arg1"; "--help"; "--verbosity"; "high"] = Some (Some "arg1", ["arg1"]) /\
  positional ["arg1"] = Some (Some "arg1", ["arg1"]) /\
  positional ["arg1"; "arg2"] = Some (Some "arg1", ["arg1"; "arg2"]) /\
  positional ["arg1"; "--verbosity"; "high"; "arg2"] = Some (Some "arg1", ["arg1"; "arg2"]) /\
  positional ["--help"; "--verbosity"; "high"] = Some (None, []) /\
  positional [] = Some (None, []).
Proof. vm_compute. repeat split. Qed.

(** ** registry.cpp:547-1128: listings and configuration, for the registry above with the reporters of the library *)
Definition mock_registry (color : bool) : registry :=
  let file := file_of_event "" in
  let duration := fun _ : Run.event => Some (quote "*") in
  mkregistry registry_tests [console_reporter approval_limits file duration; xml_reporter approval_limits file duration; teamcity_reporter approval_limits file duration]
    Normal color None None false Vacant.
Definition configured (color : bool) (l : list string) : option (registry * text) :=
  match parse_arguments cc (quote "test") (map quote l) with
  | Ok (_, Some i) => match configure approval_limits (fun f => negb (seqb f [])) (mock_registry color) i with Ok (r, out) => Some (r, console_text out) | Err _ => None end
  | _ => None
  end.
Definition color_after (color : bool) (l : list string) : option bool := option_map (fun p => g_with_color (fst p)) (configured color l).
Definition verbosity_after (l : list string) : option verbosity := option_map (fun p => g_verbose (fst p)) (configured false l).
Definition told_after (l : list string) (p : string) : option bool := option_map (fun q => contains (snd q) p) (configured false l).
Example runtime_configure :
  color_after false ["--color"; "always"] = Some true /\ color_after false ["--colour-mode"; "ansi"] = Some true /\
  color_after true ["--color"; "never"] = Some false /\ color_after true ["--colour-mode"; "none"] = Some false /\
  color_after true ["--color"; "default"] = Some true /\ color_after false ["--color"; "default"] = Some false /\
  color_after true ["--colour-mode"; "default"] = Some true /\ color_after false ["--colour-mode"; "default"] = Some false /\
  told_after ["--color"; "bad"] "unknown color directive" = Some true /\ told_after ["--colour-mode"; "bad"] "unknown color directive" = Some true /\
  verbosity_after ["--verbosity"; "quiet"] = Some Quiet /\ verbosity_after ["--verbosity"; "normal"] = Some Normal /\
  verbosity_after ["--verbosity"; "high"] = Some High /\ verbosity_after ["--verbosity"; "full"] = Some Full /\
  told_after ["--verbosity"; "bad"] "unknown verbosity level" = Some true /\
  told_after ["--reporter"; "console"] "error" = Some false /\
  color_after true ["--reporter"; "console::color=never"] = Some false /\
  color_after false ["--reporter"; "console::color=never::colour-mode=none"] = Some false /\
  told_after ["--reporter"; "console::abcd=never"] "unknown reporter option 'abcd'" = Some true /\
  told_after ["--reporter"; "console::abcdnever"] "badly formatted reporter option 'abcdnever'; expected 'key=value'" = Some true /\
  told_after ["--reporter"; "console::=value"] "badly formatted reporter option '=value'; expected 'key=value'" = Some true /\
  told_after ["--reporter"; "console::="] "badly formatted reporter option '='; expected 'key=value'" = Some true /\
  told_after ["--reporter"; ""] "invalid reporter" = Some true /\ told_after ["--reporter"; ":"] "invalid reporter" = Some true /\
  told_after ["--reporter"; "::"] "invalid reporter" = Some true /\ told_after ["--reporter"; ":::"] "invalid reporter" = Some true /\
  told_after ["--reporter"; "::::"] "invalid reporter" = Some true /\
  told_after ["--reporter"; "fantasio"] "unknown reporter 'fantasio', using default" = Some true /\
  color_after false ["--out"; ""] = None /\ color_after false ["--out"; "test_output.txt"] = Some false.
Proof. vm_compute. repeat split. Qed.

(** The program: its events, what it shows on the console, and what it writes to the file. *)
Definition performed (l : list string) : option (list Run.event * text * text) :=
  match main approval_limits 20 (fun f => negb (seqb f [])) (mock_registry false) (quote "test") (map quote l),
        main_program approval_limits 20 (file_of_event "") (fun _ => Some (quote "*")) (fun f => negb (seqb f [])) (mock_registry false) (quote "test") (map quote l) with
  | Ok (events, _), Ok (out, _) => Some (events_of events, console_text out, file_text out)
  | _, _ => None
  end.
Definition shows (l : list string) (yes no : list string) : bool :=
  match performed l with Some (_, t, _) => forallb (contains t) yes && forallb (fun p => negb (contains t p)) no | None => false end.
Definition run_of (l : list string) : option (bool * list nat) := match performed l with Some (e, _, _) => summary_of e | None => None end.
Definition listed (l : list string) : option (nat * list string) :=
  match performed l with
  | Some (e, _, _) => Some (length e, flat_map (fun e => match e with TestCaseListed id _ => [string_of_list_ascii (id_name id ++ id_type id)] | _ => [] end) e)
  | None => None
  end.
Example runtime_run_cli :
  run_of [] = Some (false, [5; 3; 0; 1; 7; 3; 0]) /\
  run_of ["how many*"] = Some (false, [3; 3; 0; 0; 6; 3; 0]) /\
  run_of ["how many*"; "*templated*"] = Some (false, [2; 2; 0; 0; 4; 2; 0]) /\
  run_of ["how many*,*are you"] = Some (false, [4; 3; 0; 0; 7; 3; 0]) /\
  run_of ["~*fail"] = Some (false, [5; 3; 0; 1; 7; 3; 0]) /\
  run_of ["hidden test*"] = Some (true, [2; 0; 0; 0; 2; 0; 0]) /\
  run_of ["[skipped]"] = Some (true, [1; 0; 0; 1; 0; 0; 0]) /\
  run_of ["[other_tag][tag]"] = Some (false, [1; 1; 0; 0; 2; 1; 0]) /\
  run_of ["[tag]"; "*many lights"] = Some (false, [1; 1; 0; 0; 2; 1; 0]) /\
  run_of ["[other_tag],how are*"] = Some (false, [3; 1; 0; 0; 4; 1; 0]).
Proof. vm_compute. repeat split. Qed.
Example runtime_listings :
  shows ["--help"] ["test [options...]"] [] = true /\ shows ["--help"; "--color"; "never"] [] [esc] = true /\
  option_map fst (listed ["--list-tests"]) = Some 15 /\
  listed ["--list-tests"; "how*"] = Some (6, ["how are you"; "how many lights"; "how many templated lightsint"; "how many templated lightsfloat"]) /\
  listed ["--list-tests-with-tag"; "[other_tag]"] = Some (4, ["how many lights"; "hidden test 1"]) /\
  option_map fst (listed ["--list-tags"]) = Some 0 /\
  shows ["--list-tags"] ["[tag]"; "[skipped]"; "[other_tag]"; "[tag with spaces]"; "[hidden]"; "[.]"; "[!shouldfail]"; "[!mayfail]"] ["[.hidden]"] = true /\
  shows ["--list-reporters"] ["console"] ["custom"] = true /\
  shows ["--list-tests"] ["how are you"; "how many lights"; "drink from the cup"; "how many templated lights <int>"; "how many templated lights <float>"; "hidden test 1"; "hidden test 2"] [] = true /\
  shows ["--list-tests-with-tag"; "[tag]"] ["Matching test cases:"; "how are you"; "how many lights"; "drink from the cup"; "how many templated lights <int>"; "how many templated lights <float>"; "matching test cases"] [] = true /\
  shows ["--list-tests-with-tag"; "[skipped]"] ["drink from the cup"] ["how are you"; "how many lights"; "how many templated lights <int>"; "how many templated lights <float>"] = true /\
  shows ["--list-tests-with-tag"; "[tag with spaces]"] ["how many templated lights <int>"; "how many templated lights <float>"] ["how are you"; "how many lights"; "drink from the cup"] = true /\
  shows ["--list-tests-with-tag"; "[hidden]"] ["hidden test 1"; "hidden test 2"] [] = true /\ shows ["--list-tests-with-tag"; "[.]"] ["hidden test 1"; "hidden test 2"] [] = true /\
  shows ["--list-tests-with-tag"; "*tag]"] ["how are you"; "how many lights"; "drink from the cup"; "how many templated lights"; "hidden test 1"] [] = true /\
  option_map (fun p => snd (fst p)) (performed ["--list-tests-with-tag"; "[wrong_tag]"]) = Some (lines ["Matching test cases:"; "0 matching test cases"]) /\
  option_map (fun p => snd (fst p)) (performed ["--list-tests-with-tag"; "[.hidden]"]) = Some (lines ["Matching test cases:"; "0 matching test cases"]).
Proof. vm_compute. repeat split. Qed.
(** registry.cpp:838-858 "configure output" *)
Example runtime_output :
  match performed ["--out"; "test_output.txt"] with Some (_, console, file) => Some (console, contains file "starting test with snitch") | None => None end = Some ([], true).
Proof. vm_compute. reflexivity. Qed.

(** ** matchers.cpp:52-112 *)
Definition told (r : res sstr) : option string := match r with Ok s => Some (string_of_list_ascii (vcontent s)) | Err _ => None end.
Definition digit_of (n : nat) : text := quote (nth n ["0"; "1"; "2"; "3"; "4"; "5"] "?").
Example runtime_matchers :
  map (fun p => contains_match (quote p) (quote "info: hello")) ["hello"; "warning"] = [true; false] /\
  told (contains_describe 129 (quote "hello") (quote "info: hello") Matched) = Some "found 'hello' in 'info: hello'" /\
  told (contains_describe 129 (quote "warning") (quote "info: hello") DidNotMatch) = Some "could not find 'warning' in 'info: hello'" /\
  map (fun p => what_match quote (quote p) "not good") ["good"; "not good"; "bad"; "is good"] = [true; true; false; false] /\
  told (what_describe quote 129 (quote "good") "not good" Matched) = Some "found 'good' in 'not good'" /\
  told (what_describe quote 129 (quote "bad") "not good" DidNotMatch) = Some "could not find 'bad' in 'not good'" /\
  map (any_of_match Nat.eqb [1; 2; 3]) [1; 2; 3; 0; 4; 5] = [true; true; true; false; false; false] /\
  told (any_of_describe digit_of 129 [1; 2; 3] 2 Matched) = Some "'2' was found in {'1', '2', '3'}" /\
  told (any_of_describe digit_of 129 [1; 2; 3] 5 DidNotMatch) = Some "'5' was not found in {'1', '2', '3'}".
Proof. vm_compute. repeat split. Qed.

(** ** skip.cpp *)
Definition skips (l : list Run.event) : nat := length (filter (fun e => match e with TestCaseSkipped _ _ _ _ _ => true | _ => false end) l).
Definition skips_and_failures (b : prog) : option (nat * nat) :=
  match run full_config 20 (mktest (mkid (quote "mock") [] [] []) here b) [] with
  | Ok st => Some (skips (trace st), length (failures (trace st)))
  | Err _ => None
  end.
Definition skip (k : prog) : prog := Skip here (fun _ => quote "hello") true k.
Definition skip_check (k : prog) : prog := Skip here (fun _ => quote "hello") false k.
Example runtime_skip :
  skips_and_failures trigger = Some (0, 1) /\
  skips_and_failures (skip Nil) = Some (1, 0) /\
  skips_and_failures (skip trigger) = Some (1, 0) /\
  skips_and_failures (section "section 1" (skip Nil) (section "section 2" trigger Nil)) = Some (1, 0) /\
  skips_and_failures (skip_check Nil) = Some (1, 0) /\
  skips_and_failures (skip_check (fail_check "trigger" one_is_two)) = Some (1, 0) /\
  skips_and_failures (section "section 1" (skip_check Nil) (section "section 2" trigger Nil)) = Some (1, 0).
Proof. vm_compute. repeat split. Qed.

(** ** check.cpp: the values shown for unary and binary expressions that fail *)
Definition unary (v : value) : option (bool * string) :=
  match unary_built_in (AtRunTime None [] []) 128 false true (quote "CHECK") (quote "value") truth v with
  | Ok e => Some (x_success e, string_of_list_ascii (vcontent (x_actual e))) | Err _ => None end.
Definition binary (expected : bool) (o : operator) (a b : value) : option (bool * string) :=
  match binary_built_in (AtRunTime None [] []) 128 false expected (quote "CHECK") (quote "value1 == value2") equality o a b with
  | Ok e => Some (x_success e, string_of_list_ascii (vcontent (x_actual e))) | Err _ => None end.
Example runtime_check_unary :
  map unary [Boolean true; Boolean false; int_ 5; int_ 0] = [Some (true, ""); Some (false, "false"); Some (true, ""); Some (false, "0")].
Proof. vm_compute. reflexivity. Qed.
Example runtime_check_binary :
  map (fun '(o, a, b) => binary true o (int_ a) (int_ b))
    [(Equal, 0, 0); (NotEqual, 0, 1); (Less, 0, 1); (Greater, 1, 0); (LessEqual, 0, 1); (GreaterEqual, 1, 0)]%Z =
    repeat (Some (true, "")) 6 /\
  map (fun '(o, a, b) => binary true o (int_ a) (int_ b))
    [(Equal, 0, 1); (NotEqual, 0, 0); (Less, 1, 0); (Greater, 0, 1); (LessEqual, 1, 0); (GreaterEqual, 0, 1)]%Z =
    [Some (false, "0 != 1"); Some (false, "0 == 0"); Some (false, "1 >= 0"); Some (false, "0 <= 1"); Some (false, "1 > 0"); Some (false, "0 < 1")] /\
  (* CHECK_FALSE: 797-840 *)
  binary false GreaterEqual (int_ 1) (int_ 0) = Some (false, "1 >= 0") /\ binary false GreaterEqual (int_ 0) (int_ 1) = Some (true, "").
Proof. vm_compute. repeat split. Qed.
(** 1019-1034: operands that cannot be appended; 1036-1110: matchers, and descriptions that are too long. *)
Definition against (m : matcher text) (v : text) : option (bool * string) :=
  match matcher_expression 128 false true (quote "CHECK") (quote "e") m true v with
  | Ok e => Some (x_success e, string_of_list_ascii (vcontent (x_actual e))) | Err _ => None end.
Definition opaque_operands (o : operator) (actual : bool) : option (bool * string) :=
  match binary_expression 128 false true (quote "CHECK") (quote "e") (fun _ (_ _ : unit) => actual) (fun _ => None) (fun _ => None) o tt tt with
  | Ok e => Some (x_success e, string_of_list_ascii (vcontent (x_actual e))) | Err _ => None end.
Definition described (r : res sstr) : text := match r with Ok s => vcontent s | Err _ => [] end.
Example runtime_check_misc :
  opaque_operands Equal false = Some (false, "? != ?") /\
  against (mkmatcher (fun _ => false) (fun _ _ => many "m")) (quote "hello") = Some (false, "") /\
  against (mkmatcher (contains_match (quote "foo")) (fun v s => described (contains_describe 129 (quote "foo") v s))) (quote "hello")
    = Some (false, "could not find 'foo' in 'hello'").
Proof. vm_compute. repeat split. Qed.
