(** Model of whole runs: the registry's options, reporters, listings and runs (src/snitch_registry.cpp:303-335,
    706-1118) and [main] (src/snitch_main.cpp). Test cases are run by Model/Run.v, command lines read by
    Model/Cli.v. *)
From Verif.Spec Require Import PrintSpec CliSpec Events SessionSpec.
From Verif.Model Require Import Base Vector StringUtil Print Filter Run Cli File.

(** Limits and build options (include/snitch/snitch_config.hpp). *)
Record limits := mklimits {
  l_max_nested : nat; l_max_captures : nat; l_max_capture_length : nat; l_max_message_length : nat;
  l_max_tag_length : nat; l_max_test_name_length : nat; l_max_unique_tags : nat; l_max_command_line_args : nat;
  l_max_reporters : nat; l_max_path_length : nat; l_default_with_color : bool; l_version : str
}.
Definition cli_of (lm : limits) : cli_config :=
  mkcli (l_max_message_length lm) (l_max_command_line_args lm) (l_default_with_color lm) (l_version lm).
Definition config_of (lm : limits) (v : verbosity) : config :=
  mkconfig v (l_max_nested lm) (l_max_captures lm) (l_max_capture_length lm) (l_max_message_length lm) (l_max_tag_length lm).

(** What a reporter may read and change in the registry: [registry::verbose] and [registry::with_color]. *)
Record modes := mkmodes { m_verbose : verbosity; m_color : bool }.

(** include/snitch/snitch_registry.hpp:101-108 [registered_reporter]: its name; whether it is registered by a type T with
    [add_reporter<T>] (212-219) rather than by callbacks; its data, namely the members of T; its [initialize] function,
    namely the constructor of T; its [configure] function, which tells whether the option is known; and its [report]
    function. The texts are those printed on the console with [cli::print] by the first two functions, and with
    [registry::print] by the last. Simplification: they change nothing else in the registry. *)
Record reporter := mkreporter {
  r_name : str;
  r_typed : bool;
  r_memory : Type;
  r_initialize : modes -> res (r_memory * modes * list str);
  r_configure : modes -> r_memory -> str -> str -> res (r_memory * modes * list str * bool);
  r_report : modes -> r_memory -> event -> res (r_memory * list str)
}.

(** include/snitch/snitch_registry.hpp:127-128 [reporter_storage]: nothing, the default reporter (whose only data member
    is a counter), or a registered one. Simplification: so are the data of a reporter registered by callbacks, which are
    in fact elsewhere. *)
Inductive storage :=
| Vacant
| Default (counter : nat)
| Holds (p : reporter) (memory : r_memory p).

(** The parts of [registry] (include/snitch/snitch_registry.hpp:118-160) used here. [g_reporter] is the index of the
    reporter that receives events, [None] for the default one; [g_file] is the output file ([file_writer]); [g_to_file]
    tells that [print_callback] is the [write] function of [file_writer] (otherwise it prints on the console). *)
Record registry := mkregistry {
  g_tests : list test_case;
  g_reporters : list reporter;
  g_verbose : verbosity;
  g_with_color : bool;
  g_reporter : option nat;
  g_file : option str;
  g_to_file : bool;
  g_storage : storage
}.
Definition modes_of (r : registry) : modes := mkmodes (g_verbose r) (g_with_color r).
Definition set_verbose (r : registry) (v : verbosity) : registry :=
  mkregistry (g_tests r) (g_reporters r) v (g_with_color r) (g_reporter r) (g_file r) (g_to_file r) (g_storage r).
Definition set_with_color (r : registry) (b : bool) : registry :=
  mkregistry (g_tests r) (g_reporters r) (g_verbose r) b (g_reporter r) (g_file r) (g_to_file r) (g_storage r).
Definition set_reporter (r : registry) (i : nat) (m : modes) (x : storage) : registry :=
  mkregistry (g_tests r) (g_reporters r) (m_verbose m) (m_color m) (Some i) (g_file r) (g_to_file r) x.
Definition set_storage (r : registry) (x : storage) : registry :=
  mkregistry (g_tests r) (g_reporters r) (g_verbose r) (g_with_color r) (g_reporter r) (g_file r) (g_to_file r) x.
Definition set_file (r : registry) (f : option str) : registry :=
  mkregistry (g_tests r) (g_reporters r) (g_verbose r) (g_with_color r) (g_reporter r) f (g_to_file r) (g_storage r).
Definition set_to_file (r : registry) : registry :=
  mkregistry (g_tests r) (g_reporters r) (g_verbose r) (g_with_color r) (g_reporter r) (g_file r) true (g_storage r).

Notation output := (output test_id).

Section Session.
Variable lm : limits.
Variable fuel : nat. (* of each test case *)

Definition mm : nat := l_max_message_length lm.
Definition mt : nat := l_max_tag_length lm.
Definition mn : nat := l_max_test_name_length lm.

(** ** Runs, src/snitch_registry.cpp:706-803 [run_selected_tests] *)

(** The counters of 717-724. Simplification: unbounded (the code uses [std::size_t]). *)
Record summary := mksummary {
  s_success : bool; s_run : nat; s_fail : nat; s_allowed_fail : nat; s_skip : nat; s_counts : counts
}.

(** 736-762. *)
Definition count_test (s : summary) (st : state) : summary :=
  let c := s_counts s in
  let c' := mkcounts (n_all c + n_all (asserts st)) (n_failed c + n_failed (asserts st)) (n_allowed c + n_allowed (asserts st)) in
  match status st with
  | ISuccess => mksummary (s_success s) (S (s_run s)) (s_fail s) (s_allowed_fail s) (s_skip s) c'
  | IAllowedFail => mksummary (s_success s) (S (s_run s)) (s_fail s) (S (s_allowed_fail s)) (s_skip s) c'
  | IFailed => mksummary false (S (s_run s)) (S (s_fail s)) (s_allowed_fail s) (s_skip s) c'
  | ISkipped => mksummary (s_success s) (S (s_run s)) (s_fail s) (s_allowed_fail s) (S (s_skip s)) c'
  | INotRun => mksummary (s_success s) (S (s_run s)) (s_fail s) (s_allowed_fail s) (s_skip s) c'
  end.

(** 730-763. *)
Fixpoint run_loop (cf : config) (predicate : test_id -> res bool) (tests : list test_case) (s : summary) (events : list event)
  : res (summary * list event) :=
  match tests with
  | [] => Ok (s, events)
  | t :: tests' =>
    do b <- predicate (t_id t) ;;
    if b : bool then
      do st <- run cf fuel t events ;;
      run_loop cf predicate tests' (count_test s st) (trace st)
    else run_loop cf predicate tests' s events
  end.

(** 706-803; returns the events and the result. *)
Definition run_selected_tests (v : verbosity) (tests : list test_case) (run_name : str) (filters : list str)
  (predicate : test_id -> res bool) : res (list event * bool) :=
  let report e := if vlevel Normal <=? vlevel v then [e] else [] in
  do (s, events) <- run_loop (config_of lm v) predicate tests (mksummary true 0 0 0 0 (mkcounts 0 0 0))
                      (report (TestRunStarted run_name filters)) ;;
  Ok (events ++ report (TestRunEnded run_name filters (s_run s) (s_fail s) (s_allowed_fail s) (s_skip s) (s_counts s) (s_success s)),
      s_success s).

(** 805-811 [run_tests(std::string_view)]. *)
Definition run_default (v : verbosity) (tests : list test_case) (run_name : str) : res (list event * bool) :=
  run_selected_tests v tests run_name [] (default_selects mt).

(** ** Listings, src/snitch_registry.cpp:101-113 [list_tests] *)
Fixpoint list_loop (predicate : test_id -> res bool) (tests : list test_case) : res (list event) :=
  match tests with
  | [] => Ok []
  | t :: tests' =>
    do b <- predicate (t_id t) ;;
    do l <- list_loop predicate tests' ;;
    Ok (if b : bool then TestCaseListed (t_id t) (t_line t) :: l else l)
  end.
Definition list_events (tests : list test_case) (predicate : test_id -> res bool) : res (list event) :=
  do l <- list_loop predicate tests ;; Ok (ListTestRunStarted :: l ++ [ListTestRunEnded]).

(** ** src/snitch_registry.cpp:814-898 [run_tests_impl] *)
Definition run_tests_impl (r : registry) (args : input) : res (list output * bool) :=
  let reported (l : list event) := map (Reported (g_reporter r)) l in
  match get_option args (lit "--help") with
  | Some _ => do out <- print_help (cli_of lm) (executable args) (g_with_color r) ;; Ok (map Printed out, true)
  | None =>
  match get_option args (lit "--list-tests-with-tag") with
  | Some opt =>
    do tag <- value_of opt ;;
    (* 1106-1111 list_tests_with_tag *)
    do l <- list_events (g_tests r) (fun id => do m <- is_filter_match_tags mt (id_tags id) tag ;; Ok (included m)) ;;
    Ok (reported l, true)
  | None =>
  match get_option args (lit "--list-tags") with
  | Some _ => do out <- list_all_tags mm mt (l_max_unique_tags lm) (map t_id (g_tests r)) ;; Ok (map Printed out, true)
  | None =>
  match get_option args (lit "--list-reporters") with
  | Some _ =>
    (* 1113-1117 list_all_reporters *)
    do out <- prints mm (map (fun p => [Text (r_name p); Text newline]) (g_reporters r)) ;; Ok (map Printed out, true)
  | None =>
  match get_positional_argument args (lit "test regex") with
  | Some _ =>
    do filter_strings <- for_each_positional_argument args (lit "test regex") ;;
    (* the capacity of filter_strings is that of args.arguments *)
    let filter := cli_selects mt mn filter_strings in
    match get_option args (lit "--list-tests") with
    | Some _ => do l <- list_events (g_tests r) filter ;; Ok (reported l, true)
    | None =>
      do (l, success) <- run_selected_tests (g_verbose r) (g_tests r) (executable args) filter_strings filter ;;
      Ok (reported l, success)
    end
  | None =>
    match get_option args (lit "--list-tests") with
    | Some _ => (* 1102-1104 list_all_tests *) do l <- list_events (g_tests r) (fun _ => Ok true) ;; Ok (reported l, true)
    | None => do (l, success) <- run_default (g_verbose r) (g_tests r) (executable args) ;; Ok (reported l, success)
    end
  end end end end end.

(** src/snitch_registry.cpp:901-912 [run_tests(const cli::input&)]. What the reporter makes of the events, and of its own
    object, is in Model/Program.v. *)
Definition run_tests (r : registry) (args : input) : res (registry * list output * bool) :=
  do (out, success) <- run_tests_impl r args ;;
  Ok (set_file r None,
      out ++ [Finished (g_reporter r)] ++ (match g_file r with Some _ => [ClosedFile] | None => [] end),
      success).

(** ** Reporters, src/snitch_registry.cpp:303-335 [add_reporter]; the printed errors are not modelled. *)
Definition add_reporter (reporters : list reporter) (p : reporter) : res (list reporter) :=
  do av <- csub (l_max_reporters lm) (length reporters) ;;
  if av =? 0 then Err Assert
  else match Base.find (r_name p) (lit "::") with
       | Some _ => Err Assert
       | None => Ok (reporters ++ [p])
       end.
Fixpoint add_reporters (reporters ps : list reporter) : res (list reporter) :=
  match ps with
  | [] => Ok reporters
  | p :: ps' => do r <- add_reporter reporters p ;; add_reporters r ps'
  end.

Definition note_prefix (with_color : bool) : piece := make_colored (lit "note:") with_color color_status.

(** 936-939, [std::find_if] on the names, with the index. *)
Fixpoint find_reporter (i : nat) (l : list reporter) (name : str) : option (nat * reporter) :=
  match l with
  | [] => None
  | p :: l' => if seqb (r_name p) name then Some (i, p) else find_reporter (S i) l' name
  end.

(** [s.substr(pos)]: throws (in a [noexcept] function) beyond the end. *)
Definition substr_from (s : str) (pos : nat) : res str := if pos <=? length s then Ok (skipn pos s) else Err Terminate.

(** 958-985: the loop on the options. The fuel is the number of characters (each step that does not end the loop
    shortens [options]). *)
Fixpoint option_loop (n : nat) (i : nat) (p : reporter) (m : modes) (memory : r_memory p) (options : str)
  : res (modes * r_memory p * list output) :=
  match n with
  | 0 => Err Fuel
  | S n' =>
    let option_pos := find_from options (lit "::") 2 in
    let options := match option_pos with Some pos => skipn pos options | None => options end in
    do option2 <- substr_from options 2 ;;
    let option := match option_pos with Some pos => firstn pos option2 | None => option2 end in
    let again m memory := match option_pos with Some _ => option_loop n' i p m memory options | None => Ok (m, memory, []) end in
    match Base.find option (lit "=") with
    | None | Some 0 =>
      do s <- cli_print mm [warning_prefix (m_color m); Text (lit " badly formatted reporter option '"); Text option;
                            Text (lit "'; expected 'key=value'" ++ newline)] ;;
      do (m', memory', rest) <- again m memory ;;
      Ok (m', memory', Printed s :: rest)
    | Some equal_pos =>
      let option_name := firstn equal_pos option in
      let option_value := skipn (equal_pos + 1) option in
      do (memory1, m1, said, known) <- r_configure p m memory option_name option_value ;;
      do warning <-
        (if known : bool then Ok []
         else do s <- cli_print mm [warning_prefix (m_color m1); Text (lit " unknown reporter option '"); Text option_name;
                                    Text (lit "'" ++ newline)] ;; Ok [s]) ;;
      do (m', memory', rest) <- again m1 memory1 ;;
      Ok (m', memory', Configured i option_name option_value :: map Printed (said ++ warning) ++ rest)
    end
  end.

(** src/snitch_registry.cpp:915-990 [parse_reporter]. *)
Definition parse_reporter (r : registry) (arg : str) : res (registry * list output) :=
  if match arg with [] => true | c :: _ => aeqb c ":"%char end then
    do s <- cli_print mm [warning_prefix (g_with_color r); Text (lit " invalid reporter '"); Text arg;
                          Text (lit "', using default" ++ newline)] ;;
    Ok (r, [Printed s])
  else
    let '(reporter_name, options) :=
      match Base.find arg (lit "::") with
      | Some option_pos => (firstn option_pos arg, skipn option_pos arg)
      | None => (arg, [])
      end in
    match find_reporter 0 (g_reporters r) reporter_name with
    | None =>
      do out <- prints mm
        ([warning_prefix (g_with_color r); Text (lit " unknown reporter '"); Text reporter_name; Text (lit "', using default" ++ newline)] ::
         [note_prefix (g_with_color r); Text (lit " available reporters:" ++ newline)] ::
         map (fun p => [note_prefix (g_with_color r); Text (lit "  "); Text (r_name p); Text newline]) (g_reporters r)) ;;
      Ok (r, map Printed out)
    | Some (i, p) =>
      do (memory, m, said) <- r_initialize p (modes_of r) ;;
      do (m', memory', out) <-
        (match Base.find options (lit "::") with
         | None => Ok (m, memory, [])
         | Some _ => option_loop (S (length options)) i p m memory options
         end) ;;
      Ok (set_reporter r i m' (Holds p memory'), Initialized i :: map Printed said ++ out)
    end.

(** ** Options, src/snitch_registry.cpp:992-1028 [parse_colour_mode_option], [parse_color_option] *)
Definition color_directive (yes no choices : str) (with_color : bool) (value : str) : res (bool * bool * list str) :=
  if seqb value yes then Ok (true, true, [])
  else if seqb value no then Ok (false, true, [])
  else if seqb value (lit "default") then Ok (with_color, false, [])
  else
    do s <- cli_print mm [warning_prefix with_color; Text (lit " unknown color directive; please use one of " ++ choices ++ newline)] ;;
    Ok (with_color, false, [s]).
Definition colour_mode_directive := color_directive (lit "ansi") (lit "none") (lit "ansi|default|none").
Definition color_option_directive := color_directive (lit "always") (lit "never") (lit "always|default|never").
Definition parse_color (directive : bool -> str -> res (bool * bool * list str)) (r : registry) (value : str) : res (registry * bool * list output) :=
  do (c, override, out) <- directive (g_with_color r) value ;;
  Ok (set_with_color r c, override, map Printed out).
Definition parse_colour_mode_option := parse_color colour_mode_directive.
Definition parse_color_option := parse_color color_option_directive.

(** src/snitch_registry.cpp:1031-1071 [configure]. [can_open] tells which paths can be opened for writing.
    A file that is already open is closed (the move assignment of [std::optional] swaps it with a temporary). *)
Definition configure (can_open : str -> bool) (r : registry) (args : input) : res (registry * list output) :=
  do (r1, override1, out1) <-
    (match get_option args (lit "--colour-mode") with
     | Some opt => do v <- value_of opt ;; parse_colour_mode_option r v
     | None => Ok (r, false, [])
     end) ;;
  do (r2, override2, out2) <-
    (match get_option args (lit "--color") with
     | Some opt =>
       do v <- value_of opt ;;
       do (r', b, out) <- parse_color_option r1 v ;;
       Ok (r', b || override1, out)
     | None => Ok (r1, override1, [])
     end) ;;
  do (r3, out3) <-
    (match get_option args (lit "--verbosity") with
     | Some opt =>
       do v <- value_of opt ;;
       if seqb v (lit "quiet") then Ok (set_verbose r2 Quiet, [])
       else if seqb v (lit "normal") then Ok (set_verbose r2 Normal, [])
       else if seqb v (lit "high") then Ok (set_verbose r2 High, [])
       else if seqb v (lit "full") then Ok (set_verbose r2 Full, [])
       else
         do s <- cli_print mm [warning_prefix (g_with_color r2);
                               Text (lit " unknown verbosity level; please use one of quiet|normal|high|full" ++ newline)] ;;
         Ok (r2, [Printed s])
     | None => Ok (r2, [])
     end) ;;
  do (r4, out4) <-
    (match get_option args (lit "--out") with
     | Some opt =>
       do v <- value_of opt ;;
       do path <- open_file (l_max_path_length lm) can_open v ;;
       let r' := set_to_file (set_file r3 (Some path)) in
       Ok (if override2 : bool then r' else set_with_color r' false,
           OpenedFile path :: (match g_file r3 with Some _ => [ClosedFile] | None => [] end))
     | None => Ok (r3, [])
     end) ;;
  do (r5, out5) <-
    (match get_option args (lit "--reporter") with
     | Some opt => do v <- value_of opt ;; parse_reporter r4 v
     | None => Ok (r4, [])
     end) ;;
  Ok (r5, out1 ++ out2 ++ out3 ++ out4 ++ out5).

(** include/snitch/snitch_registry.hpp:189-201: what [registry::print] does with a text ([print_callback]). [UB] if the
    callback refers to a [file_writer] that has been destroyed. *)
Definition print_text (r : registry) (s : str) : res (list output) :=
  if g_to_file r then match g_file r with Some _ => Ok [WroteFile s] | None => Err UB end else Ok [Printed s].

(** src/snitch_main.cpp:7-18 [main]: what is observed and the exit status. *)
Definition main (can_open : str -> bool) (r : registry) (path : str) (argv : list str) : res (list output * nat) :=
  do (printed, args) <- parse_arguments (cli_of lm) path argv ;;
  match args with
  | None => Ok (map Printed printed, 1)
  | Some args =>
    do (r1, out1) <- configure can_open r args ;;
    do (_, out2, success) <- run_tests r1 args ;;
    Ok (map Printed printed ++ out1 ++ out2, if success : bool then 0 else 1)
  end.
End Session.
