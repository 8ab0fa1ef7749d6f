(** Properties C17, C18, C30, C33-C35, C50, C54, C55, C57, C73: whole runs of a test program. *)
From Coq Require Import Permutation.
From Verif.Spec Require Import TextSpec FilterSpec PrintSpec CliSpec Events VerdictSpec SessionSpec FileSpec.
From Verif.Model Require Import Base Vector StringUtil Filter Run Print Cli File Session.
From Verif.Proofs Require Import SessionProofs SessionFacts ConfigProofs FileProofs ReporterProofs ManyOptions ProgramProofs ProtocolProofs.

Local Open Scope string_scope.
Local Open Scope list_scope.
Local Open Scope nat_scope.

(** ** The program used in the examples *)
Definition small : Session.limits := mklimits 5 5 40 60 20 40 8 32 3 12 false (lit "1.2").
Definition case_of (name tags : string) (line : nat) (b : prog) : test_case :=
  mktest (mkid (quote name) (quote tags) [] []) line b.
Definition tests : list test_case :=
  [case_of "ab" "[x]" 10 (Check 1 (IsTrue (fun _ => Message (quote "m")) (fun _ => false)) false Nil Nil);
   case_of "cd" "[x][.]" 20 (Act 1 Nil);
   case_of "ef" "[!mayfail]" 30 (Check 2 (IsTrue (fun _ => Message (quote "m")) (fun _ => true)) false Nil (Act 2 Nil))].
(** A reporter that raises the verbosity to high, remembers its options, and knows all but "x". *)
Definition example_reporter (name : string) : reporter :=
  mkreporter (quote name) true (list (text * text))
    (fun m => Ok ([], mkmodes (if vlevel (m_verbose m) <? vlevel High then High else m_verbose m) (m_color m), []))
    (fun m memory k v => Ok (memory ++ [(k, v)], m, [], negb (seqb k (quote "x"))))
    (fun _ memory _ => Ok (memory, [])).
Definition program : registry := mkregistry tests [example_reporter "console"; example_reporter "xml"] Full false None None false Vacant.
Definition command (l : list string) : res (list output * nat) := main small 50 (fun _ => true) program (quote "./demo") (map quote l).
Definition arguments_of (l : list string) : input :=
  match parse_arguments (cli_of small) (quote "./demo") (map quote l) with Ok (_, Some inp) => inp | _ => mkinput [] [] end.

(** ** C17. Listing *)

(** With filters, the tests listed are exactly those that the same command without --list-tests runs, in the same
    order. *)
Theorem C17_listing_agrees :
  forall (lm : Session.limits) (fuel : nat) (r : registry) (args : input) (r1 : registry) (out1 : list output) (s1 : bool),
  (forall n, In n actions -> get_option args n = None) -> get_option args (quote "--list-tests") <> None ->
  get_positional_argument args (quote "test regex") <> None -> vlevel High <= vlevel (g_verbose r) ->
  run_tests lm fuel r (mkinput (executable args) (without (quote "--list-tests") (arguments args))) = Ok (r1, out1, s1) ->
  exists r2 out2, run_tests lm fuel r args = Ok (r2, out2, true) /\ listed (events_of out2) = started (events_of out1).
Proof. exact listing_agrees. Qed.
Print Assumptions C17_listing_agrees.

(** These are the tests selected by the filters (Spec/FilterSpec.v), in registration order, and nothing else is
    reported. [tagged_tests] gives the registered tests with their lists of tags. *)
Theorem C17_listing_selected :
  forall (lm : Session.limits) (fuel : nat) (r : registry) (args : input) (fs : list text) (tagged_tests : list (test_case * list text)),
  (forall n, In n actions -> get_option args n = None) -> get_option args (quote "--list-tests") <> None ->
  for_each_positional_argument args (quote "test regex") = Ok fs -> fs <> [] ->
  g_tests r = map fst tagged_tests ->
  Forall (fun x => id_tags (t_id (fst x)) = tag_string (snd x) /\ well_formed (l_max_tag_length lm) (snd x) /\
                   length (full_name_of (id_name (t_id (fst x))) (id_type (t_id (fst x)))) <= l_max_test_name_length lm) tagged_tests ->
  exists out keep,
    run_tests lm fuel r args = Ok (set_file r None, out, true) /\
    events_of out = [ListTestRunStarted] ++ map (fun x => TestCaseListed (t_id (fst x)) (t_line (fst x))) (filter keep tagged_tests) ++ [ListTestRunEnded] /\
    (forall x, In x tagged_tests ->
      (keep x = true <-> selected (full_name_of (id_name (t_id (fst x))) (id_type (t_id (fst x)))) (snd x) fs)).
Proof. exact listing_selected. Qed.
Print Assumptions C17_listing_selected.

(** Without filters every registered test is listed (the hidden ones too, although they would not be run). *)
Theorem C17_listing_all :
  forall (lm : Session.limits) (fuel : nat) (r : registry) (args : input),
  (forall n, In n actions -> get_option args n = None) -> get_option args (quote "--list-tests") <> None ->
  get_positional_argument args (quote "test regex") = None ->
  exists out, run_tests lm fuel r args = Ok (set_file r None, out, true) /\
    events_of out = [ListTestRunStarted] ++ map (fun t => TestCaseListed (t_id t) (t_line t)) (g_tests r) ++ [ListTestRunEnded].
Proof. exact listing_all. Qed.
Print Assumptions C17_listing_all.

Example C17_example :
  let listing l := do (_, out, s) <- run_tests small 50 program (arguments_of l) ;; Ok (map snd (listed (events_of out)), map snd (started (events_of out)), s) in
  (forall n, In n actions -> get_option (arguments_of ["-l"; "[x]"]) n = None) /\
  g_tests program = map fst (List.combine tests [[quote "x"]; [quote "x"; quote "."]; [quote "!mayfail"]]) /\
  listing ["-l"; "[x]"] = Ok ([10; 20], [], true) /\ listing ["[x]"] = Ok ([], [10; 20], false) /\
  listing ["-l"; "~[x]"] = Ok ([30], [], true) /\ listing ["~[x]"] = Ok ([], [30], true) /\
  listing ["-l"] = Ok ([10; 20; 30], [], true) /\ listing [] = Ok ([], [10; 30], false).
Proof.
  cbn zeta. split; [intros n H; cbn [actions In] in H; repeat (destruct H as [<-|H]; [vm_compute; reflexivity|]); contradiction|].
  repeat split; vm_compute; reflexivity.
Qed.

(** ** C18. The summary of a run *)

(** At full verbosity a run reports its start, then the events of each selected test, run exactly once in registration
    order, as when it is run alone, then a summary whose counters ([summary_of], Spec/SessionSpec.v) are the sums over
    these tests. The run succeeds iff no test failed. *)
Theorem C18_summary :
  forall (lm : Session.limits) (fuel : nat) (predicate : test_id -> res bool) (tests : list test_case) (name : text)
    (filters : list text) (events : list event) (success : bool),
  run_selected_tests lm fuel Full tests name filters predicate = Ok (events, success) ->
  exists keep parts, let cases := concat parts in
    Forall (fun t => predicate (t_id t) = Ok (keep t)) tests /\
    Forall2 (fun t part => exists st body c s,
      run (config_of lm Full) fuel t [] = Ok st /\ trace st = part /\
      part = [TestCaseStarted (t_id t) (t_line t)] ++ body ++ [TestCaseEnded (t_id t) (t_line t) c s] /\
      Forall (fun e => inner e = true) body) (filter keep tests) parts /\
    events = [TestRunStarted name filters] ++ cases ++ [summary_of name filters (ended cases)] /\
    success = (in_state Failed (ended cases) =? 0).
Proof. exact summary_kept. Qed.
Print Assumptions C18_summary.

(** The same for a command line: the tests run are those selected by the filters or, without filters, those that are
    not hidden. At lower verbosities some of these events are not reported. *)
Theorem C18_command :
  forall (lm : Session.limits) (fuel : nat) (r : registry) (args : input) (fs : list text) (tagged_tests : list (test_case * list text))
    (r' : registry) (out : list output) (success : bool),
  (forall n, In n actions -> get_option args n = None) -> get_option args (quote "--list-tests") = None ->
  for_each_positional_argument args (quote "test regex") = Ok fs ->
  g_tests r = map fst tagged_tests ->
  Forall (fun x => id_tags (t_id (fst x)) = tag_string (snd x) /\ well_formed (l_max_tag_length lm) (snd x) /\
                   length (full_name_of (id_name (t_id (fst x))) (id_type (t_id (fst x)))) <= l_max_test_name_length lm) tagged_tests ->
  run_tests lm fuel r args = Ok (r', out, success) ->
  exists keep parts, let cases := concat parts in
    (forall x, In x tagged_tests -> (keep x = true <->
       match fs with
       | [] => ~ hidden (snd x)
       | _ => selected (full_name_of (id_name (t_id (fst x))) (id_type (t_id (fst x)))) (snd x) fs
       end)) /\
    Forall2 (fun t part => exists st body c s,
      run (config_of lm Full) fuel t [] = Ok st /\ trace st = part /\
      part = [TestCaseStarted (t_id t) (t_line t)] ++ body ++ [TestCaseEnded (t_id t) (t_line t) c s] /\
      Forall (fun e => inner e = true) body) (map fst (filter keep tagged_tests)) parts /\
    events_of out = filter (Events.visible (g_verbose r))
      ([TestRunStarted (executable args) fs] ++ cases ++ [summary_of (executable args) fs (ended cases)]) /\
    success = (in_state Failed (ended cases) =? 0).
Proof. exact session_runs. Qed.
Print Assumptions C18_command.

Example C18_example :
  let summary l := do (_, out, s) <- run_tests small 50 program (arguments_of l) ;;
    Ok (hd (ListTestRunStarted) (rev (events_of out)), length (events_of out), s) in
  summary [] = Ok (TestRunEnded (quote "demo") [] 2 1 0 0 (mkcounts 4 1 0) false, 11, false) /\
  summary ["cd"; "[.]"] = Ok (TestRunEnded (quote "demo") [quote "cd"; quote "[.]"] 1 0 0 0 (mkcounts 1 0 0) true, 6, true) /\
  well_formed 20 [quote "x"; quote "."].
Proof.
  split; [vm_compute; reflexivity|]. split; [vm_compute; reflexivity|]. repeat constructor; vm_compute; try lia; intuition discriminate.
Qed.

(** ** C30. Verbosity *)
Theorem C30_run :
  forall (lm : Session.limits) (fuel : nat) (predicate : test_id -> res bool) (v : verbosity) (tests : list test_case) (name : text) (filters : list text),
  run_selected_tests lm fuel v tests name filters predicate =
  match run_selected_tests lm fuel Full tests name filters predicate with
  | Ok (events, success) => Ok (filter (Events.visible v) events, success)
  | Err e => Err e
  end.
Proof. exact run_selected_verbosity. Qed.
Print Assumptions C30_run.

Example C30_run_example :
  let events v := do (l, s) <- run_selected_tests small 50 v tests (quote "n") [] (fun _ => Ok true) ;; Ok (length l, s) in
  events Quiet = Ok (3, false) /\ events Normal = Ok (5, false) /\ events High = Ok (11, false) /\ events Full = Ok (15, false).
Proof. repeat split; vm_compute; reflexivity. Qed.

(** ** C33. Priority of options *)

(** The first of --help, --list-tests-with-tag, --list-tags, --list-reporters that is given makes everything else on
    the command line irrelevant. *)
Theorem C33_priority :
  forall (lm : Session.limits) (fuel : nat) (r : registry) (args : input),
  (forall a, get_option args (quote "--help") = Some a -> run_tests lm fuel r args = run_tests lm fuel r (mkinput (executable args) [a])) /\
  (get_option args (quote "--help") = None ->
   (forall a, get_option args (quote "--list-tests-with-tag") = Some a -> run_tests lm fuel r args = run_tests lm fuel r (mkinput (executable args) [a])) /\
   (get_option args (quote "--list-tests-with-tag") = None ->
    (forall a, get_option args (quote "--list-tags") = Some a -> run_tests lm fuel r args = run_tests lm fuel r (mkinput (executable args) [a])) /\
    (get_option args (quote "--list-tags") = None ->
     forall a, get_option args (quote "--list-reporters") = Some a -> run_tests lm fuel r args = run_tests lm fuel r (mkinput (executable args) [a])))).
Proof. exact priority. Qed.
Print Assumptions C33_priority.

(** What each of them does. *)
Theorem C33_help :
  forall (lm : Session.limits) (fuel : nat) (r : registry) (exe : text) (a : argument), a_name a = quote "--help" ->
  exists help, print_help (cli_of lm) exe (g_with_color r) = Ok help /\
    run_tests lm fuel r (mkinput exe [a]) =
      Ok (set_file r None, map Printed help ++ [Finished (g_reporter r)] ++ (match g_file r with Some _ => [ClosedFile] | None => [] end), true).
Proof. exact alone_help. Qed.
Print Assumptions C33_help.

Theorem C33_list_tests_with_tag :
  forall (lm : Session.limits) (fuel : nat) (r : registry) (exe : text) (a : argument) (tag : text) (tagged_tests : list (test_case * list text)),
  a_name a = quote "--list-tests-with-tag" -> a_value a = Some tag -> g_tests r = map fst tagged_tests ->
  Forall (fun x => id_tags (t_id (fst x)) = tag_string (snd x) /\ well_formed (l_max_tag_length lm) (snd x)) tagged_tests ->
  exists keep, (forall x, In x tagged_tests -> (keep x = true <-> tags_hold (snd x) tag)) /\
    run_tests lm fuel r (mkinput exe [a]) =
      Ok (set_file r None,
          map (Reported (g_reporter r)) ([ListTestRunStarted] ++ map (fun x => TestCaseListed (t_id (fst x)) (t_line (fst x))) (filter keep tagged_tests) ++ [ListTestRunEnded])
          ++ [Finished (g_reporter r)] ++ (match g_file r with Some _ => [ClosedFile] | None => [] end), true).
Proof. exact alone_with_tag. Qed.
Print Assumptions C33_list_tests_with_tag.

Theorem C33_list_tags :
  forall (lm : Session.limits) (fuel : nat) (r : registry) (exe : text) (a : argument), a_name a = quote "--list-tags" ->
  run_tests lm fuel r (mkinput exe [a]) =
    match list_all_tags (l_max_message_length lm) (l_max_tag_length lm) (l_max_unique_tags lm) (map t_id (g_tests r)) with
    | Ok out => Ok (set_file r None, map Printed out ++ [Finished (g_reporter r)] ++ (match g_file r with Some _ => [ClosedFile] | None => [] end), true)
    | Err e => Err e
    end.
Proof. exact alone_tags. Qed.
Print Assumptions C33_list_tags.

Theorem C33_list_reporters :
  forall (lm : Session.limits) (fuel : nat) (r : registry) (exe : text) (a : argument), a_name a = quote "--list-reporters" ->
  run_tests lm fuel r (mkinput exe [a]) =
    Ok (set_file r None,
        map (fun p => Printed (fit (l_max_message_length lm) (r_name p ++ [ascii_of_nat 10]))) (g_reporters r)
        ++ [Finished (g_reporter r)] ++ (match g_file r with Some _ => [ClosedFile] | None => [] end), true).
Proof. exact alone_reporters. Qed.
Print Assumptions C33_list_reporters.

(** None of them runs a test; all succeed. *)
Theorem C33_no_test_run :
  forall (lm : Session.limits) (fuel : nat) (r : registry) (args : input) (r' : registry) (out : list output) (success : bool) (n : text),
  In n actions -> get_option args n <> None ->
  run_tests lm fuel r args = Ok (r', out, success) -> ~ runs_tests out /\ success = true.
Proof. exact action_runs_nothing. Qed.
Print Assumptions C33_no_test_run.

(** The order of the options is irrelevant (a command line that repeats an option is not accepted, C32). *)
Theorem C33_position_irrelevant :
  forall (lm : Session.limits) (fuel : nat) (can_open : text -> bool) (r : registry) (exe : text) (l l' : list argument),
  Permutation l l' -> NoDup (map a_name (filter is_option_argument l)) ->
  filter (fun a => negb (is_option_argument a)) l = filter (fun a => negb (is_option_argument a)) l' ->
  run_tests lm fuel r (mkinput exe l) = run_tests lm fuel r (mkinput exe l') /\
  configure lm can_open r (mkinput exe l) = configure lm can_open r (mkinput exe l').
Proof. exact position_irrelevant. Qed.
Print Assumptions C33_position_irrelevant.

Example C33_example :
  let outcome l := do (_, out, s) <- run_tests small 50 program (arguments_of l) ;; Ok (out, s) in
  outcome ["-l"; "[x]"; "--list-reporters"; "--list-tests-with-tag"; "[.]"] =
    Ok (map (Reported None) [ListTestRunStarted; TestCaseListed (mkid (quote "cd") (quote "[x][.]") [] []) 20; ListTestRunEnded] ++ [Finished None], true) /\
  outcome ["ab"; "--list-reporters"] = Ok ([Printed (quote "console" ++ [ascii_of_nat 10]); Printed (quote "xml" ++ [ascii_of_nat 10]); Finished None], true) /\
  outcome ["--list-tags"; "--help"; "ab"] = outcome ["-h"].
Proof. repeat split; vm_compute; reflexivity. Qed.

(** ** C34. Reporter options *)

(** The full claim is false: with two options, the second is configured twice and the first never. *)
Theorem C34_refuted :
  forall (lm : Session.limits) (r : registry) (p : reporter), g_reporters r = [p] -> r_name p = quote "xml" ->
  (forall m, exists x, r_initialize p m = Ok x) -> (forall m memory k v, exists x, r_configure p m memory k v = Ok x) ->
  exists r' out,
    parse_reporter lm r (reporter_argument (quote "xml") [(quote "a", quote "1"); (quote "b", quote "2")]) = Ok (r', out) /\
    filter (fun o => match o with Initialized _ | Configured _ _ _ => true | _ => false end) out =
      [Initialized 0; Configured 0 (quote "b") (quote "2"); Configured 0 (quote "b") (quote "2")].
Proof. exact two_options. Qed.
Print Assumptions C34_refuted.

(** Proved for at most one option: the reporter called [r_name p] (the first of this name) is initialised, then its
    option configured, with the effects of its own functions on its data and on the registry. A warning is printed iff
    it does not know the option. Missing: several options. *)
Theorem C34_one_option_partial :
  forall (lm : Session.limits) (r : registry) (i : nat) (p : reporter) (memory : r_memory p) (m : modes) (said : list text),
  nth_error (g_reporters r) i = Some p ->
  (forall j q, j < i -> nth_error (g_reporters r) j = Some q -> r_name q <> r_name p) ->
  r_name p <> [] /\ hd_error (r_name p) <> Some ":"%char /\ ~ occurs (quote "::") (r_name p ++ quote ":") ->
  r_initialize p (modes_of r) = Ok (memory, m, said) ->
  parse_reporter lm r (reporter_argument (r_name p) []) = Ok (set_reporter r i m (Holds p memory), [Initialized i] ++ map Printed said) /\
  forall (k v : text) (memory' : r_memory p) (m' : modes) (said' : list text) (known : bool),
    k <> [] -> ~ In "="%char k -> ~ occurs (quote "::") (k ++ quote "=" ++ v) ->
    r_configure p m memory k v = Ok (memory', m', said', known) ->
    exists warnings,
      parse_reporter lm r (reporter_argument (r_name p) [(k, v)]) =
        Ok (set_reporter r i m' (Holds p memory'), [Initialized i] ++ map Printed said ++ [Configured i k v] ++ map Printed (said' ++ warnings)) /\
      if known then warnings = []
      else exists s, cli_print (l_max_message_length lm)
                       [make_colored (quote "warning:") (m_color m') color_warning; Text (quote " unknown reporter option '"); Text k;
                        Text (quote "'" ++ [ascii_of_nat 10])] = Ok s /\ warnings = [s].
Proof. exact reporter_selected. Qed.
Print Assumptions C34_one_option_partial.

(** Any other name: a warning with the names of the reporters, and the reporter is left unchanged. *)
Theorem C34_unknown_partial :
  forall (lm : Session.limits) (r : registry) (arg : text),
  (forall p, In p (g_reporters r) -> forall options,
     arg <> reporter_argument (r_name p) options /\ ~ (exists rest, arg = r_name p ++ quote "::" ++ rest)) ->
  exists warnings, parse_reporter lm r arg = Ok (r, map Printed warnings) /\
    let warning := make_colored (quote "warning:") (g_with_color r) color_warning in
    let note := make_colored (quote "note:") (g_with_color r) color_status in
    prints (l_max_message_length lm)
      (if match arg with [] => true | c :: _ => if ascii_dec c ":" then true else false end
       then [[warning; Text (quote " invalid reporter '"); Text arg; Text (quote "', using default" ++ [ascii_of_nat 10])]]
       else [warning; Text (quote " unknown reporter '"); Text (called arg); Text (quote "', using default" ++ [ascii_of_nat 10])] ::
            [note; Text (quote " available reporters:" ++ [ascii_of_nat 10])] ::
            map (fun p => [note; Text (quote "  "); Text (r_name p); Text [ascii_of_nat 10]]) (g_reporters r)) = Ok warnings.
Proof. exact reporter_unknown. Qed.
Print Assumptions C34_unknown_partial.

(** What happens to any number of options. Every argument is cut at "::" in exactly one way. *)
Theorem C34_cut_partial :
  forall arg : text, exists name options, cut_at_colons arg (name :: options) /\
    forall l, cut_at_colons arg l -> l = name :: options.
Proof. exact cut_once. Qed.
Print Assumptions C34_cut_partial.

(** The reporter is initialised, and then configured, not with the options, but with [options_read] of them: for every
    argument that names it, with any number of options, well formed or not. *)
Theorem C34_any_options_partial :
  forall (lm : Session.limits) (r : registry) (i : nat) (p : reporter) (arg : text) (options : list text)
    (memory : r_memory p) (m : modes) (said : list text) (after : modes * r_memory p) (out : list output),
  nth_error (g_reporters r) i = Some p ->
  (forall j q, j < i -> nth_error (g_reporters r) j = Some q -> r_name q <> r_name p) ->
  cut_at_colons arg (r_name p :: options) -> r_name p <> [] -> hd_error (r_name p) <> Some ":"%char ->
  r_initialize p (modes_of r) = Ok (memory, m, said) ->
  handled
    (fun s k v s' o => exists said known warnings, r_configure p (fst s) (snd s) k v = Ok (snd s', fst s', said, known) /\
       o = Configured i k v :: map Printed (said ++ warnings) /\
       if known : bool then warnings = []
       else exists t, cli_print (l_max_message_length lm)
              [make_colored (quote "warning:") (m_color (fst s')) color_warning; Text (quote " unknown reporter option '"); Text k;
               Text (quote "'" ++ [ascii_of_nat 10])] = Ok t /\ warnings = [t])
    (fun s option o => exists t, cli_print (l_max_message_length lm)
       [make_colored (quote "warning:") (m_color (fst s)) color_warning; Text (quote " badly formatted reporter option '"); Text option;
        Text (quote "'; expected 'key=value'" ++ [ascii_of_nat 10])] = Ok t /\ o = [Printed t])
    (m, memory) (options_read options) after out ->
  parse_reporter lm r arg = Ok (set_reporter r i (fst after) (Holds p (snd after)), [Initialized i] ++ map Printed said ++ out).
Proof. exact many_options. Qed.
Print Assumptions C34_any_options_partial.

(** These are the options given only if there is at most one, or twice the same. *)
Theorem C34_right_partial :
  forall (arg : text) (options : list text), cut_at_colons arg options ->
  (options_read options = options <-> length options <= 1 \/ exists o, options = [o; o]).
Proof. exact read_right. Qed.
Print Assumptions C34_right_partial.

(** Three options, the last of them misspelled: "longer=1" is never seen, "b=2" is read with the start of what follows. *)
Example C34_many_example :
  let quiet := set_verbose program Quiet in
  let arg := quote "xml::longer=1::b=2::c" in
  cut_at_colons arg [quote "xml"; quote "longer=1"; quote "b=2"; quote "c"] /\
  options_read [quote "longer=1"; quote "b=2"; quote "c"] = [quote "b=2::c"; quote "c"; quote "c"] /\
  match parse_reporter small quiet arg with
  | Ok (_, [Initialized 1; Configured 1 k v; Printed s; Printed s']) =>
    k = quote "b" /\ v = quote "2::c" /\ s = s' /\ exists a b, s = a ++ quote " badly formatted reporter option 'c'" ++ b
  | _ => False
  end.
Proof.
  split; [|split; [vm_compute; reflexivity|]].
  - assert (N : forall s, Base.find s (quote "::") = None -> ~ occurs (quote "::") s) by (intros s; exact (ReplaceProofs.find_none_occurs s (quote "::"))).
    apply (cut_more (quote "xml")); [apply N; vm_compute; reflexivity|]. apply (cut_more (quote "longer=1")); [apply N; vm_compute; reflexivity|].
    apply (cut_more (quote "b=2")); [apply N; vm_compute; reflexivity|]. apply cut_last, N. vm_compute; reflexivity.
  - match goal with |- match ?x with _ => _ end => let y := eval vm_compute in x in change x with y end. cbn iota beta.
    repeat split. exists (quote "warning:"). eexists. vm_compute. reflexivity.
Qed.

Example C34_example :
  let quiet := set_verbose program Quiet in
  parse_reporter small quiet (reporter_argument (quote "xml") [(quote "k", quote "a=b")]) =
    Ok (set_reporter quiet 1 (mkmodes High false) (Holds (example_reporter "xml") [(quote "k", quote "a=b")]), [Initialized 1; Configured 1 (quote "k") (quote "a=b")]) /\
  nth_error (g_reporters program) 1 = Some (example_reporter "xml") /\
  ~ occurs (quote "::") (quote "xml" ++ quote ":") /\
  (do (r, out) <- parse_reporter small program (quote "xml::x=y") ;; Ok (g_reporter r, length out)) = Ok (Some 1, 3) /\
  (do (r, out) <- parse_reporter small program (quote "xm") ;; Ok (g_reporter r, length out)) = Ok (None, 4).
Proof.
  repeat split; try (vm_compute; reflexivity).
  assert (F : Base.find (quote "xml:") (quote "::") = None) by (vm_compute; reflexivity). apply ReplaceProofs.find_none_occurs in F. exact F.
Qed.

(** ** C35. Colours *)

(** The full claim is false. *)
Theorem C35_refuted :
  forall (lm : Session.limits) (r : registry) (can_open : text -> bool), 4 <= l_max_command_line_args lm ->
  let argv := [quote "--color"; quote "never"; quote "--colour-mode"; quote "ansi"] in
  exists args r', parse_arguments (cli_of lm) (quote "t") argv = Ok ([], Some args) /\ configure lm can_open r args = Ok (r', []) /\
    parse_color_options (cli_of lm) (quote "t") argv = Ok ([], true) /\ g_with_color r' = false.
Proof. exact colours_disagree. Qed.
Print Assumptions C35_refuted.

(** Proved when only one of the two options is given, no output file (which disables colours for the run only), and no
    reporter that changes the colours. *)
Theorem C35_single_option_partial :
  forall (lm : Session.limits) (can_open : text -> bool) (r : registry) (path : text) (argv : list text) (out1 : list text) (args : input)
    (r' : registry) (out2 : list output),
  length argv <= l_max_command_line_args lm ->
  parse_arguments (cli_of lm) path argv = Ok (out1, Some args) -> g_with_color r = l_default_with_color lm ->
  setting (read argv) (quote "--out") = None ->
  setting (read argv) (quote "--color") = None \/ setting (read argv) (quote "--colour-mode") = None ->
  setting (read argv) (quote "--reporter") = None \/
  (forall p, In p (g_reporters r) ->
     (forall m memory m' said, r_initialize p m = Ok (memory, m', said) -> m_color m' = m_color m) /\
     (forall m memory k v memory' m' said known, r_configure p m memory k v = Ok (memory', m', said, known) -> m_color m' = m_color m)) ->
  configure lm can_open r args = Ok (r', out2) ->
  parse_color_options (cli_of lm) path argv = Ok ([], g_with_color r').
Proof. exact colours_agree. Qed.
Print Assumptions C35_single_option_partial.

Example C35_example :
  let colours l := do (r, out) <- configure small (fun _ => true) program (arguments_of l) ;;
    do (_, c) <- parse_color_options (cli_of small) (quote "t") (map quote l) ;; Ok (c, g_with_color r) in
  colours ["a"; "--color"; "always"] = Ok (true, true) /\ colours ["-l"; "--colour-mode"; "ansi"; "x"] = Ok (true, true) /\
  colours ["--color"; "bogus"] = Ok (false, false) /\ colours ["--color"; "never"; "--colour-mode"; "ansi"] = Ok (true, false).
Proof. repeat split; vm_compute; reflexivity. Qed.

(** ** C50. The output file *)

(** The path is handed over unchanged, as a null-terminated string, for every length up to the documented maximum;
    longer paths are refused, except that the length maximum + 1 is accepted without room for the terminator. *)
Theorem C50_path_partial :
  forall (max_path : nat) (can_open : text -> bool) (path : text), ~ In zero path -> length path <> S max_path ->
  open_file max_path can_open path =
    if length path <=? max_path then (if can_open path then Ok path else Err Assert) else Err Assert.
Proof. exact open_file_good. Qed.
Print Assumptions C50_path_partial.

Theorem C50_path_refuted :
  forall (max_path : nat) (can_open : text -> bool) (path : text), ~ In zero path -> length path = S max_path ->
  open_file max_path can_open path = Err UB.
Proof. exact open_file_off_by_one. Qed.
Print Assumptions C50_path_refuted.

(** Whatever the sequence of constructions, moves, writes and destructions: each file is opened at most once, written to
    while open only and closed at most once; it is open exactly as long as one object (and only one) holds it. So it has
    been closed once all objects are destroyed. *)
Theorem C50_handles :
  forall (ops : list file_op) (st : files), file_run no_files ops = Ok st ->
  forall f, exists u, history f (f_log st) = actions_of f u /\
    ((exists texts, u = Open texts) -> exists w, nth_error (f_objects st) w = Some (Some (Some f)) /\
       forall w', nth_error (f_objects st) w' = Some (Some (Some f)) -> w' = w) /\
    (~ (exists texts, u = Open texts) -> ~ In (Some (Some f)) (f_objects st)).
Proof. exact handles_closed. Qed.
Print Assumptions C50_handles.

Theorem C50_all_closed :
  forall (ops : list file_op) (st : files), file_run no_files ops = Ok st -> Forall (fun o => o = None) (f_objects st) ->
  forall f, history f (f_log st) = [] \/ exists texts, history f (f_log st) = FOpen f :: map (FWrite f) texts ++ [FClose f].
Proof. exact all_closed. Qed.
Print Assumptions C50_all_closed.

(** Objects can always be used until they are destroyed. *)
Theorem C50_defined :
  forall (st : files) (o : file_op),
  match o with
  | ODefault | OOpen => True
  | OMove w | OWrite w _ | ODestroy w => exists h, nth_error (f_objects st) w = Some (Some h)
  | OAssign w w' => (exists h, nth_error (f_objects st) w = Some (Some h)) /\ (exists h, nth_error (f_objects st) w' = Some (Some h))
  end -> exists st', File.file_step st o = Ok st'.
Proof. exact step_defined. Qed.
Print Assumptions C50_defined.

Example C50_example :
  let ops := [OOpen; OWrite 0 (quote "a"); OMove 0; OOpen; OWrite 1 (quote "b"); OAssign 1 2; OWrite 0 (quote "z"); ODestroy 0;
              OWrite 2 (quote "c"); OWrite 1 (quote "d"); OAssign 1 1; ODestroy 1; ODestroy 2] in
  (do st <- file_run no_files ops ;; Ok (f_log st, f_objects st)) =
    Ok ([FOpen 0; FWrite 0 (quote "a"); FOpen 1; FWrite 0 (quote "b"); FWrite 0 (quote "c"); FWrite 1 (quote "d"); FClose 1; FClose 0], [None; None; None]) /\
  open_file 4 (fun _ => true) (quote "abcd") = Ok (quote "abcd") /\ open_file 4 (fun _ => true) (quote "abcde") = Err UB /\
  open_file 4 (fun _ => true) (quote "abcdef") = Err Assert.
Proof. repeat split; vm_compute; reflexivity. Qed.

(** ** C54. Registration of reporters *)
Theorem C54_registration :
  forall (lm : Session.limits) (ps l : list reporter), length l <= l_max_reporters lm ->
  (length l + length ps <= l_max_reporters lm /\ Forall (fun p => ~ occurs (quote "::") (r_name p)) ps -> add_reporters lm l ps = Ok (l ++ ps)) /\
  (~ (length l + length ps <= l_max_reporters lm /\ Forall (fun p => ~ occurs (quote "::") (r_name p)) ps) -> add_reporters lm l ps = Err Assert).
Proof. exact (fun lm ps l => add_reporters_spec lm ps l). Qed.
Print Assumptions C54_registration.

(** A reporter can be selected by its exact name, unless an earlier one has the same name. *)
Theorem C54_selection_partial :
  forall (lm : Session.limits) (r : registry) (ps : list reporter) (i : nat) (p : reporter),
  add_reporters lm [] ps = Ok (g_reporters r) -> nth_error ps i = Some p ->
  (forall j q, j < i -> nth_error ps j = Some q -> r_name q <> r_name p) ->
  r_name p <> [] -> hd_error (r_name p) <> Some ":"%char ->
  parse_reporter lm r (r_name p) =
    match r_initialize p (modes_of r) with
    | Ok (memory, m, said) => Ok (set_reporter r i m (Holds p memory), [Initialized i] ++ map Printed said)
    | Err e => Err e
    end.
Proof. exact exact_name. Qed.
Print Assumptions C54_selection_partial.

Theorem C54_same_name_refuted :
  forall (lm : Session.limits) (r : registry) (p q : reporter), 2 <= l_max_reporters lm ->
  r_name p = quote "xml" -> r_name q = quote "xml" ->
  add_reporters lm [] [p; q] = Ok [p; q] /\
  (g_reporters r = [p; q] -> parse_reporter lm r (quote "xml") =
    match r_initialize p (modes_of r) with
    | Ok (memory, m, said) => Ok (set_reporter r 0 m (Holds p memory), [Initialized 0] ++ map Printed said)
    | Err e => Err e
    end).
Proof. exact same_name. Qed.
Print Assumptions C54_same_name_refuted.

Example C54_example :
  add_reporters small [] (g_reporters program) = Ok (g_reporters program) /\
  add_reporters small [] [example_reporter "a"; example_reporter "b::"] = Err Assert /\
  add_reporters small [] (repeat (example_reporter "a") 4) = Err Assert /\
  parse_reporter small program (quote "xml") = Ok (set_reporter program 1 (mkmodes Full false) (Holds (example_reporter "xml") []), [Initialized 1]) /\
  (do (r, out) <- parse_reporter small program (quote ":xml") ;; Ok (g_reporter r, length out)) = Ok (None, 1).
Proof. repeat split; vm_compute; reflexivity. Qed.

(** ** C55. Exit status *)

(** [failure]: a test case ended in the failed state, or the summary says so. *)
Theorem C55_exit_status :
  forall (lm : Session.limits) (fuel : nat) (can_open : text -> bool) (r : registry) (path : text) (argv : list text) (out : list output) (code : nat),
  length argv <= l_max_command_line_args lm -> main lm fuel can_open r path argv = Ok (out, code) ->
  (code = 0 \/ code = 1) /\ (code = 1 <-> ~ acceptable argv \/ failure out).
Proof. exact exit_status. Qed.
Print Assumptions C55_exit_status.

Example C55_example :
  let code l := do (_, c) <- command l ;; Ok c in
  code [] = Ok 1 /\ code ["~[x]"] = Ok 0 /\ code ["--help"] = Ok 0 /\ code ["-l"; "ab"] = Ok 0 /\ code ["-l"; "-l"] = Ok 1 /\ code ["--bogus"; "cd"] = Ok 0.
Proof. repeat split; vm_compute; reflexivity. Qed.

(** ** C57. Life of the output file *)

(** With --out, the file is opened before any event is reported, and closed at the very end; without, no file is
    touched. *)
Theorem C57_output_file :
  forall (lm : Session.limits) (fuel : nat) (can_open : text -> bool) (r : registry) (path : text) (argv : list text) (out : list output) (code : nat),
  length argv <= l_max_command_line_args lm -> g_file r = None ->
  main lm fuel can_open r path argv = Ok (out, code) ->
  match setting (read argv) (quote "--out") with
  | Some (Some v) => acceptable argv -> exists p before between,
      open_file (l_max_path_length lm) can_open v = Ok p /\
      out = before ++ [OpenedFile p] ++ between ++ [ClosedFile] /\
      events_of before = [] /\ filter file_output (before ++ between) = []
  | _ => filter file_output out = []
  end.
Proof. exact output_file. Qed.
Print Assumptions C57_output_file.

(** Printing through the registry after such a run is undefined behaviour: the print callback still refers to the file
    writer that has been destroyed. *)
Theorem C57_print_after_run_refuted :
  forall (lm : Session.limits) (fuel : nat) (can_open : text -> bool) (r r1 r2 : registry) (args : input) (out1 out2 : list output) (success : bool) (s : text),
  get_option args (quote "--out") <> None -> configure lm can_open r args = Ok (r1, out1) ->
  run_tests lm fuel r1 args = Ok (r2, out2, success) -> print_text r2 s = Err UB.
Proof. exact print_after_run. Qed.
Print Assumptions C57_print_after_run_refuted.

Example C57_example :
  (do (out, c) <- command ["--out"; "f.txt"; "~[x]"; "--verbosity"; "normal"] ;; Ok (out, c)) =
    Ok ([OpenedFile (quote "f.txt")] ++ map (Reported None) [TestRunStarted (quote "demo") [quote "~[x]"]; User 2;
         TestRunEnded (quote "demo") [quote "~[x]"] 1 0 0 0 (mkcounts 2 0 0) true] ++ [Finished None; ClosedFile], 0) /\
  length (map quote ["--out"; "f.txt"; "~[x]"; "--verbosity"; "normal"]) <= l_max_command_line_args small /\
  (do (out, c) <- command ["--out"; "a path too long"] ;; Ok c) = Err Assert.
Proof. split; [vm_compute; reflexivity|]. split; [|vm_compute; reflexivity]. rewrite map_length. cbn [length]. vm_compute. lia. Qed.

(** ** C73. Calls to reporters *)

(** One reporter is called, whatever the command line; [calls] gives the calls in order. *)
Theorem C73_calls :
  forall (lm : Session.limits) (fuel : nat) (can_open : text -> bool) (r : registry) (path : text) (argv : list text) (out : list output) (code : nat),
  length argv <= l_max_command_line_args lm -> g_reporter r = None ->
  main lm fuel can_open r path argv = Ok (out, code) ->
  (acceptable argv ->
   exists reporter options, (forall i, reporter = Some i -> i < length (g_reporters r)) /\
     filter call out = calls reporter options (events_of out)) /\
  (~ acceptable argv -> filter call out = []).
Proof. exact protocol. Qed.
Print Assumptions C73_calls.

Example C73_example :
  let called l := do (out, _) <- command l ;; Ok (filter call out) in
  called ["--reporter"; "xml::a=1"; "--verbosity"; "normal"; "-l"; "ab"] =
    Ok (calls (Some 1) [(quote "a", quote "1")]
          [ListTestRunStarted; TestCaseListed (mkid (quote "ab") (quote "[x]") [] []) 10; ListTestRunEnded]) /\
  called ["--help"; "--reporter"; "none"] = Ok (calls None [] []) /\ called ["-l"; "-l"] = Ok [].
Proof. cbv zeta. split; [|split]; vm_compute; reflexivity. Qed.
