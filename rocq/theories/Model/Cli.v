(** Model of the command-line interface: src/snitch_cli.cpp, include/snitch/snitch_cli.hpp.
    Everything printed is collected, in order, one element per call of [cli::console_print]. *)
From Verif.Model Require Import Base Vector StringUtil Run Print.
From Verif.Spec Require Import PrintSpec CliSpec. (* only for the vocabulary [piece], [argument] *)

Definition newline : str := [ascii_of_nat 10].

(** src/snitch_cli.cpp:18-24 [expected_argument]; [e_mandatory] and [e_repeatable] are the two bits of
    [argument_type] (14-16). *)
Record expected := mkexpected {
  e_names : list str;
  e_value_name : option str;
  e_ignored : bool;
  e_description : str;
  e_mandatory : bool;
  e_repeatable : bool
}.

(** include/snitch/snitch_cli.hpp:23-27 [argument] is in Spec/CliSpec.v; 29-32 [input]. *)
Record input := mkinput { executable : str; arguments : list argument }.

(** src/snitch_cli.cpp:28-32 [parser_settings]. *)
Record parser_settings := mksettings { silent : bool; tolerant : bool; with_color : bool }.

(** src/snitch_cli.cpp:34-43 [extract_executable]. *)
Definition is_separator (c : ascii) : bool := aeqb c "\"%char || aeqb c "/"%char.
Definition extract_executable (path : str) : str :=
  let path1 := match find_last_if is_separator path with Some folder_end => skipn (folder_end + 1) path | None => path end in
  match find_last_if (aeqb "."%char) path1 with
  | Some extension_start => firstn (length path1 - (length path1 - extension_start)) path1
  | None => path1
  end.

(** src/snitch_cli.cpp:45-63. *)
Definition is_option (e : expected) : bool := match e_names e with [] => false | _ => true end.
Definition is_option_argument (a : argument) : bool := match a_name a with [] => false | _ => true end.
Definition has_value (e : expected) : bool := match e_value_name e with Some _ => true | None => false end.

(** src/snitch_cli.cpp:80-97: the validity of the table of expected arguments. *)
Definition dash : str := lit "-".
Definition dashes : str := lit "--".
Fixpoint check_expected (l : list expected) : res unit :=
  match l with
  | [] => Ok tt
  | e :: l' =>
    do _ <-
      (match e_names e with
       | [] => if has_value e then Ok tt else Err Terminate
       | [n] => if starts_with n dash then Ok tt else Err Terminate
       | n :: n' :: _ => if starts_with n dash && starts_with n' dashes then Ok tt else Err Terminate
       end) ;;
    check_expected l'
  end.

(** [std::find(e.names.cbegin(), e.names.cend(), arg) != e.names.cend()]. *)
Definition named (e : expected) (arg : str) : bool := existsb (fun n => seqb n arg) (e_names e).

(** src/snitch_cli.cpp:106-117: the first entry that is an active option called [arg], with its index. *)
Fixpoint find_option (i : nat) (l : list expected) (arg : str) : option (nat * expected) :=
  match l with
  | [] => None
  | e :: l' => if e_ignored e || negb (is_option e) then find_option (S i) l' arg
               else if negb (named e arg) then find_option (S i) l' arg
               else Some (i, e)
  end.

(** src/snitch_cli.cpp:165-182: the number of values to ignore after [arg]. *)
Fixpoint ignored_values (l : list expected) (arg : str) : nat :=
  match l with
  | [] => 0
  | e :: l' => if negb (e_ignored e) then ignored_values l' arg
               else if negb (named e arg) then ignored_values l' arg
               else if has_value e then 1 else 0
  end.

(** src/snitch_cli.cpp:187-198: the first positional entry that can take one more argument.
    [found] is [expected_found]. *)
Fixpoint find_positional (i : nat) (l : list expected) (found : list bool) : res (option (nat * expected)) :=
  match l with
  | [] => Ok None
  | e :: l' =>
    if e_ignored e || is_option e then find_positional (S i) l' found
    else
      do f <- at_index found i ;;
      if f && negb (e_repeatable e) then find_positional (S i) l' found
      else Ok (Some (i, e))
  end.

(** The variables of [parse_arguments]: [expected_found], [args], [bad], and what was printed. *)
Record parser := mkparser { p_found : list bool; p_args : list argument; p_bad : bool; p_out : list str }.

Definition say (mm : nat) (silent : bool) (st : parser) (l : list piece) : res parser :=
  if silent then Ok st
  else do s <- cli_print mm l ;; Ok (mkparser (p_found st) (p_args st) (p_bad st) (p_out st ++ [s])).
Definition set_bad (st : parser) : parser := mkparser (p_found st) (p_args st) true (p_out st).

Definition error_prefix (with_color : bool) : piece := make_colored (lit "error:") with_color color_error.
Definition warning_prefix (with_color : bool) : piece := make_colored (lit "warning:") with_color color_warning.

(** Limits and build options: [max_message_length], [max_command_line_args], [SNITCH_DEFAULT_WITH_COLOR],
    [SNITCH_FULL_VERSION]. *)
Record cli_config := mkcli { c_max_message : nat; c_max_args : nat; c_default_color : bool; c_version : str }.

Section Parse.
Variable cc : cli_config.
Variable expected_args : list expected.
Variable settings : parser_settings.

(** src/snitch_cli.cpp:103-163: an argument that starts with a dash. [rest] is what follows it on the command
    line. Returns the number of following arguments consumed as value. *)
Definition parse_option (st : parser) (arg : str) (rest : list str) : res (parser * nat) :=
  match find_option 0 expected_args arg with
  | None =>
    do st' <- say (c_max_message cc) (silent settings) st
      [warning_prefix (with_color settings); Text (lit " unknown command line argument '"); Text arg; Text (lit "'" ++ newline)] ;;
    Ok (st', 0)
  | Some (i, e) =>
    do f <- at_index (p_found st) i ;;
    if f && negb (e_repeatable e) then
      do st' <- say (c_max_message cc) (silent settings) st
        [error_prefix (with_color settings); Text (lit " duplicate command line argument '"); Text arg; Text (lit "'" ++ newline)] ;;
      Ok (set_bad st', 0)
    else
      do found <- put_index (p_found st) i true ;;
      let st1 := mkparser found (p_args st) (p_bad st) (p_out st) in
      do name <- back (e_names e) ;;
      match e_value_name e with
      | Some value_name =>
        match rest with
        | [] =>
          do st' <- say (c_max_message cc) (silent settings) st1
            [error_prefix (with_color settings); Text (lit " missing value '<"); Text value_name;
             Text (lit ">' for command line argument '"); Text arg; Text (lit "'" ++ newline)] ;;
          Ok (set_bad st', 0)
        | value :: _ =>
          do args <- push_back (c_max_args cc) (p_args st1) (mkargument name (e_value_name e) (Some value)) ;;
          Ok (mkparser (p_found st1) args (p_bad st1) (p_out st1), 1)
        end
      | None =>
        do args <- push_back (c_max_args cc) (p_args st1) (mkargument name None None) ;;
        Ok (mkparser (p_found st1) args (p_bad st1) (p_out st1), 0)
      end
  end.

(** src/snitch_cli.cpp:183-213: an argument that does not start with a dash. *)
Definition parse_positional (st : parser) (arg : str) : res parser :=
  do p <- find_positional 0 expected_args (p_found st) ;;
  match p with
  | Some (i, e) =>
    do args <- push_back (c_max_args cc) (p_args st) (mkargument [] (e_value_name e) (Some arg)) ;;
    do found <- put_index (p_found st) i true ;;
    Ok (mkparser found args (p_bad st) (p_out st))
  | None =>
    do st' <- say (c_max_message cc) (silent settings) st
      [error_prefix (with_color settings); Text (lit " too many positional arguments" ++ newline)] ;;
    Ok (set_bad st')
  end.

(** src/snitch_cli.cpp:100-215: the loop on the arguments. [skip] is the number of arguments, starting from the
    head of [argv], that were consumed already ([argi += 1]). *)
Fixpoint parse_loop (skip : nat) (argv : list str) (st : parser) : res parser :=
  match argv with
  | [] => Ok st
  | arg :: rest =>
    match skip with
    | S skip' => parse_loop skip' rest st
    | 0 =>
      if starts_with arg dash then
        do (st', n) <- parse_option st arg rest ;;
        parse_loop (n + ignored_values expected_args arg) rest st'
      else
        do st' <- parse_positional st arg ;;
        parse_loop 0 rest st'
    end
  end.

(** src/snitch_cli.cpp:217-230: mandatory arguments. *)
Fixpoint check_mandatory (i : nat) (l : list expected) (st : parser) : res parser :=
  match l with
  | [] => Ok st
  | e :: l' =>
    do f <- at_index (p_found st) i ;;
    do st' <-
      (if negb f && e_mandatory e && negb (e_ignored e) then
         do st1 <-
           (if is_option e then
              do name <- back (e_names e) ;;
              say (c_max_message cc) (silent settings) st
                [error_prefix (with_color settings); Text (lit " missing option '<"); Text name; Text (lit ">'" ++ newline)]
            else
              match e_value_name e with
              | Some value_name =>
                say (c_max_message cc) (silent settings) st
                  [error_prefix (with_color settings); Text (lit " missing positional argument '<"); Text value_name;
                   Text (lit ">'" ++ newline)]
              | None => Err UB
              end) ;;
         Ok (set_bad st1)
       else Ok st) ;;
    check_mandatory (S i) l' st'
  end.

(** src/snitch_cli.cpp:65-237 [impl::parse_arguments]. The program's path [argv[0]] is given apart from the
    arguments; it is assumed to exist ([argc >= 1]). Returns what was printed and the result.
    Simplification: the capacity of [expected_found] (78) is that of the table [expected] (26), so filling it cannot fail.
    This capacity is [max_command_line_args] too, and the tables are constants (314, 358), so that the library cannot be
    compiled with less than 32 arguments; the model does not exclude smaller maxima. *)
Definition parse_with (path : str) (argv : list str) : res (list str * option input) :=
  do _ <- check_expected expected_args ;;
  do st <- parse_loop 0 argv (mkparser (map (fun _ => false) expected_args) [] false []) ;;
  do st' <- check_mandatory 0 expected_args st ;;
  Ok (p_out st',
      if p_bad st' && negb (tolerant settings) then None
      else Some (mkinput (extract_executable path) (p_args st'))).
End Parse.

(** src/snitch_cli.cpp:314-349 [expected_args]. *)
Definition option1 (n : str) (value : option str) (d : str) : expected := mkexpected [n] value false d false false.
Definition option2 (n n' : str) (value : option str) (d : str) : expected := mkexpected [n; n'] value false d false false.
Definition catch2 (names : list str) (value : option str) : expected := mkexpected names value true [] false false.
Definition expected_args : list expected :=
  [ option2 (lit "-l") (lit "--list-tests") None (lit "List tests by name");
    option1 (lit "--list-tags") None (lit "List tags by name");
    option1 (lit "--list-tests-with-tag") (Some (lit "tag")) (lit "List tests by name with a given tag");
    option1 (lit "--list-reporters") None (lit "List available test reporters (see --reporter)");
    option2 (lit "-r") (lit "--reporter") (Some (lit "reporter[::key=value]*"))
      (lit "Choose which reporter to use to output the test results");
    option2 (lit "-v") (lit "--verbosity") (Some (lit "quiet|normal|high|full"))
      (lit "Define how much gets sent to the standard output");
    option2 (lit "-o") (lit "--out") (Some (lit "path")) (lit "Saves output to a file given as 'path'");
    option1 (lit "--color") (Some (lit "always|default|never")) (lit "Enable/disable color in output");
    option1 (lit "--colour-mode") (Some (lit "ansi|default|none"))
      (lit "Enable/disable color in output (for compatibility with Catch2)");
    option2 (lit "-h") (lit "--help") None (lit "Print help");
    mkexpected [] (Some (lit "test regex")) false (lit "A regex to select which test cases to run") false true;
    catch2 [lit "-s"; lit "--success"] None;
    catch2 [lit "-b"; lit "--break"] None;
    catch2 [lit "-e"; lit "--nothrow"] None;
    catch2 [lit "-i"; lit "--invisibles"] None;
    catch2 [lit "-n"; lit "--name"] None;
    catch2 [lit "-a"; lit "--abort"] None;
    catch2 [lit "-x"; lit "--abortx"] (Some (lit "x"));
    catch2 [lit "-w"; lit "--warn"] (Some (lit "x"));
    catch2 [lit "-d"; lit "--durations"] (Some (lit "x"));
    catch2 [lit "-D"; lit "--min-duration"] (Some (lit "x"));
    catch2 [lit "-f"; lit "--input-file"] (Some (lit "x"));
    catch2 [lit "-#"; lit "--filenames-as-tags"] (Some (lit "x"));
    catch2 [lit "-c"; lit "--section"] (Some (lit "x"));
    catch2 [lit "--list-listeners"] None;
    catch2 [lit "--order"] (Some (lit "x"));
    catch2 [lit "--rng-seed"] (Some (lit "x"));
    catch2 [lit "--libidentify"] None;
    catch2 [lit "--wait-for-keypress"] (Some (lit "x"));
    catch2 [lit "--shard-count"] (Some (lit "x"));
    catch2 [lit "--shard-index"] (Some (lit "x"));
    catch2 [lit "--allow-running-no-tests"] None ].

(** src/snitch_cli.cpp:419-431 [get_option]. *)
Definition get_option (args : input) (name : str) : option argument :=
  List.find (fun a => seqb (a_name a) name) (arguments args).

(** [arg.value_name == name] on a [std::optional]. *)
Definition value_name_is (a : argument) (name : str) : bool :=
  match a_value_name a with Some n => seqb n name | None => false end.

(** src/snitch_cli.cpp:433-446 [get_positional_argument]. *)
Definition get_positional_argument (args : input) (name : str) : option argument :=
  List.find (fun a => negb (is_option_argument a) && value_name_is a name) (arguments args).

(** src/snitch_cli.cpp:448-464 [for_each_positional_argument]: the callback's arguments. *)
Fixpoint positional_values (name : str) (l : list argument) : res (list str) :=
  match l with
  | [] => Ok []
  | a :: l' =>
    if negb (is_option_argument a) && value_name_is a name then
      match a_value a with
      | Some v => do r <- positional_values name l' ;; Ok (v :: r)
      | None => Err UB
      end
    else positional_values name l'
  end.
Definition for_each_positional_argument (args : input) (name : str) : res (list str) := positional_values name (arguments args).

(** [*opt->value]. *)
Definition value_of (a : argument) : res str := match a_value a with Some v => Ok v | None => Err UB end.
(** [opt->value == "..."] on a [std::optional]. *)
Definition value_is (a : argument) (v : str) : bool := match a_value a with Some w => seqb w v | None => false end.

(** src/snitch_cli.cpp:355-367: the table used to find the colour options. *)
Definition output_args : list expected :=
  map (fun e => mkexpected (e_names e) (e_value_name e)
                  (negb (existsb (fun n => existsb (seqb n) [lit "--color"; lit "--colour-mode"]) (e_names e)))
                  (e_description e) (e_mandatory e) (e_repeatable e)) expected_args.

(** src/snitch_cli.cpp:352-390 [parse_color_options]. *)
Definition parse_color_options (cc : cli_config) (path : str) (argv : list str) : res (list str * bool) :=
  do (out, ret_args) <- parse_with cc output_args (mksettings true true true) path argv ;;
  let c0 := c_default_color cc in
  Ok (out,
      match ret_args with
      | None => c0
      | Some args =>
        let c1 := match get_option args (lit "--color") with
                  | Some o => if value_is o (lit "always") then true else if value_is o (lit "never") then false else c0
                  | None => c0
                  end in
        match get_option args (lit "--colour-mode") with
        | Some o => if value_is o (lit "ansi") then true else if value_is o (lit "none") then false else c1
        | None => c1
        end
      end).

(** src/snitch_cli.cpp:281-303: the heading of an argument; the chain [success = success && append(...)]. *)
Definition heading (mm : nat) (e : expected) : res str :=
  let parts :=
    match e_names e with
    | [] => match e_value_name e with Some v => Ok [lit "<"; v; lit ">"] | None => Err UB end
    | n :: others =>
      Ok ((if starts_with n dashes then [lit "    "] else []) ++ [n] ++
          (match others with [n'] => [lit ", "; n'] | _ => [] end) ++
          (match e_value_name e with Some v => [lit " <"; v; lit ">"] | None => [] end))
    end in
  do l <- parts ;;
  do (ss, success) <- append_all (new_string mm) l ;;
  do ss' <- (if success : bool then Ok ss else truncate_end ss) ;;
  Ok (vcontent ss').

Definition usage_of (e : expected) : res (list (list piece)) :=
  match e_value_name e with
  | None => Err UB
  | Some v =>
    Ok [ if negb (e_mandatory e) && negb (e_repeatable e) then [Text (lit " [<"); Text v; Text (lit ">]")]
         else if e_mandatory e && negb (e_repeatable e) then [Text (lit " <"); Text v; Text (lit ">")]
         else if negb (e_mandatory e) && e_repeatable e then [Text (lit " [<"); Text v; Text (lit ">...]")]
         else [Text (lit " <"); Text v; Text (lit ">...")] ]
  end.

(** src/snitch_cli.cpp:256-272. *)
Fixpoint usages (l : list expected) : res (list (list piece)) :=
  match l with
  | [] => Ok []
  | e :: l' => if e_ignored e || is_option e then usages l'
               else do u <- usage_of e ;; do r <- usages l' ;; Ok (u ++ r)
  end.

(** src/snitch_cli.cpp:277-310. *)
Fixpoint listing (mm : nat) (with_color : bool) (l : list expected) : res (list (list piece)) :=
  match l with
  | [] => Ok []
  | e :: l' =>
    if e_ignored e then listing mm with_color l'
    else
      do h <- heading mm e ;;
      do r <- listing mm with_color l' ;;
      Ok ([Text (lit "  "); make_colored h with_color color_highlight1; Text (lit " "); Text (e_description e); Text newline] :: r)
  end.

(** src/snitch_cli.cpp:239-311 [impl::print_help], 392-393 [program_description], 399-401 [cli::print_help]. *)
Definition print_help (cc : cli_config) (program_name : str) (with_color : bool) : res (list str) :=
  let description := lit "Test runner (snitch v" ++ c_version cc ++ lit " | compatible with Catch2 v3.4.0)" in
  do u <- usages expected_args ;;
  do r <- listing (c_max_message cc) with_color expected_args ;;
  prints (c_max_message cc)
    ([[make_colored description with_color color_highlight2; Text newline];
      [make_colored (lit "Usage:") with_color color_pass; Text newline];
      [Text (lit "  "); Text program_name]] ++
     (if existsb is_option expected_args then [[Text (lit " [options...]")]] else []) ++
     u ++ [[Text (newline ++ newline)]] ++ r).

(** src/snitch_cli.cpp:403-417 [cli::parse_arguments]. *)
Definition parse_arguments (cc : cli_config) (path : str) (argv : list str) : res (list str * option input) :=
  do (out0, color) <- parse_color_options cc path argv ;;
  do (out1, ret_args) <- parse_with cc expected_args (mksettings false false color) path argv ;;
  match ret_args with
  | Some a => Ok (out0 ++ out1, Some a)
  | None =>
    do s <- cli_print (c_max_message cc) [Text newline] ;;
    do h <- print_help cc path color ;;
    Ok (out0 ++ out1 ++ s :: h, None)
  end.
