(** Model of the three reporters: src/snitch_reporter_catch2_xml.cpp, src/snitch_reporter_teamcity.cpp and
    src/snitch_reporter_console.cpp. What a reporter prints is the list of texts given to the print callback, one
    element per call ([registry_print], Model/Print.v). *)
From Verif.Spec Require Import PrintSpec Events.
From Verif.Model Require Import Base Vector StringUtil Integer Print Filter Run.

(** The double quote, apostrophe, line feed and carriage return. *)
Definition dquote : str := [ascii_of_nat 34].
Definition apostrophe : str := [ascii_of_nat 39].
Definition line_feed : str := [ascii_of_nat 10].
Definition carriage_return : str := [ascii_of_nat 13].

(** A sequence of calls [escape_all_or_truncate(string, pattern, replacement) && ...]: a call that returns false
    ends it. The fuel of each call is the capacity of the string (enough, see C09). *)
Fixpoint escape_chain (l : list (str * str)) (ss : sstr) : res (sstr * bool) :=
  match l with
  | [] => Ok (ss, true)
  | (pattern, replacement) :: l' =>
    do (ss1, ok) <- escape_all_or_truncate (vcap ss) ss pattern replacement ;;
    if ok : bool then escape_chain l' ss1 else Ok (ss1, false)
  end.

(** [std::size_t] numbers written in decimal by [append] (Model/Integer.v). *)
Definition decimal (n : nat) : str := to_chars_uint 10 (N.of_nat n).

(** src/snitch_registry.cpp:143-157 [make_full_name], as used by the reporters: they ignore the returned view and use
    the buffer, which holds the beginning of a name that does not fit. *)
Definition full_name_buffer (mn : nat) (id : test_id) : res sstr :=
  do (buffer, _) <- append_all (new_string mn)
    (match id_type id with
     | [] => [id_name id]
     | _ => [id_name id; lit " <"; id_type id; lit ">"]
     end) ;;
  Ok buffer.

Section Reporters.
Variable mm : nat. (* max_message_length *)
Variable mn : nat. (* max_test_name_length *)
Variable version : str. (* SNITCH_FULL_VERSION *)
Variable with_color : bool. (* registry::with_color *)
(** Events (Spec/Events.v) carry neither source file names nor durations: they are given by these functions.
    [duration] is the text of the number, [None] if SNITCH_WITH_TIMINGS is off. *)
Variable file : event -> str.
Variable duration : event -> option str.

(** ** src/snitch_reporter_catch2_xml.cpp *)

(** 21-27 [escape]. *)
Definition xml_escape (ss : sstr) : res (sstr * bool) :=
  escape_chain [(lit "&", lit "&amp;"); (dquote, lit "&quot;"); (apostrophe, lit "&apos;");
                (lit "<", lit "&lt;"); (lit ">", lit "&gt;")] ss.

(** 29-34 [make_escaped]. *)
Definition xml_make_escaped (s : str) : res str :=
  do (ss, _) <- append_or_truncate (new_string mm) [s] ;;
  do (ss1, _) <- xml_escape ss ;;
  Ok (vcontent ss1).

(** 36-41 [make_full_name]. *)
Definition xml_make_full_name (id : test_id) : res str :=
  do ss <- full_name_buffer mn id ;;
  do (ss1, _) <- xml_escape ss ;;
  Ok (vcontent ss1).

(** 43-54 [make_filters]. *)
Fixpoint xml_filter_loop (first : bool) (filters : list str) (ss : sstr) : res sstr :=
  match filters with
  | [] => Ok ss
  | filter :: filters' =>
    do (ss1, _) <- append_or_truncate ss [if first then dquote else lit " " ++ dquote; filter; dquote] ;;
    xml_filter_loop false filters' ss1
  end.
Definition xml_make_filters (filters : list str) : res str :=
  do ss <- xml_filter_loop true filters (new_string mm) ;;
  do (ss1, _) <- xml_escape ss ;;
  Ok (vcontent ss1).

(** 56-63 [make_string]. *)
Definition xml_make_string (text : str) : res str :=
  do (ss, _) <- append_or_truncate (new_string 32) [text] ;; Ok (vcontent ss).

(** The functions below print, and change the indentation level: from the level, the new level and the texts
    printed. *)
Definition xml := nat -> res (nat * list str).
Definition nothing : xml := fun level => Ok (level, []).
Definition andthen (a b : xml) : xml :=
  fun level => do (level1, out1) <- a level ;; do (level2, out2) <- b level1 ;; Ok (level2, out1 ++ out2).
Notation "a ;> b" := (andthen a b) (at level 61, right associativity).

(** A call of [registry::print]. *)
Definition prints_texts (l : list str) : xml := fun level => do out <- registry_print mm (map Text l) ;; Ok (level, out).

(** 65-69 [get_indent]. *)
Definition get_indent (level : nat) : str := repeat " "%char (Nat.min 16 (2 * level)).

(** 71-74 [close]; [Err Wrap] if the level is 0. *)
Definition xml_close (name : str) : xml := fun level =>
  do level1 <- csub level 1 ;; prints_texts [get_indent level1; lit "</"; name; lit ">" ++ line_feed] level1.

(** 76-78 [print]. *)
Definition xml_print (data : str) : xml := fun level => prints_texts [get_indent level; data; line_feed] level.

Definition attribute := (str * str)%type.
Fixpoint xml_attributes (args : list attribute) : xml :=
  match args with
  | [] => nothing
  | (key, value) :: args' => prints_texts [lit " "; key; lit "=" ++ dquote; value; dquote] ;> xml_attributes args'
  end.

(** 80-92 [open]. *)
Definition xml_open (name : str) (args : list attribute) : xml :=
  (fun level => prints_texts [get_indent level; lit "<"; name] level) ;>
  xml_attributes args ;> prints_texts [lit ">" ++ line_feed] ;> (fun level => Ok (S level, [])).

(** 94-105 [node]. *)
Definition xml_node (name : str) (args : list attribute) : xml :=
  (fun level => prints_texts [get_indent level; lit "<"; name] level) ;>
  xml_attributes args ;> prints_texts [lit "/>" ++ line_feed].

(** 107-118 [open_close]. *)
Definition xml_open_close (name content : str) : xml :=
  match content with
  | [] => xml_node name []
  | _ => fun level => prints_texts [get_indent level; lit "<"; name; lit ">"; content; lit "</"; name; lit ">" ++ line_feed] level
  end.

(** A computed argument. *)
Definition with_text (t : res str) (f : str -> xml) : xml := fun level => do s <- t ;; f s level.

(** 121-125. *)
Fixpoint xml_captures (captures : list str) : xml :=
  match captures with
  | [] => nothing
  | c :: captures' =>
    xml_open (lit "Info") [] ;> with_text (xml_make_escaped c) xml_print ;> xml_close (lit "Info") ;> xml_captures captures'
  end.

(** 120-161 [report_assertion]. *)
Definition xml_report_assertion (e : event) (captures : list str) (l : location) (what : payload) (success : bool) : xml :=
  xml_captures captures ;>
  match what with
  | Message message =>
    let name := if success then lit "Success" else lit "Failure" in
    with_text (xml_make_escaped (file e)) (fun f =>
    with_text (xml_make_string (decimal (loc_line l))) (fun n =>
    xml_open name [(lit "filename", f); (lit "line", n)])) ;>
    with_text (xml_make_escaped message) xml_print ;>
    xml_close name
  | Expression type expected actual =>
    with_text (xml_make_escaped (file e)) (fun f =>
    with_text (xml_make_string (decimal (loc_line l))) (fun n =>
    xml_open (lit "Expression")
      [(lit "success", if success then lit "true" else lit "false"); (lit "type", type); (lit "filename", f); (lit "line", n)])) ;>
    xml_open (lit "Original") [] ;>
    with_text (xml_make_escaped expected) xml_print ;>
    xml_close (lit "Original") ;>
    xml_open (lit "Expanded") [] ;>
    match actual with
    | [] => with_text (xml_make_escaped expected) xml_print
    | _ => with_text (xml_make_escaped actual) xml_print
    end ;>
    xml_close (lit "Expanded") ;>
    xml_close (lit "Expression")
  end.

(** A number computed by subtractions, 192-194, 201, 243-245. *)
Definition minus2 (a b c : nat) (f : str -> xml) : xml :=
  fun level => do d <- csub a b ;; do n <- csub d c ;; with_text (xml_make_string (decimal n)) f level.
Definition number (n : nat) (f : str -> xml) : xml := with_text (xml_make_string (decimal n)) f.

Definition duration_attribute (e : event) (f : list attribute -> xml) : xml :=
  match duration e with
  | Some d => with_text (xml_make_string d) (fun t => f [(lit "durationInSeconds", t)])
  | None => f []
  end.

Definition xml_prolog : str := lit "<?xml version=" ++ dquote ++ lit "1.0" ++ dquote ++ lit " encoding=" ++ dquote ++ lit "UTF-8" ++ dquote ++ lit "?>".

(** 175-283 [report]. *)
Definition xml_report (e : event) : xml :=
  match e with
  | TestRunStarted name filters =>
    xml_print (xml_prolog ++ line_feed) ;>
    with_text (xml_make_escaped name) (fun n =>
    with_text (xml_make_filters filters) (fun f =>
    xml_open (lit "Catch2TestRun")
      [(lit "name", n); (lit "rng-seed", lit "0"); (lit "xml-format-version", lit "3");
       (lit "catch2-version", version ++ lit ".snitch"); (lit "filters", f)]))
  | TestRunEnded _ _ run failed allowed_failed skipped c _ =>
    minus2 (n_all c) (n_failed c) (n_allowed c) (fun s =>
    number (n_failed c) (fun f => number (n_allowed c) (fun a => number skipped (fun k =>
    xml_node (lit "OverallResults")
      [(lit "successes", s); (lit "failures", f); (lit "expectedFailures", a); (lit "skips", k)])))) ;>
    minus2 run failed allowed_failed (fun s =>
    number failed (fun f => number allowed_failed (fun a => number skipped (fun k =>
    xml_node (lit "OverallResultsCases")
      [(lit "successes", s); (lit "failures", f); (lit "expectedFailures", a); (lit "skips", k)])))) ;>
    xml_close (lit "Catch2TestRun")
  | TestCaseStarted id line =>
    with_text (xml_make_full_name id) (fun n =>
    with_text (xml_make_escaped (id_tags id)) (fun t =>
    with_text (xml_make_escaped (file e)) (fun f =>
    number line (fun l =>
    xml_open (lit "TestCase") [(lit "name", n); (lit "tags", t); (lit "filename", f); (lit "line", l)]))))
  | TestCaseEnded _ _ _ s =>
    duration_attribute e (fun d =>
    xml_node (lit "OverallResult")
      ([(lit "success", match s with Failed => lit "false" | _ => lit "true" end);
        (lit "skips", match s with Skipped => lit "1" | _ => lit "0" end)] ++ d)) ;>
    xml_close (lit "TestCase")
  | SectionStarted s =>
    with_text (xml_make_escaped (sec_name s)) (fun n =>
    with_text (xml_make_escaped (file e)) (fun f =>
    number (sec_line s) (fun l =>
    xml_open (lit "Section") [(lit "name", n); (lit "filename", f); (lit "line", l)])))
  | SectionEnded _ skipped c =>
    minus2 (n_all c) (n_failed c) (n_allowed c) (fun s =>
    number (n_failed c) (fun f => number (n_allowed c) (fun a =>
    duration_attribute e (fun d =>
    xml_node (lit "OverallResults")
      ([(lit "successes", s); (lit "failures", f); (lit "expectedFailures", a);
        (lit "skipped", if skipped then lit "true" else lit "false")] ++ d))))) ;>
    xml_close (lit "Section")
  | TestCaseSkipped _ _ _ l message =>
    with_text (xml_make_escaped (file e)) (fun f =>
    number (loc_line l) (fun n =>
    xml_open (lit "Skip") [(lit "filename", f); (lit "line", n)])) ;>
    xml_print message ;>
    xml_close (lit "Skip")
  | AssertionFailed _ _ captures l what _ _ => xml_report_assertion e captures l what false
  | AssertionSucceeded _ _ captures l what => xml_report_assertion e captures l what true
  | ListTestRunStarted => xml_print xml_prolog ;> xml_open (lit "MatchingTests") []
  | ListTestRunEnded => xml_close (lit "MatchingTests")
  | TestCaseListed id line =>
    xml_open (lit "TestCase") [] ;>
    with_text (xml_make_full_name id) (xml_open_close (lit "Name")) ;>
    with_text (xml_make_escaped (id_fixture id)) (xml_open_close (lit "ClassName")) ;>
    with_text (xml_make_escaped (id_tags id)) (xml_open_close (lit "Tags")) ;>
    xml_open (lit "SourceInfo") [] ;>
    with_text (xml_make_escaped (file e)) (xml_open_close (lit "File")) ;>
    number line (xml_open_close (lit "Line")) ;>
    xml_close (lit "SourceInfo") ;>
    xml_close (lit "TestCase")
  | User _ => nothing
  end.

(** The events of a run, one after the other. *)
Fixpoint xml_reports (l : list event) : xml :=
  match l with
  | [] => nothing
  | e :: l' => xml_report e ;> xml_reports l'
  end.

(** ** src/snitch_reporter_teamcity.cpp *)

(** 28-33 [escape]. *)
Definition tc_escape (ss : sstr) : res (sstr * bool) :=
  escape_chain [(lit "|", lit "||"); (apostrophe, lit "|" ++ apostrophe); (line_feed, lit "|n");
                (carriage_return, lit "|r"); (lit "[", lit "|["); (lit "]", lit "|]")] ss.

(** 35-41 [make_escaped]; the buffer has capacity [max_message_length]. *)
Definition tc_make_escaped (s : str) : res str :=
  do (ss, _) <- append_or_truncate (new_string mm) [s] ;;
  do (ss1, _) <- tc_escape ss ;;
  Ok (vcontent ss1).

(** Printing functions: the texts printed. *)
Definition tc := res (list str).
Definition tc_print (l : list piece) : tc := registry_print mm l.
Definition tc_then (a b : tc) : tc := do x <- a ;; do y <- b ;; Ok (x ++ y).
Definition tc_text (t : res str) (f : str -> tc) : tc := do s <- t ;; f s.

(** 47-49. *)
Fixpoint tc_captures (captures : list str) : tc :=
  match captures with
  | [] => Ok []
  | c :: captures' =>
    tc_then (tc_text (tc_make_escaped c) (fun t => tc_print [Text (lit "with "); Text t; Text (lit "|n")])) (tc_captures captures')
  end.

(** 43-72 [print_assertion]. *)
Definition tc_print_assertion (f : str) (captures : list str) (l : location) (what : payload) : tc :=
  tc_then (tc_text (tc_make_escaped f) (fun t =>
           tc_print [Text apostrophe; Text t; Text (lit ":"); Number (decimal (loc_line l)); Text (lit "|n")]))
  (tc_then (tc_captures captures)
  (match what with
   | Message message => tc_text (tc_make_escaped message) (fun t => tc_print [Text (lit "  "); Text t; Text apostrophe])
   | Expression type expected actual =>
     tc_then (tc_text (tc_make_escaped expected) (fun t =>
              tc_print [Text (lit "  "); Text type; Text (lit "("); Text t; Text (lit ")")]))
     (match actual with
      | [] => tc_print [Text apostrophe]
      | _ =>
        if (64 <? length expected + length type + 3) || (64 <? length actual + 5) then
          tc_text (tc_make_escaped actual) (fun t =>
          tc_print [Text (lit "|n"); Text (lit "  "); Text (lit "got: "); Text t; Text apostrophe])
        else
          tc_text (tc_make_escaped actual) (fun t => tc_print [Text (lit ", got: "); Text t; Text apostrophe])
      end)
   end)).

(** 74-89 [send_message]; an argument prints its key and its value. *)
Inductive tc_value := TcText (s : str) | TcAssertion (f : str) (captures : list str) (l : location) (what : payload).
Fixpoint tc_args (args : list (str * tc_value)) : tc :=
  match args with
  | [] => Ok []
  | (key, value) :: args' =>
    tc_then (tc_print [Text (lit " "); Text key; Text (lit "=")])
    (tc_then (match value with
              | TcText s => tc_print [Text apostrophe; Text s; Text apostrophe]
              | TcAssertion f captures l what => tc_print_assertion f captures l what
              end) (tc_args args'))
  end.
Definition tc_send_message (message : str) (args : list (str * tc_value)) : tc :=
  tc_then (tc_print [Text (lit "##teamCity["); Text message])
  (tc_then (tc_args args) (tc_print [Text (lit "]" ++ line_feed)])).

(** 91-100 [make_suite_name]. *)
Fixpoint tc_filter_loop (filters : list str) (ss : sstr) : res sstr :=
  match filters with
  | [] => Ok ss
  | filter :: filters' =>
    do (ss1, _) <- append_or_truncate ss [lit " " ++ dquote; filter; dquote] ;;
    tc_filter_loop filters' ss1
  end.
Definition tc_suite_name (app : str) (filters : list str) : res str :=
  do (ss, _) <- append_or_truncate (new_string mm) [app] ;;
  do ss1 <- tc_filter_loop filters ss ;;
  do (ss2, _) <- tc_escape ss1 ;;
  Ok (vcontent ss2).

(** 102-107 [make_full_name]. *)
Definition tc_full_name (id : test_id) : res str :=
  do ss <- full_name_buffer mn id ;;
  do (ss1, _) <- tc_escape ss ;;
  Ok (vcontent ss1).

(** 126-178 [report]. The duration (111-117 [make_duration]) is the text of an integer in a string of 32
    characters. *)
Definition tc_report (e : event) : tc :=
  match e with
  | TestRunStarted name filters => tc_text (tc_suite_name name filters) (fun n => tc_send_message (lit "testSuiteStarted") [(lit "name", TcText n)])
  | TestRunEnded name filters _ _ _ _ _ _ =>
    tc_text (tc_suite_name name filters) (fun n => tc_send_message (lit "testSuiteFinished") [(lit "name", TcText n)])
  | TestCaseStarted id _ => tc_text (tc_full_name id) (fun n => tc_send_message (lit "testStarted") [(lit "name", TcText n)])
  | TestCaseEnded id _ _ _ =>
    tc_text (tc_full_name id) (fun n =>
    match duration e with
    | Some d => tc_text (do (ss, _) <- append_or_truncate (new_string 32) [d] ;; Ok (vcontent ss)) (fun t =>
                tc_send_message (lit "testFinished") [(lit "name", TcText n); (lit "duration", TcText t)])
    | None => tc_send_message (lit "testFinished") [(lit "name", TcText n)]
    end)
  | SectionStarted s => tc_send_message (lit "blockOpened") [(lit "name", TcText (sec_name s)); (lit "description", TcText (sec_description s))]
  | SectionEnded s _ _ => tc_send_message (lit "blockClosed") [(lit "name", TcText (sec_name s))]
  | TestCaseSkipped id _ captures l message =>
    tc_text (tc_full_name id) (fun n =>
    tc_send_message (lit "testIgnored") [(lit "name", TcText n); (lit "message", TcAssertion (file e) captures l (Message message))])
  | AssertionFailed id _ captures l what expected allowed =>
    tc_text (tc_full_name id) (fun n =>
    tc_send_message (if expected || allowed then lit "testStdOut" else lit "testFailed")
      [(lit "name", TcText n); (if expected || allowed then lit "out" else lit "message", TcAssertion (file e) captures l what)])
  | AssertionSucceeded id _ captures l what =>
    tc_text (tc_full_name id) (fun n =>
    tc_send_message (lit "testStdOut") [(lit "name", TcText n); (lit "out", TcAssertion (file e) captures l what)])
  | ListTestRunStarted | ListTestRunEnded => Ok []
  | TestCaseListed id _ => tc_text (tc_full_name id) (fun n => tc_print [Text n; Text line_feed])
  | User _ => Ok []
  end.
Fixpoint tc_reports (l : list event) : tc :=
  match l with
  | [] => Ok []
  | e :: l' => tc_then (tc_report e) (tc_reports l')
  end.

(** ** src/snitch_reporter_console.cpp *)

Definition highlight1 (s : str) : piece := make_colored s with_color color_highlight1.
Definition highlight2 (s : str) : piece := make_colored s with_color color_highlight2.

(** 17-25 [locatation_label]. *)
Definition location_label (t : location_type) : str :=
  match t with
  | Exact => lit "at"
  | SectionScope => lit "somewhere inside section at"
  | TestCaseScope => lit "somewhere inside test case at"
  | InCheck => lit "somewhere inside check at"
  end.

(** Calls of [registry::print] in sequence. *)
Fixpoint console_prints (l : list (list piece)) : tc :=
  match l with
  | [] => Ok []
  | p :: l' => tc_then (registry_print mm p) (console_prints l')
  end.

(** 38, the ten spaces. *)
Definition margin : str := lit "          ".

(** 27-52 [print_location]. *)
Definition print_location (e : event) (id : test_id) (sections : list section_id) (captures : list str) (l : location) : list (list piece) :=
  [Text (lit "running test case " ++ dquote); highlight1 (id_name id); Text (dquote ++ line_feed)] ::
  map (fun s => [Text (lit "          in section " ++ dquote); highlight1 (sec_name s); Text (dquote ++ line_feed)]) sections ++
  [[Text margin; Text (location_label (loc_type l)); Text (lit " "); Text (file e); Text (lit ":"); Number (decimal (loc_line l)); Text line_feed]] ++
  match id_type id with
  | [] => []
  | _ => [[Text (lit "          for type "); highlight1 (id_type id); Text line_feed]]
  end ++
  map (fun c => [Text (lit "          with "); highlight1 c; Text line_feed]) captures.

(** 54-86 [print_message]. *)
Definition print_message (what : payload) : res (list (list piece)) :=
  match what with
  | Message message => Ok [[Text margin; highlight2 message; Text line_feed]]
  | Expression type expected actual =>
    do (message_buffer, _) <- append_or_truncate (new_string mm) [type; lit "("; expected; lit ")"] ;;
    Ok ([Text margin; highlight2 (vcontent message_buffer)] ::
        match actual with
        | [] => [[Text line_feed]]
        | _ =>
          if (64 <? length expected + length type + 3) || (64 <? length actual + 5)
          then [[Text line_feed; Text margin; Text (lit "got: "); highlight2 actual; Text line_feed]]
          else [[Text (lit ", got: "); highlight2 actual; Text line_feed]]
        end)
  end.

(** 104-215 [report]: the arguments of the calls of [registry::print], and the new value of [counter]. *)
Definition console_calls (counter : nat) (e : event) : res (nat * list (list piece)) :=
  match e with
  | TestRunStarted name _ =>
    Ok (counter, [[highlight2 (lit "starting "); highlight1 name; highlight2 (lit " with "); highlight1 (lit "snitch v" ++ version ++ line_feed)];
                  [Text (lit "==========================================" ++ line_feed)]])
  | TestRunEnded _ _ run failed _ skipped c success =>
    Ok (counter,
        [Text (lit "==========================================" ++ line_feed)] ::
        (if success : bool
         then [make_colored (lit "success:") with_color color_pass; Text (lit " all tests passed ("); Number (decimal run);
               Text (lit " test cases, "); Number (decimal (n_all c)); Text (lit " assertions")]
         else [make_colored (lit "error:") with_color color_fail; Text (lit " "); Text (if failed =? run then lit "all" else lit "some");
               Text (lit " tests failed ("); Number (decimal failed); Text (lit " out of "); Number (decimal run); Text (lit " test cases, ");
               Number (decimal (n_all c)); Text (lit " assertions")]) ::
        (if 0 <? skipped then [[Text (lit ", "); Number (decimal skipped); Text (lit " test cases skipped")]] else []) ++
        match duration e with Some d => [[Text (lit ", "); Number d; Text (lit " seconds")]] | None => [] end ++
        [[Text (lit ")" ++ line_feed)]])
  | TestCaseStarted id line =>
    do full_name <- full_name_buffer mn id ;;
    Ok (counter, [[make_colored (lit "starting:") with_color color_status; Text (lit " "); highlight1 (vcontent full_name); Text (lit " at ");
                   Text (file e); Text (lit ":"); Number (decimal line); Text line_feed]])
  | TestCaseEnded id _ _ _ =>
    do full_name <- full_name_buffer mn id ;;
    Ok (counter, [[make_colored (lit "finished:") with_color color_status; Text (lit " "); highlight1 (vcontent full_name)] ++
                  match duration e with Some d => [Text (lit " ("); Number d; Text (lit "s)" ++ line_feed)] | None => [Text line_feed] end])
  | SectionStarted s =>
    Ok (counter, [[make_colored (lit "entering section:") with_color color_status; Text (lit " "); highlight1 (sec_name s); Text (lit " at ");
                   Text (file e); Text (lit ":"); Number (decimal (sec_line s)); Text line_feed]])
  | SectionEnded s _ _ =>
    Ok (counter, [[make_colored (lit "leaving section:") with_color color_status; Text (lit " "); highlight1 (sec_name s); Text line_feed]])
  | TestCaseSkipped id sections captures l message =>
    Ok (counter, [make_colored (lit "skipped: ") with_color color_skipped] :: print_location e id sections captures l ++
                 [[Text margin; highlight2 message; Text line_feed]])
  | AssertionFailed id sections captures l what expected allowed =>
    do m <- print_message what ;;
    Ok (counter, [if expected : bool then make_colored (lit "expected failure: ") with_color color_pass
                  else if allowed : bool then make_colored (lit "allowed failure: ") with_color color_pass
                  else make_colored (lit "failed: ") with_color color_fail] ::
                 print_location e id sections captures l ++ m)
  | AssertionSucceeded id sections captures l what =>
    do m <- print_message what ;;
    Ok (counter, [make_colored (lit "passed: ") with_color color_pass] :: print_location e id sections captures l ++ m)
  | ListTestRunStarted => Ok (0, [[Text (lit "Matching test cases:" ++ line_feed)]])
  | ListTestRunEnded => Ok (counter, [[Number (decimal counter); Text (lit " matching test cases" ++ line_feed)]])
  | TestCaseListed id _ =>
    do full_name <- full_name_buffer mn id ;;
    Ok (S counter, [Text (lit "  "); Text (vcontent full_name); Text line_feed] ::
                   match id_tags id with [] => [] | _ => [[Text (lit "      "); Text (id_tags id); Text line_feed]] end)
  | User _ => Ok (counter, [])
  end.
Definition console_report (counter : nat) (e : event) : res (nat * list str) :=
  do (counter1, calls) <- console_calls counter e ;;
  do out <- console_prints calls ;;
  Ok (counter1, out).
Fixpoint console_reports (counter : nat) (l : list event) : res (nat * list str) :=
  match l with
  | [] => Ok (counter, [])
  | e :: l' =>
    do (counter1, out1) <- console_report counter e ;;
    do (counter2, out2) <- console_reports counter1 l' ;;
    Ok (counter2, out1 ++ out2)
  end.
End Reporters.
