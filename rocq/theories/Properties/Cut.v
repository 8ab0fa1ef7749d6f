(** Property C106: what is printed of texts that are too long. *)
From Coq Require Import NArith Lia.
From Verif.Spec Require Import TextSpec FilterSpec PrintSpec NumberSpec EscapeSpec Events TreeSpec XmlSpec SessionSpec ProgramSpec ConsoleSpec CutSpec CliSpec.
From Verif.Model Require Import Base Vector StringUtil Integer Print Filter Run Cli File Session Reporters Program.
From Verif.Spec Require Import ProgramClaims.
From Verif.Proofs Require Import ReportExamples ProgramFacts LinkProofs LinkExamples CutProofs CutProgram CutExamples.
Local Open Scope string_scope.
Local Open Scope list_scope.
Local Open Scope nat_scope.

(** ** C106. What is too long is cut where it is, visibly, and nothing else is lost (Spec/CutSpec.v). *)

(** Whatever the arguments of a call to the print function of the registry and whatever the limit: each argument is printed
    in turn, in full or cut, and how it is printed depends on the limit and on this argument only. No text given to the
    print callback is longer than the limit, except for arguments that are texts. *)
Theorem C106_print :
  forall (mm : nat) (arguments : list piece),
  exists chunks, registry_print mm arguments = Ok chunks /\ List.concat chunks = flat_map (squeezed mm) arguments /\
    Forall (fun c => length c <= mm \/ In (Text c) arguments) chunks.
Proof. exact print_exact. Qed.
Print Assumptions C106_print.

(** An argument that can be printed in full is. Of any other, a beginning is printed, then dots: a number to the limit; a text
    in colour to the limit with both sequences, where either the text is complete or the sequence that ends it is; or nothing
    if there is no room for the sequences alone. *)
Theorem C106_visible :
  forall (n : nat) (p : piece),
  (printable n p -> squeezed n p = rendered p) /\
  (~ printable n p -> (exists shown, squeezed n p = shown ++ mark n /\ length shown <= n /\
     match p with
     | Text _ => False
     | Number s => exists rest, s = shown ++ rest
     | Colored value start stop => n <= length (start ++ stop) /\ shown = [] \/
         exists kept rest end_ rest', value = kept ++ rest /\ stop = end_ ++ rest' /\ shown = start ++ kept ++ end_ /\ length shown = n /\ (rest = [] \/ rest' = [])
     end)).
Proof. exact cut_visibly. Qed.
Print Assumptions C106_visible.

(** The console reporter, on any events and any listing, with any limits: exactly these texts, in this order. *)
Theorem C106_console :
  exists shown : nat -> text, (forall n, (N.of_nat n < 2 ^ 64)%N -> writes 10 (shown n) (N.of_nat n)) /\
  forall (mm mn : nat) (version : text) (colours : bool) (file : event -> text) (duration : event -> option text) (counter : nat),
  let full_name := fun id => full_name_of (id_name id) (id_type id) in
  (forall l : list event, ~ In ListTestRunEnded l ->
   exists counter' out, console_reports mm mn version colours file duration counter l = Ok (counter', out) /\
   List.concat out = flat_map (cut_text mm mn colours id_name id_type full_name id_tags file duration shown version) l) /\
  (forall tests : list (test_id * nat),
   exists counter' out, console_reports mm mn version colours file duration counter
       (ListTestRunStarted :: map (fun t => TestCaseListed (fst t) (snd t)) tests ++ [ListTestRunEnded]) = Ok (counter', out) /\
   List.concat out = cut_listing mm mn colours id_name id_type full_name id_tags file duration shown version tests).
Proof. exact console_exact. Qed.
Print Assumptions C106_console.

(** Whole programs with the console reporter: the report is exactly the texts of the events, whatever the texts and the
    limits. *)
Theorem C106_program :
  exists shown : nat -> text, (forall n, (N.of_nat n < 2 ^ 64)%N -> writes 10 (shown n) (N.of_nat n)) /\
  forall (lm : Session.limits) (fuel : nat) (file : event -> text) (duration : event -> option text) (can_open : text -> bool)
    (r : registry) (path : text) (argv : list text) (out : list output) (code : nat) (out' : list output) (code' : nat),
  let full_name := fun id => full_name_of (id_name id) (id_type id) in
  length argv <= l_max_command_line_args lm -> acceptable argv -> asks_run (setting (read argv)) -> g_to_file r = false ->
  console_asked lm file duration r argv ->
  main_program lm fuel file duration can_open r path argv = Ok (out, code) ->
  main lm fuel can_open r path argv = Ok (out', code') ->
  code = code' /\
  exists colours : bool, report_colours r argv colours /\
    report_goes lm r argv out
      (flat_map (cut_text (l_max_message_length lm) (l_max_test_name_length lm) colours id_name id_type full_name id_tags file duration shown (l_version lm)) (events_of out')).
Proof. exact console_program_exact. Qed.
Print Assumptions C106_program.

(** Numbers and coloured texts that are cut, alone and between others; and a program where the name of a test, both sides of
    a check and the message of a skipped test are too long: each is cut in its place and all the rest is there. *)
Example C106_example :
  squeezed 12 (Number (quote "1234567890123")) = quote "123456789012..." /\
  squeezed 12 (Colored (quote "hello world") (quote "<b>") (quote "</b>")) = quote "<b>hello</b>..." /\
  squeezed 15 (Colored (quote "hello world") (quote "<b>") (quote "</b>")) = quote "<b>hello world<..." /\
  squeezed 7 (Colored (quote "hello world") (quote "<b>") (quote "</b>")) = quote "..." /\
  registry_print 12 [Text (quote "in "); Colored (quote "hello world") (quote "<b>") (quote "</b>"); Text (quote " and so on")] =
    Ok [quote "in "; quote "<b>hello</b>"; quote "..."; quote " and so on"] /\
  asks ["-v"; "high"] /\ console_asked small at_file untimed long_names (map quote ["-v"; "high"]) /\ g_to_file long_names = false /\
  length (map quote ["-v"; "high"]) <= l_max_command_line_args small /\
  said_by long_names ["-v"; "high"; "--color"; "never"] = Some long_report /\
  (match main small 5 (fun _ => true) long_names (quote "./demo") (map quote ["-v"; "high"; "--color"; "never"]) with
   | Ok (out, _) => flat_map (cut_text 60 40 false id_name id_type (fun id => full_name_of (id_name id) (id_type id)) id_tags at_file untimed decimal (quote "1.2")) (events_of out)
   | Err _ => []
   end) = long_report.
Proof. exact cut_example. Qed.
