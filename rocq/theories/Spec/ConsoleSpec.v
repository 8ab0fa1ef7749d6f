(** What the console reporter prints (C60). No reference to the model. *)
From Coq Require Import Arith Ascii String Bool NArith List.
From Verif.Spec Require Import TextSpec FilterSpec EscapeSpec XmlSpec Events.
Import ListNotations.
Local Open Scope list_scope.

(** ** Colours *)

(** Coloured texts are of one of these kinds. *)
Inductive style := Good | Bad | Warning | Status | Name | Value.

(** [uncoloured t u]: [u] is what remains of [t] without the sequences that change the colour: the escape character (27),
    a square bracket, and so on up to the next letter m. *)
Inductive uncoloured : text -> text -> Prop :=
| un_nothing : uncoloured [] []
| un_char c t u : c <> ascii_of_nat 27 -> uncoloured t u -> uncoloured (c :: t) (c :: u)
| un_colour sequence t u : ~ In "m"%char sequence -> uncoloured t u ->
    uncoloured ([ascii_of_nat 27] ++ quote "[" ++ sequence ++ quote "m" ++ t) u.

(** The standard colours (ECMA-48): bold, then the colour; and back to normal. *)
Definition colour_code (k : style) : text :=
  match k with Good => quote "32" | Bad => quote "31" | Warning => quote "33" | Status => quote "36" | Name => quote "35" | Value => quote "36" end.
Definition painted (enabled : bool) (k : style) (s : text) : text :=
  if enabled then [ascii_of_nat 27] ++ quote "[1;" ++ colour_code k ++ quote "m" ++ s ++ [ascii_of_nat 27] ++ quote "[0m" else s.

(** ** Reports *)
Section Report.
Context {ID : Type}.
Notation event := (event ID).
Variables name type full_name tags : ID -> text.
Variable file : event -> text.             (** source file of what the event is about *)
Variable duration : event -> option text.  (** how long it took, if known *)
Variable shown : nat -> text.              (** decimal notation *)
Variable version : text.                   (** of the library *)
Variable paint : style -> text -> text.    (** a text in colour, if colours are enabled *)

Definition feed : text := [ascii_of_nat 10].
Definition double_quote : text := [ascii_of_nat 34].
Definition indent : text := repeat " "%char 10.
Definition rule : text := repeat "="%char 42 ++ feed.

Definition where_text (l : location_type) : text :=
  match l with
  | Exact => quote "at"
  | SectionScope => quote "somewhere inside section at"
  | TestCaseScope => quote "somewhere inside test case at"
  | InCheck => quote "somewhere inside check at"
  end.

(** The test, the sections from the outermost to the innermost, the place, the type and the captured values. *)
Definition place_text (e : event) (id : ID) (sections : list section_id) (captures : list text) (l : location) : text :=
  quote "running test case " ++ double_quote ++ paint Name (name id) ++ double_quote ++ feed ++
  flat_map (fun s => indent ++ quote "in section " ++ double_quote ++ paint Name (sec_name s) ++ double_quote ++ feed) sections ++
  indent ++ where_text (loc_type l) ++ quote " " ++ file e ++ quote ":" ++ shown (loc_line l) ++ feed ++
  match type id with [] => [] | t => indent ++ quote "for type " ++ paint Name t ++ feed end ++
  flat_map (fun c => indent ++ quote "with " ++ paint Name c ++ feed) captures.

(** Both sides of an expression go on the same line when they are short. *)
Definition same_line (macro expected actual : text) : bool :=
  (List.length macro + List.length expected + 3 <=? 64) && (List.length actual + 5 <=? 64).

Definition what_text (what : payload) : text :=
  match what with
  | Message m => indent ++ paint Value m ++ feed
  | Expression macro expected [] => indent ++ paint Value (macro ++ quote "(" ++ expected ++ quote ")") ++ feed
  | Expression macro expected actual =>
    indent ++ paint Value (macro ++ quote "(" ++ expected ++ quote ")") ++
    (if same_line macro expected actual then quote ", " else feed ++ indent) ++ quote "got: " ++ paint Value actual ++ feed
  end.

(** The last line of a run. *)
Definition summary_text (e : event) (run failed skipped : nat) (c : counts) (success : bool) : text :=
  (if success
   then paint Good (quote "success:") ++ quote " all tests passed (" ++ shown run ++ quote " test cases, "
   else paint Bad (quote "error:") ++ (if failed =? run then quote " all" else quote " some") ++ quote " tests failed (" ++
        shown failed ++ quote " out of " ++ shown run ++ quote " test cases, ") ++
  shown (n_all c) ++ quote " assertions" ++
  (if skipped =? 0 then [] else quote ", " ++ shown skipped ++ quote " test cases skipped") ++
  match duration e with Some d => quote ", " ++ d ++ quote " seconds" | None => [] end ++
  quote ")" ++ feed.

Definition event_text (e : event) : text :=
  match e with
  | TestRunStarted run _ =>
    paint Value (quote "starting ") ++ paint Name run ++ paint Value (quote " with ") ++ paint Name (quote "snitch v" ++ version ++ feed) ++ rule
  | TestRunEnded _ _ run failed _ skipped c success => rule ++ summary_text e run failed skipped c success
  | TestCaseStarted id line =>
    paint Status (quote "starting:") ++ quote " " ++ paint Name (full_name id) ++ quote " at " ++ file e ++ quote ":" ++ shown line ++ feed
  | TestCaseEnded id _ _ _ =>
    paint Status (quote "finished:") ++ quote " " ++ paint Name (full_name id) ++
    match duration e with Some d => quote " (" ++ d ++ quote "s)" | None => [] end ++ feed
  | SectionStarted s =>
    paint Status (quote "entering section:") ++ quote " " ++ paint Name (sec_name s) ++ quote " at " ++ file e ++ quote ":" ++ shown (sec_line s) ++ feed
  | SectionEnded s _ _ => paint Status (quote "leaving section:") ++ quote " " ++ paint Name (sec_name s) ++ feed
  | TestCaseSkipped id sections captures l m =>
    paint Warning (quote "skipped: ") ++ place_text e id sections captures l ++ what_text (Message m)
  | AssertionFailed id sections captures l what expected allowed =>
    (if expected then paint Good (quote "expected failure: ")
     else if allowed then paint Good (quote "allowed failure: ") else paint Bad (quote "failed: ")) ++
    place_text e id sections captures l ++ what_text what
  | AssertionSucceeded id sections captures l what => paint Good (quote "passed: ") ++ place_text e id sections captures l ++ what_text what
  | TestCaseListed id _ =>
    quote "  " ++ full_name id ++ feed ++ match tags id with [] => [] | t => quote "      " ++ t ++ feed end
  | ListTestRunStarted => quote "Matching test cases:" ++ feed
  | ListTestRunEnded => [] (* see [listing_text] *)
  | User _ => []
  end.

(** A listing ends with the number of tests. *)
Definition listing_text (tests : list (ID * nat)) : text :=
  event_text ListTestRunStarted ++ flat_map (fun t => event_text (TestCaseListed (fst t) (snd t))) tests ++
  shown (List.length tests) ++ quote " matching test cases" ++ feed.

(** The texts that appear in the report of an event. *)
Definition texts_of (e : event) : list text :=
  let payload_texts what := match what with Message m => [m] | Expression macro expected actual => [macro; expected; actual] end in
  file e :: match duration e with Some d => [d] | None => [] end ++
  match e with
  | TestRunStarted run _ => [run; version]
  | TestCaseStarted id _ | TestCaseEnded id _ _ _ => [full_name id]
  | SectionStarted s | SectionEnded s _ _ => [sec_name s]
  | TestCaseSkipped id sections captures _ m => [name id; type id; m] ++ map sec_name sections ++ captures
  | AssertionFailed id sections captures _ what _ _ | AssertionSucceeded id sections captures _ what =>
    [name id; type id] ++ map sec_name sections ++ captures ++ payload_texts what
  | TestCaseListed id _ => [full_name id; tags id]
  | TestRunEnded _ _ _ _ _ _ _ _ | ListTestRunStarted | ListTestRunEnded | User _ => []
  end.
Definition colourless (s : text) : Prop := ~ In (ascii_of_nat 27) s.

(** ** Texts that can be printed in full *)
Variables max_message max_name : nat.

Definition short_paint (k : style) (s : text) : Prop := List.length (paint k s) <= max_message.
Definition short_number (n : nat) : Prop := List.length (shown n) <= max_message.
Definition short_duration (e : event) : Prop := match duration e with Some d => List.length d <= max_message | None => True end.

Definition displayable_payload (what : payload) : Prop :=
  match what with
  | Message m => short_paint Value m
  | Expression macro expected actual => short_paint Value (macro ++ quote "(" ++ expected ++ quote ")") /\ short_paint Value actual
  end.
Definition displayable_assertion (id : ID) (sections : list section_id) (captures : list text) (l : location) (what : payload) : Prop :=
  short_paint Name (name id) /\ Forall (fun s => short_paint Name (sec_name s)) sections /\ short_number (loc_line l) /\
  short_paint Name (type id) /\ Forall (short_paint Name) captures /\ displayable_payload what.

(** What is in colour, and numbers, fit in a message (the other texts need not); full names fit in a name. *)
Definition displayable (e : event) : Prop :=
  match e with
  | TestRunStarted run _ => short_paint Name run /\ short_paint Name (quote "snitch v" ++ version ++ feed)
  | TestRunEnded _ _ run failed _ skipped c _ =>
    short_number run /\ short_number failed /\ short_number skipped /\ short_number (n_all c) /\ short_duration e
  | TestCaseStarted id line => List.length (full_name id) <= max_name /\ short_paint Name (full_name id) /\ short_number line
  | TestCaseEnded id _ _ _ => List.length (full_name id) <= max_name /\ short_paint Name (full_name id) /\ short_duration e
  | SectionStarted s => short_paint Name (sec_name s) /\ short_number (sec_line s)
  | SectionEnded s _ _ => short_paint Name (sec_name s)
  | TestCaseSkipped id sections captures l m => displayable_assertion id sections captures l (Message m)
  | AssertionFailed id sections captures l what _ _ | AssertionSucceeded id sections captures l what =>
    displayable_assertion id sections captures l what
  | TestCaseListed id _ => List.length (full_name id) <= max_name
  | ListTestRunStarted | User _ => True
  | ListTestRunEnded => False
  end.
End Report.
