(** What is printed of texts that are too long (C106). No reference to the model. *)
From Coq Require Import Arith Ascii String Bool List.
From Verif.Spec Require Import TextSpec FilterSpec EscapeSpec XmlSpec Events PrintSpec ConsoleSpec.
Import ListNotations.
Local Open Scope list_scope.

(** Three dots, or as many as there is room for. *)
Definition mark (n : nat) : text := firstn n (quote "...").

(** What is printed of an argument when messages have at most [n] characters. Texts are never cut. Of a number that is too
    long, the first [n] characters are printed, then dots. Of a text in colour, as much of the text as leaves room for both
    sequences, or the whole text and as much as there is room for of the sequence that ends it, then dots; nothing but dots
    if there is no room for the sequences alone. *)
Definition squeezed (n : nat) (p : piece) : text :=
  match p with
  | Text s => s
  | Number s => if List.length s <=? n then s else firstn n s ++ mark n
  | Colored value start stop =>
    let a := List.length start in
    let b := List.length stop in
    let v := List.length value in
    if n <=? a + b then mark n
    else if a + v + b <=? n then start ++ value ++ stop
    else if a + v <=? n then start ++ value ++ firstn (n - a - v) stop ++ mark n
    else start ++ firstn (n - a - b) value ++ stop ++ mark n
  end.

(** The same for a text of the console reporter, and for a number. *)
Definition cut_paint (n : nat) (colours : bool) (k : style) (s : text) : text :=
  squeezed n (if colours then Colored s ([ascii_of_nat 27] ++ quote "[1;" ++ colour_code k ++ quote "m") ([ascii_of_nat 27] ++ quote "[0m")
              else Colored s [] []).
Definition cut_number (n : nat) (s : text) : text := squeezed n (Number s).

(** What the console reporter prints of an event. This is [event_text] (Spec/ConsoleSpec.v), where texts in colour and
    numbers are cut one by one as above, full names are cut after [mn] characters, and the left-hand side of what is shown of
    a check is truncated to [mm] characters. *)
Section Cut.
Context {ID : Type}.
Notation event := (event ID).
Variables mm mn : nat.
Variable colours : bool.
Variables name type full_name tags : ID -> text.
Variable file : event -> text.
Variable duration : event -> option text.
Variable shown : nat -> text.
Variable version : text.

Let paint := cut_paint mm colours.
Let number := fun k => cut_number mm (shown k).
Let text_of := event_text name type (fun id => firstn mn (full_name id)) tags file (fun e => option_map (cut_number mm) (duration e)) number version paint.

Definition cut_what (what : payload) : text :=
  match what with
  | Message m => indent ++ paint Value m ++ feed
  | Expression macro expected actual =>
    indent ++ paint Value (fit mm (macro ++ quote "(" ++ expected ++ quote ")")) ++
    match actual with
    | [] => feed
    | _ => (if same_line macro expected actual then quote ", " else feed ++ indent) ++ quote "got: " ++ paint Value actual ++ feed
    end
  end.

Definition cut_text (e : event) : text :=
  match e with
  | AssertionFailed id sections captures l what expected allowed =>
    (if expected then paint Good (quote "expected failure: ")
     else if allowed then paint Good (quote "allowed failure: ") else paint Bad (quote "failed: ")) ++
    place_text name type file number paint e id sections captures l ++ cut_what what
  | AssertionSucceeded id sections captures l what =>
    paint Good (quote "passed: ") ++ place_text name type file number paint e id sections captures l ++ cut_what what
  | _ => text_of e
  end.

(** A listing ends with the number of tests. *)
Definition cut_listing (tests : list (ID * nat)) : text :=
  cut_text ListTestRunStarted ++ flat_map (fun t => cut_text (TestCaseListed (fst t) (snd t))) tests ++
  number (List.length tests) ++ quote " matching test cases" ++ feed.
End Cut.
