(** What the XML reporter prints, whatever the lengths of the texts and whatever is left open (C108). No reference to the
    model. *)
From Coq Require Import Arith Ascii String Bool List.
From Verif.Spec Require Import TextSpec FilterSpec EscapeSpec Events XmlSpec.
Import ListNotations.
Local Open Scope list_scope.

(** ** Lines *)
Inductive xml_line :=
| Start (name : text) (attributes : list (text * text))
| Stop (name : text)
| Empty (name : text) (attributes : list (text * text))
| Whole (name content : text)
| Contents (s : text).

Definition attribute_texts (l : list (text * text)) : text :=
  flat_map (fun x => quote " " ++ fst x ++ quote "=" ++ [ascii_of_nat 34] ++ snd x ++ [ascii_of_nat 34]) l.

Definition line_text (l : xml_line) : text :=
  match l with
  | Start name attributes => quote "<" ++ name ++ attribute_texts attributes ++ quote ">"
  | Stop name => quote "</" ++ name ++ quote ">"
  | Empty name attributes => quote "<" ++ name ++ attribute_texts attributes ++ quote "/>"
  | Whole name content => quote "<" ++ name ++ quote ">" ++ content ++ quote "</" ++ name ++ quote ">"
  | Contents s => s
  end.

(** Each line is indented by two spaces for each element that is open, and by sixteen at most. What is given is the number
    of elements that are open before and after. *)
Definition indented (level : nat) (s : text) : text := repeat " "%char (Nat.min 16 (2 * level)) ++ s ++ [ascii_of_nat 10].
Fixpoint drawn (level : nat) (lines : list xml_line) : nat * text :=
  match lines with
  | [] => (level, [])
  | l :: lines' =>
    let before := match l with Stop _ => level - 1 | _ => level end in
    let after := match l with Start _ _ => S level | Stop _ => level - 1 | _ => level end in
    (fst (drawn after lines'), indented before (line_text l) ++ snd (drawn after lines'))
  end.

(** ** Reports *)
Section Report.
Context {ID : Type}.
Notation event := (event ID).
Variable field : text -> text.               (** what is printed of a text *)
Variable name_of : ID -> text.               (** what is printed of the full name of a test *)
Variable filters_of : list text -> text.     (** what is printed of the filters *)
Variables tags fixture : ID -> text.
Variable file : event -> text.
Variable duration : event -> option text.
Variable shown : nat -> text.
Variable version : text.

Definition number_of (n : nat) : text := fit 32 (shown n).
Definition time_of (e : event) : list (text * text) :=
  match duration e with Some d => [(quote "durationInSeconds", fit 32 d)] | None => [] end.
Definition whole (name content : text) : xml_line := match content with [] => Empty name [] | _ => Whole name content end.

Definition check_lines (e : event) (captures : list text) (l : location) (what : payload) (success : bool) : list xml_line :=
  flat_map (fun c => [Start (quote "Info") []; Contents (field c); Stop (quote "Info")]) captures ++
  match what with
  | Message m =>
    let name := if success then quote "Success" else quote "Failure" in
    [Start name [(quote "filename", field (file e)); (quote "line", number_of (loc_line l))]; Contents (field m); Stop name]
  | Expression macro expected actual =>
    [Start (quote "Expression")
       [(quote "success", yes_no success); (quote "type", macro); (quote "filename", field (file e)); (quote "line", number_of (loc_line l))];
     Start (quote "Original") []; Contents (field expected); Stop (quote "Original");
     Start (quote "Expanded") []; Contents (field (match actual with [] => expected | _ => actual end)); Stop (quote "Expanded");
     Stop (quote "Expression")]
  end.

(** The message of a skipped test, the name of a macro and the version are not encoded. *)
Definition xml_lines (e : event) : list xml_line :=
  match e with
  | TestRunStarted name filters =>
    [Contents (declaration ++ [ascii_of_nat 10]);
     Start (quote "Catch2TestRun")
       [(quote "name", field name); (quote "rng-seed", quote "0"); (quote "xml-format-version", quote "3");
        (quote "catch2-version", version ++ quote ".snitch"); (quote "filters", filters_of filters)]]
  | TestRunEnded _ _ run failed allowed_failed skipped c _ =>
    [Empty (quote "OverallResults")
       [(quote "successes", number_of (n_all c - n_failed c - n_allowed c)); (quote "failures", number_of (n_failed c));
        (quote "expectedFailures", number_of (n_allowed c)); (quote "skips", number_of skipped)];
     Empty (quote "OverallResultsCases")
       [(quote "successes", number_of (run - failed - allowed_failed)); (quote "failures", number_of failed);
        (quote "expectedFailures", number_of allowed_failed); (quote "skips", number_of skipped)];
     Stop (quote "Catch2TestRun")]
  | TestCaseStarted id line =>
    [Start (quote "TestCase")
       [(quote "name", name_of id); (quote "tags", field (tags id)); (quote "filename", field (file e)); (quote "line", number_of line)]]
  | TestCaseEnded _ _ _ s =>
    [Empty (quote "OverallResult")
       ([(quote "success", yes_no (match s with Failed => false | _ => true end));
         (quote "skips", match s with Skipped => quote "1" | _ => quote "0" end)] ++ time_of e);
     Stop (quote "TestCase")]
  | SectionStarted s =>
    [Start (quote "Section") [(quote "name", field (sec_name s)); (quote "filename", field (file e)); (quote "line", number_of (sec_line s))]]
  | SectionEnded _ skipped c =>
    [Empty (quote "OverallResults")
       ([(quote "successes", number_of (n_all c - n_failed c - n_allowed c)); (quote "failures", number_of (n_failed c));
         (quote "expectedFailures", number_of (n_allowed c)); (quote "skipped", yes_no skipped)] ++ time_of e);
     Stop (quote "Section")]
  | TestCaseSkipped _ _ _ l m =>
    [Start (quote "Skip") [(quote "filename", field (file e)); (quote "line", number_of (loc_line l))]; Contents m; Stop (quote "Skip")]
  | AssertionFailed _ _ captures l what _ _ => check_lines e captures l what false
  | AssertionSucceeded _ _ captures l what => check_lines e captures l what true
  | ListTestRunStarted => [Contents declaration; Start (quote "MatchingTests") []]
  | ListTestRunEnded => [Stop (quote "MatchingTests")]
  | TestCaseListed id line =>
    [Start (quote "TestCase") []; whole (quote "Name") (name_of id); whole (quote "ClassName") (field (fixture id)); whole (quote "Tags") (field (tags id));
     Start (quote "SourceInfo") []; whole (quote "File") (field (file e)); whole (quote "Line") (number_of line); Stop (quote "SourceInfo");
     Stop (quote "TestCase")]
  | User _ => []
  end.
End Report.
