(** XML documents (C42), after www.w3.org/TR/xml, and what a report says about a run. No reference to the model. *)
From Coq Require Import Arith Ascii String Bool NArith List.
From Verif.Spec Require Import TextSpec FilterSpec EscapeSpec Events.
Import ListNotations.
Local Open Scope list_scope.

(** ** Documents *)

(** An element with its attributes (name and value) and its content, or character data. *)
Inductive node := Data (s : text) | Element (name : text) (attributes : list (text * text)) (content : list node).

(** The names used here: a letter, then letters, digits and hyphens. *)
Definition between (a b : ascii) (c : ascii) : bool := (nat_of_ascii a <=? nat_of_ascii c) && (nat_of_ascii c <=? nat_of_ascii b).
Definition letter (c : ascii) : bool := between "a" "z" c || between "A" "Z" c.
Definition name_char (c : ascii) : bool := letter c || between "0" "9" c || Ascii.eqb c "-".
Definition xml_name (n : text) : Prop := match n with [] => False | c :: n' => letter c = true /\ forallb name_char n' = true end.

Definition blank (c : ascii) : Prop := c = " "%char \/ c = ascii_of_nat 10.

(** Attributes: key="value", with a space in front, the value being encoded. *)
Inductive attributes_text : list (text * text) -> text -> Prop :=
| no_attribute : attributes_text [] []
| an_attribute key value v l t : xml_name key -> encoded xml_entities value v -> attributes_text l t ->
    attributes_text ((key, value) :: l) (quote " " ++ key ++ quote "=" ++ [ascii_of_nat 34] ++ v ++ [ascii_of_nat 34] ++ t).

(** [content_text l t]: the text [t] is the content [l], with blanks anywhere between elements and around data. *)
Inductive content_text : list node -> text -> Prop :=
| no_content : content_text [] []
| a_blank c l t : blank c -> content_text l t -> content_text l (c :: t)
| some_data s e l t : s <> [] -> encoded xml_entities s e -> content_text l t -> content_text (Data s :: l) (e ++ t)
| empty_element name attributes a l t : xml_name name -> attributes_text attributes a -> content_text l t ->
    content_text (Element name attributes [] :: l) (quote "<" ++ name ++ a ++ quote "/>" ++ t)
| an_element name attributes a content c l t : xml_name name -> attributes_text attributes a ->
    content_text content c -> content_text l t ->
    content_text (Element name attributes content :: l)
      (quote "<" ++ name ++ a ++ quote ">" ++ c ++ quote "</" ++ name ++ quote ">" ++ t).

(** A document: the declaration, then one element. *)
Definition declaration : text :=
  quote "<?xml version=" ++ [ascii_of_nat 34] ++ quote "1.0" ++ [ascii_of_nat 34] ++ quote " encoding=" ++
  [ascii_of_nat 34] ++ quote "UTF-8" ++ [ascii_of_nat 34] ++ quote "?>".
Definition document (root : node) (t : text) : Prop := exists u, t = declaration ++ u /\ content_text [root] u.

(** ** Reports *)
Section Report.
Context {ID : Type}.
Notation event := (event ID).
Variables full_name tags fixture : ID -> text.
Variable file : event -> text.             (** source file of what the event is about *)
Variable duration : event -> option text.  (** how long it took, if known *)
Variable shown : nat -> text.              (** decimal notation *)
Variable version : text.                   (** of the library *)

Definition data (s : text) : list node := match s with [] => [] | _ => [Data s] end.
Definition leaf (name : text) (s : text) : node := Element name [] (data s).

(** The filters of the run, each in double quotes, separated by spaces. *)
Fixpoint filters_text (l : list text) : text :=
  match l with
  | [] => []
  | [f] => [ascii_of_nat 34] ++ f ++ [ascii_of_nat 34]
  | f :: l' => [ascii_of_nat 34] ++ f ++ [ascii_of_nat 34] ++ quote " " ++ filters_text l'
  end.

Definition timed (e : event) : list (text * text) :=
  match duration e with Some d => [(quote "durationInSeconds", d)] | None => [] end.

Definition infos (captures : list text) : list node := map (leaf (quote "Info")) captures.
Definition yes_no (b : bool) : text := if b then quote "true" else quote "false".

(** One assertion: the captured values, then the message or the expression. *)
Definition assertion_nodes (e : event) (captures : list text) (l : location) (what : payload) (success : bool) : list node :=
  infos captures ++
  match what with
  | Message m => [Element (if success then quote "Success" else quote "Failure")
                    [(quote "filename", file e); (quote "line", shown (loc_line l))] (data m)]
  | Expression macro expected actual =>
    [Element (quote "Expression")
       [(quote "success", yes_no success); (quote "type", macro); (quote "filename", file e); (quote "line", shown (loc_line l))]
       [leaf (quote "Original") expected; leaf (quote "Expanded") (match actual with [] => expected | _ => actual end)]]
  end.

Definition plain_nodes (e : event) : list node :=
  match e with
  | AssertionFailed _ _ captures l what _ _ => assertion_nodes e captures l what false
  | AssertionSucceeded _ _ captures l what => assertion_nodes e captures l what true
  | TestCaseSkipped _ _ _ l message =>
    [Element (quote "Skip") [(quote "filename", file e); (quote "line", shown (loc_line l))] (data message)]
  | _ => []
  end.
Definition plain_event (e : event) : Prop :=
  match e with
  | AssertionFailed _ _ _ _ _ _ _ | AssertionSucceeded _ _ _ _ _ | TestCaseSkipped _ _ _ _ _ | User _ => True
  | _ => False
  end.

(** [told events content]: what is said of the events of a test case, sections within sections. The number of
    successes of a section is what is left of all assertions without the failed ones. *)
Inductive told : list event -> list node -> Prop :=
| told_nil : told [] []
| told_plain e l n : plain_event e -> told l n -> told (e :: l) (plain_nodes e ++ n)
| told_section s a na skipped c successes b nb :
    told a na -> told b nb -> successes + n_failed c + n_allowed c = n_all c ->
    told (SectionStarted s :: a ++ SectionEnded s skipped c :: b)
      (Element (quote "Section")
         [(quote "name", sec_name s); (quote "filename", file (SectionStarted s)); (quote "line", shown (sec_line s))]
         (na ++ [Element (quote "OverallResults")
                   ([(quote "successes", shown successes); (quote "failures", shown (n_failed c));
                     (quote "expectedFailures", shown (n_allowed c)); (quote "skipped", yes_no skipped)] ++
                    timed (SectionEnded s skipped c)) []]) :: nb).

Inductive told_cases : list event -> list node -> Prop :=
| told_no_case : told_cases [] []
| told_case id line a na c s b nb : told a na -> told_cases b nb ->
    told_cases (TestCaseStarted id line :: a ++ TestCaseEnded id line c s :: b)
      (Element (quote "TestCase")
         [(quote "name", full_name id); (quote "tags", tags id); (quote "filename", file (TestCaseStarted id line)); (quote "line", shown line)]
         (na ++ [Element (quote "OverallResult")
                   ([(quote "success", yes_no (match s with Failed => false | _ => true end));
                     (quote "skips", shown (match s with Skipped => 1 | _ => 0 end))] ++
                    timed (TestCaseEnded id line c s)) []]) :: nb).

(** A run. *)
Inductive told_run : list event -> node -> Prop :=
| told_run_intro name filters cases n name' filters' run failed allowed skipped c success ok ok_cases :
    told_cases cases n -> ok + n_failed c + n_allowed c = n_all c -> ok_cases + failed + allowed = run ->
    told_run (TestRunStarted name filters :: cases ++ [TestRunEnded name' filters' run failed allowed skipped c success])
      (Element (quote "Catch2TestRun")
         [(quote "name", name); (quote "rng-seed", quote "0"); (quote "xml-format-version", quote "3");
          (quote "catch2-version", version ++ quote ".snitch"); (quote "filters", filters_text filters)]
         (n ++
          [Element (quote "OverallResults")
             [(quote "successes", shown ok); (quote "failures", shown (n_failed c));
              (quote "expectedFailures", shown (n_allowed c)); (quote "skips", shown skipped)] [];
           Element (quote "OverallResultsCases")
             [(quote "successes", shown ok_cases); (quote "failures", shown failed);
              (quote "expectedFailures", shown allowed); (quote "skips", shown skipped)] []])).

(** A listing of tests. *)
Definition listed_node (e : event) : node :=
  match e with
  | TestCaseListed id line =>
    Element (quote "TestCase") []
      [leaf (quote "Name") (full_name id); leaf (quote "ClassName") (fixture id); leaf (quote "Tags") (tags id);
       Element (quote "SourceInfo") [] [leaf (quote "File") (file e); leaf (quote "Line") (shown line)]]
  | _ => Data []
  end.
Definition told_listing (tests : list (ID * nat)) : list event * node :=
  let l := map (fun x => TestCaseListed (fst x) (snd x)) tests in
  (ListTestRunStarted :: l ++ [ListTestRunEnded], Element (quote "MatchingTests") [] (map listed_node l)).

(** ** Texts that can be reported in full *)
Variables max_message max_name : nat.

Definition fits (n : nat) (s : text) : Prop := exists t, encoded xml_entities s t /\ List.length t <= n.
Definition harmless (s : text) : Prop := forall c, In c s -> ~ special xml_entities c.
Definition in_range (n : nat) : Prop := (N.of_nat n < 2 ^ 64)%N.
Definition short (s : text) : Prop := harmless s /\ List.length s <= 32.

Definition readable_payload (what : payload) : Prop :=
  match what with
  | Message m => fits max_message m
  | Expression macro expected actual => harmless macro /\ fits max_message expected /\ fits max_message actual
  end.
Definition readable_duration (e : event) : Prop := match duration e with Some d => short d | None => True end.
Definition readable_counts (c : counts) : Prop := in_range (n_all c) /\ in_range (n_failed c) /\ in_range (n_allowed c).

(** The texts that are escaped fit once escaped. The texts that are not escaped, namely the message of a skip and the
    name of a macro, have no special character. Numbers are less than 2^64. *)
Definition readable (e : event) : Prop :=
  match e with
  | TestRunStarted name filters => fits max_message name /\ fits max_message (filters_text filters)
  | TestRunEnded _ _ run failed allowed skipped c _ =>
    in_range run /\ in_range failed /\ in_range allowed /\ in_range skipped /\ readable_counts c
  | TestCaseStarted id line => fits max_name (full_name id) /\ fits max_message (tags id) /\ fits max_message (file e) /\ in_range line
  | TestCaseEnded _ _ _ _ => readable_duration e
  | SectionStarted s => fits max_message (sec_name s) /\ fits max_message (file e) /\ in_range (sec_line s)
  | SectionEnded _ _ c => readable_duration e /\ readable_counts c
  | AssertionFailed _ _ captures l what _ _ | AssertionSucceeded _ _ captures l what =>
    Forall (fits max_message) captures /\ fits max_message (file e) /\ in_range (loc_line l) /\ readable_payload what
  | TestCaseSkipped _ _ _ l message => fits max_message (file e) /\ in_range (loc_line l) /\ harmless message
  | TestCaseListed id line =>
    fits max_name (full_name id) /\ fits max_message (tags id) /\ fits max_message (fixture id) /\ fits max_message (file e) /\ in_range line
  | ListTestRunStarted | ListTestRunEnded | User _ => True
  end.
End Report.
