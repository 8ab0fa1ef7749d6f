(** TeamCity service messages (C59) and what they say about a run. No reference to the model. *)
From Coq Require Import Arith Ascii String Bool NArith List.
From Verif.Spec Require Import TextSpec FilterSpec EscapeSpec XmlSpec Events.
Import ListNotations.
Local Open Scope list_scope.

(** ** Messages *)

(** A message has a name and a list of attributes with their values. *)
Definition message : Type := text * list (text * text).

Definition word (s : text) : Prop := s <> [] /\ forallb letter s = true.

(** Attributes: a space, the key, the equal sign, and the encoded value between apostrophes. *)
Inductive values_text : list (text * text) -> text -> Prop :=
| no_value : values_text [] []
| a_value key value v l t : word key -> encoded teamcity_code value v -> values_text l t ->
    values_text ((key, value) :: l) (quote " " ++ key ++ quote "=" ++ [ascii_of_nat 39] ++ v ++ [ascii_of_nat 39] ++ t).

(** The line of a message. (TeamCity documents the marker in lower case; this is what the library prints.) *)
Definition message_line (m : message) (t : text) : Prop :=
  word (fst m) /\ exists u, values_text (snd m) u /\ t = quote "##teamCity[" ++ fst m ++ u ++ quote "]" ++ [ascii_of_nat 10].

Inductive message_lines : list message -> text -> Prop :=
| no_line : message_lines [] []
| a_line m t l u : message_line m t -> message_lines l u -> message_lines (m :: l) (t ++ u).

(** ** Reports *)
Section Report.
Context {ID : Type}.
Notation event := (event ID).
Variable full_name : ID -> text.
Variable file : event -> text.             (** source file of what the event is about *)
Variable duration : event -> option text.  (** how long it took, in milliseconds, if known *)
Variable shown : nat -> text.              (** decimal notation *)

Definition feed : text := [ascii_of_nat 10].

(** The name of the program, then each filter in double quotes. *)
Definition suite_name (name : text) (filters : list text) : text :=
  name ++ flat_map (fun f : text => quote " " ++ [ascii_of_nat 34] ++ f ++ [ascii_of_nat 34]) filters.

(** Both sides of an expression go on the same line when they are short. *)
Definition same_line (macro expected actual : text) : bool :=
  (List.length macro + List.length expected + 3 <=? 64) && (List.length actual + 5 <=? 64).

Definition what_text (what : payload) : text :=
  match what with
  | Message m => m
  | Expression macro expected [] => macro ++ quote "(" ++ expected ++ quote ")"
  | Expression macro expected actual =>
    macro ++ quote "(" ++ expected ++ quote ")" ++
    (if same_line macro expected actual then quote ", got: " else feed ++ quote "  got: ") ++ actual
  end.

(** The place, the captured values, one per line, and the message or the expression. *)
Definition details (e : event) (captures : list text) (l : location) (what : payload) : text :=
  file e ++ quote ":" ++ shown (loc_line l) ++ feed ++
  flat_map (fun c : text => quote "with " ++ c ++ feed) captures ++
  quote "  " ++ what_text what.

Definition named (name : text) : text * text := (quote "name", name).

Definition messages_of (e : event) : list message :=
  match e with
  | TestRunStarted name filters => [(quote "testSuiteStarted", [named (suite_name name filters)])]
  | TestRunEnded name filters _ _ _ _ _ _ => [(quote "testSuiteFinished", [named (suite_name name filters)])]
  | TestCaseStarted id _ => [(quote "testStarted", [named (full_name id)])]
  | TestCaseEnded id _ _ _ =>
    [(quote "testFinished", named (full_name id) :: match duration e with Some d => [(quote "duration", d)] | None => [] end)]
  | SectionStarted s => [(quote "blockOpened", [named (sec_name s); (quote "description", sec_description s)])]
  | SectionEnded s _ _ => [(quote "blockClosed", [named (sec_name s)])]
  | TestCaseSkipped id _ captures l m =>
    [(quote "testIgnored", [named (full_name id); (quote "message", details e captures l (Message m))])]
  | AssertionFailed id _ captures l what expected allowed =>
    if expected || allowed
    then [(quote "testStdOut", [named (full_name id); (quote "out", details e captures l what)])]
    else [(quote "testFailed", [named (full_name id); (quote "message", details e captures l what)])]
  | AssertionSucceeded id _ captures l what =>
    [(quote "testStdOut", [named (full_name id); (quote "out", details e captures l what)])]
  | TestCaseListed _ _ | ListTestRunStarted | ListTestRunEnded | User _ => []
  end.

(** ** Texts that can be reported in full *)
Variables max_message max_name : nat.

Definition room (n : nat) (s : text) : Prop := exists t, encoded teamcity_code s t /\ List.length t <= n.
Definition clean (s : text) : Prop := forall c, In c s -> ~ special teamcity_code c.

Definition telling_payload (what : payload) : Prop :=
  match what with
  | Message m => room max_message m
  | Expression macro expected actual => clean macro /\ room max_message expected /\ room max_message actual
  end.
Definition telling_details (e : event) (id : ID) (captures : list text) (l : location) (what : payload) : Prop :=
  room max_name (full_name id) /\ room max_message (file e) /\ in_range (loc_line l) /\ List.length (shown (loc_line l)) <= max_message /\
  Forall (room max_message) captures /\ telling_payload what.

(** The texts that are escaped fit once escaped. The texts that are not escaped, namely the name and description of a
    section and the name of a macro, have no special character. Numbers are less than 2^64. Nothing is listed. *)
Definition telling (e : event) : Prop :=
  match e with
  | TestRunStarted name filters | TestRunEnded name filters _ _ _ _ _ _ => room max_message (suite_name name filters)
  | TestCaseStarted id _ => room max_name (full_name id)
  | TestCaseEnded id _ _ _ => room max_name (full_name id) /\ match duration e with Some d => clean d /\ List.length d <= 32 | None => True end
  | SectionStarted s => clean (sec_name s) /\ clean (sec_description s)
  | SectionEnded s _ _ => clean (sec_name s)
  | TestCaseSkipped id _ captures l m => telling_details e id captures l (Message m)
  | AssertionFailed id _ captures l what _ _ | AssertionSucceeded id _ captures l what => telling_details e id captures l what
  | TestCaseListed _ _ => False
  | ListTestRunStarted | ListTestRunEnded | User _ => True
  end.
End Report.
