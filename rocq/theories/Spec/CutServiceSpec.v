(** What the TeamCity reporter prints, whatever the lengths of the texts (C107). No reference to the model. *)
From Coq Require Import Arith Ascii String Bool List.
From Verif.Spec Require Import TextSpec FilterSpec EscapeSpec XmlSpec Events PrintSpec ServiceSpec CutSpec.
Import ListNotations.
Local Open Scope list_scope.

(** [out] is what is printed of the text [w], written with the code [l] in a buffer of [n] characters: the encoded text if
    it fits, otherwise what is left of it ([overflowed], Spec/EscapeSpec.v). *)
Definition cut_field (l : code) (n : nat) (w out : text) : Prop :=
  exists t, encoded l w t /\ List.length out <= n /\ (List.length t <= n -> out = t) /\ (n < List.length t -> overflowed l n w out).

Section Report.
Context {ID : Type}.
Notation event := (event ID).
Variable mm : nat.                                (** maximum length of a message *)
Variable field : text -> text.                    (** what is printed of a text *)
Variable name_of : ID -> text.                    (** what is printed of the full name of a test *)
Variable suite_of : text -> list text -> text.    (** what is printed of the name of the program and the filters *)
Variable file : event -> text.
Variable duration : event -> option text.
Variable shown : nat -> text.

(** The line of a message, given what is printed of its values. *)
Definition service_line (name : text) (values : list (text * text)) : text :=
  quote "##teamCity[" ++ name ++
  flat_map (fun v => quote " " ++ fst v ++ quote "=" ++ [ascii_of_nat 39] ++ snd v ++ [ascii_of_nat 39]) values ++ quote "]" ++ [ascii_of_nat 10].

(** A line feed inside of a value. *)
Definition encoded_feed : text := quote "|n".

Definition service_what (what : payload) : text :=
  match what with
  | Message m => field m
  | Expression macro expected actual =>
    macro ++ quote "(" ++ field expected ++ quote ")" ++
    match actual with
    | [] => []
    | _ => (if same_line macro expected actual then quote ", got: " else encoded_feed ++ quote "  got: ") ++ field actual
    end
  end.

Definition service_details (e : event) (captures : list text) (l : location) (what : payload) : text :=
  field (file e) ++ quote ":" ++ cut_number mm (shown (loc_line l)) ++ encoded_feed ++
  flat_map (fun c : text => quote "with " ++ field c ++ encoded_feed) captures ++
  quote "  " ++ service_what what.

(** The names and descriptions of sections, and the durations, are not encoded. *)
Definition service_text (e : event) : text :=
  match e with
  | TestRunStarted name filters => service_line (quote "testSuiteStarted") [(quote "name", suite_of name filters)]
  | TestRunEnded name filters _ _ _ _ _ _ => service_line (quote "testSuiteFinished") [(quote "name", suite_of name filters)]
  | TestCaseStarted id _ => service_line (quote "testStarted") [(quote "name", name_of id)]
  | TestCaseEnded id _ _ _ =>
    service_line (quote "testFinished") ((quote "name", name_of id) :: match duration e with Some d => [(quote "duration", fit 32 d)] | None => [] end)
  | SectionStarted s => service_line (quote "blockOpened") [(quote "name", sec_name s); (quote "description", sec_description s)]
  | SectionEnded s _ _ => service_line (quote "blockClosed") [(quote "name", sec_name s)]
  | TestCaseSkipped id _ captures l m =>
    service_line (quote "testIgnored") [(quote "name", name_of id); (quote "message", service_details e captures l (Message m))]
  | AssertionFailed id _ captures l what expected allowed =>
    if expected || allowed
    then service_line (quote "testStdOut") [(quote "name", name_of id); (quote "out", service_details e captures l what)]
    else service_line (quote "testFailed") [(quote "name", name_of id); (quote "message", service_details e captures l what)]
  | AssertionSucceeded id _ captures l what =>
    service_line (quote "testStdOut") [(quote "name", name_of id); (quote "out", service_details e captures l what)]
  | TestCaseListed id _ => name_of id ++ [ascii_of_nat 10]
  | ListTestRunStarted | ListTestRunEnded | User _ => []
  end.
End Report.
