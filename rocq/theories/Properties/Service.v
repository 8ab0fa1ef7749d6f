(** Property C59: what the TeamCity reporter prints about a run. *)
From Coq Require Import NArith.
From Verif.Spec Require Import TextSpec FilterSpec EscapeSpec NumberSpec Events XmlSpec ServiceSpec.
From Verif.Model Require Import Base Vector StringUtil Filter Run Session Reporters.
From Verif.Proofs Require Import EscapeProofs XmlProofs ReportExamples ServiceProofs.
Local Open Scope list_scope.
Local Open Scope nat_scope.

(** C59. For every list of events, of a run or not, the TeamCity reporter prints one service message for each event
    (Spec/ServiceSpec.v), on a line of its own, in the order of the events, whose values, once decoded, are the names,
    places, captured values, messages and expressions of the events. The texts that are escaped fit; the texts that are
    not (the name and description of sections, the name of macros) have no special character ([telling]). *)
Theorem C59_messages_partial :
  exists shown : nat -> text, (forall n, (N.of_nat n < 2 ^ 64)%N -> writes 10 (shown n) (N.of_nat n)) /\
  forall (mm mn : nat) (file : event -> text) (duration : event -> option text) (l : list event),
  let full_name := fun id => full_name_of (id_name id) (id_type id) in
  Forall (telling full_name file duration shown mm mn) l ->
  exists out, tc_reports mm mn file duration l = Ok out /\ message_lines (flat_map (messages_of full_name file duration shown) l) (concat out).
Proof. exact service_messages. Qed.
Print Assumptions C59_messages_partial.

(** C59. Lines of service messages can be read in one way only: a listener that decodes what is printed gets the
    messages of the events and no others. *)
Theorem C59_unambiguous :
  forall (l : list message) (t : text), message_lines l t -> forall l', message_lines l' t -> l = l'.
Proof. exact lines_unique. Qed.
Print Assumptions C59_unambiguous.

(** C59. Tests are listed one per line (here, names that need no escape). *)
Theorem C59_listing :
  forall (mm mn : nat) (file : event -> text) (duration : event -> option text) (id : test_id) (line : nat),
  clean (full_name_of (id_name id) (id_type id)) -> length (full_name_of (id_name id) (id_type id)) <= mn ->
  exists out, tc_report mm mn file duration (TestCaseListed id line) = Ok out /\
  concat out = full_name_of (id_name id) (id_type id) ++ [ascii_of_nat 10].
Proof. exact listed_name. Qed.
Print Assumptions C59_listing.

(** C59. Whatever the events and however small the limits, printing them does not fail. *)
Theorem C59_total :
  forall (mm mn : nat) (file : event -> text) (duration : event -> option text) (l : list event),
  exists out, tc_reports mm mn file duration l = Ok out.
Proof. exact service_total. Qed.
Print Assumptions C59_total.

(** All the events of a run of a test with sections, two passes and a failed check can be told. *)
Example C59_example :
  match run_selected_tests small 5 Full [nested_test] (quote "p") [quote "a*"] (fun _ => Ok true) with
  | Ok (events, _) =>
    Forall (telling (fun id => full_name_of (id_name id) (id_type id)) (fun _ => quote "f") (fun _ => Some (quote "12")) decimal 100 20) events /\
    length events = 13 /\
    match tc_reports 100 20 (fun _ => quote "f") (fun _ => Some (quote "12")) events with
    | Ok out => exists a b, concat out = a ++ failed_line ++ b
    | Err _ => False
    end
  | Err _ => False
  end.
Proof. exact nested_telling. Qed.

(** The hypothesis on the name of sections is needed: with this section, no message is printed that can be read. *)
Theorem C59_refuted :
  forall (mm mn : nat) (file : event -> text) (duration : event -> option text) (out : list text) (m : message),
  tc_report mm mn file duration (SectionStarted (mksec (quote "it" ++ [ascii_of_nat 39] ++ quote "s") [] 1)) = Ok out ->
  ~ message_line m (concat out).
Proof. exact its_line. Qed.
Print Assumptions C59_refuted.
