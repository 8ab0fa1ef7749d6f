(** Property C60: what the console reporter prints about a run. *)
From Coq Require Import NArith.
From Verif.Spec Require Import TextSpec FilterSpec NumberSpec Events XmlSpec ConsoleSpec.
From Verif.Model Require Import Base Vector StringUtil Filter Run Session Reporters.
From Verif.Proofs Require Import XmlProofs ReportExamples ConsoleProofs.
Local Open Scope list_scope.
Local Open Scope nat_scope.

(** C60. For every list of events, of a run or not, and with colours or not, the console reporter prints the text of
    each event (Spec/ConsoleSpec.v), in the order of the events: the verdict, the test, all its sections, the place, the
    type, all the captured values and the message or expression; and at the end the verdict and the counters of the run.
    A listing has every test and ends with their number. Only texts in colour, numbers, and full names need fit. *)
Theorem C60_text :
  exists shown : nat -> text, (forall n, (N.of_nat n < 2 ^ 64)%N -> writes 10 (shown n) (N.of_nat n)) /\
  forall (mm mn : nat) (version : text) (with_color : bool) (file : event -> text) (duration : event -> option text) (counter : nat),
  let full_name := fun id => full_name_of (id_name id) (id_type id) in
  32 <= mm ->
  (forall l : list event, Forall (displayable id_name id_type full_name duration shown version (painted with_color) mm mn) l ->
   exists counter' out, console_reports mm mn version with_color file duration counter l = Ok (counter', out) /\
   concat out = flat_map (event_text id_name id_type full_name id_tags file duration shown version (painted with_color)) l) /\
  (forall tests : list (test_id * nat), Forall (fun t => length (full_name (fst t)) <= mn) tests -> length (shown (length tests)) <= mm ->
   exists counter' out, console_reports mm mn version with_color file duration counter
       (ListTestRunStarted :: map (fun t => TestCaseListed (fst t) (snd t)) tests ++ [ListTestRunEnded]) = Ok (counter', out) /\
   concat out = listing_text id_name id_type full_name id_tags file duration shown version (painted with_color) tests).
Proof. exact console_looks. Qed.
Print Assumptions C60_text.

(** C60. Colours change nothing else: without the sequences that change the colour, what is printed with colours is what
    is printed without, which has no such sequence. The texts themselves have none. *)
Theorem C60_colours :
  forall (mm mn : nat) (version : text) (file : event -> text) (duration : event -> option text) (c1 c2 n1 n2 : nat)
    (l : list event) (coloured plain : list text),
  let full_name := fun id => full_name_of (id_name id) (id_type id) in
  32 <= mm -> Forall (displayable id_name id_type full_name duration decimal version (painted true) mm mn) l ->
  Forall (fun e => Forall colourless (texts_of id_name id_type full_name id_tags file duration version e)) l ->
  console_reports mm mn version true file duration c1 l = Ok (n1, coloured) ->
  console_reports mm mn version false file duration c2 l = Ok (n2, plain) ->
  uncoloured (concat coloured) (concat plain) /\ colourless (concat plain).
Proof. exact console_colours. Qed.
Print Assumptions C60_colours.

(** C60. Whatever the events and however small the limits, printing them does not fail. *)
Theorem C60_total :
  forall (mm mn : nat) (version : text) (with_color : bool) (file : event -> text) (duration : event -> option text) (l : list event) (counter : nat),
  exists counter' out, console_reports mm mn version with_color file duration counter l = Ok (counter', out).
Proof. exact console_fine. Qed.
Print Assumptions C60_total.

(** All the events of a run of a test with sections, two passes and a failed check can be displayed. *)
Example C60_example :
  match run_selected_tests small 5 Full [nested_test] (quote "p") [quote "a*"] (fun _ => Ok true) with
  | Ok (events, _) =>
    (forall b, Forall (displayable id_name id_type (fun id => full_name_of (id_name id) (id_type id)) (fun _ => Some (quote "12")) decimal (quote "1.2") (painted b) 64 20) events) /\
    Forall (fun e => Forall colourless (texts_of id_name id_type (fun id => full_name_of (id_name id) (id_type id)) id_tags (fun _ => quote "f") (fun _ => Some (quote "12")) (quote "1.2") e)) events /\
    match console_reports 64 20 (quote "1.2") false (fun _ => quote "f") (fun _ => Some (quote "12")) 0 events with
    | Ok (_, out) => exists a b, concat out = a ++ failed_text ++ b
    | Err _ => False
    end
  | Err _ => False
  end.
Proof. exact nested_displayable. Qed.
