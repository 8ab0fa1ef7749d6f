(** Property C95: values written by functions of the user. *)
From Verif.Spec Require Import TextSpec FilterSpec ExpressionSpec SerialiserSpec.
From Verif.Model Require Import Base Vector StringUtil Expression Capture Serialiser.
From Verif.Proofs Require Import SerialiserProofs.
Import ListNotations.
Local Open Scope list_scope.

(** A function written as in the README (calls of [append] in turn, for values of the library or of the user; by hand; or
    other code that does what the README asks), applied to any string, has no failed assertion and does what the README
    asks: it adds to the string, within its capacity, and returns true if and only if there was room for the whole text;
    then this text was added. Otherwise the beginning of the text was added, if other code does so. *)
Theorem C95_contract :
  forall (s : serialiser) (ss : sstr), own_code serialises s -> wf ss ->
  exists ss' ok added, append_serialised ss s = Ok (ss', ok) /\ wf ss' /\ vcap ss' = vcap ss /\
    vcontent ss' = vcontent ss ++ added /\
    (ok = true <-> length (vcontent ss ++ text_of s) <= vcap ss) /\ (ok = true -> added = text_of s) /\
    (own_code writes_beginning s -> begins added (text_of s)).
Proof. exact contract_met. Qed.
Print Assumptions C95_contract.

(** If nothing is by hand and other code writes as many characters as possible, it is as if the text were appended; so what
    is proved for texts (C02, C03, C29, C44, C45) holds for such values. *)
Theorem C95_as_text :
  forall (s : serialiser) (ss : sstr), plainly s -> wf ss -> append_serialised ss s = append ss (text_of s).
Proof. exact (fun s ss P W => as_text s (proj1 P) (proj2 P) ss W). Qed.
Print Assumptions C95_as_text.

(** Messages, captures and so on: the whole text if there is room, otherwise something that ends with dots, without
    exceeding the capacity; before the dots is the beginning of the text, if other code writes the beginning of its text. *)
Theorem C95_truncation :
  forall (l : list serialiser) (ss : sstr), Forall (own_code serialises) l -> wf ss ->
  exists ss' ok, append_or_truncate_serialised ss l = Ok (ss', ok) /\ wf ss' /\ vcap ss' = vcap ss /\
    (ok = true <-> length (vcontent ss ++ texts l) <= vcap ss) /\
    (ok = true -> vcontent ss' = vcontent ss ++ texts l) /\
    (ok = false -> exists added, vcontent ss' = truncated (vcap ss) (vcontent ss ++ added) /\
       (Forall (own_code writes_beginning) l -> begins added (texts l))).
Proof. exact meets_or_truncated. Qed.
Print Assumptions C95_truncation.

Theorem C95_info :
  forall (n : nat) (l : list serialiser), Forall (own_code serialises) l -> exists t, info_serialised n l = Ok t /\
  (length (texts l) <= n -> t = texts l) /\
  (n < length (texts l) -> exists added, t = truncated n added /\ (Forall (own_code writes_beginning) l -> begins added (texts l))).
Proof. exact info_shown. Qed.
Print Assumptions C95_info.

(** CAPTURE, with the names of C29. *)
Theorem C95_capture :
  forall (n : nat) (values : list serialiser), Forall (own_code serialises) values ->
  forall (names : text) (l : list (list text)), capture_texts names (map text_of values) = Ok l ->
  exists shown, capture_serialised n names values = Ok shown /\
  Forall2 (fun pieces t => let whole := List.concat pieces in
     (length whole <= n -> t = whole) /\
     (n < length whole -> exists added, t = truncated n added /\ (Forall (own_code writes_beginning) values -> begins added whole))) l shown.
Proof. exact capture_shown. Qed.
Print Assumptions C95_capture.

(** Checks: the texts of the operands if there is room for everything, otherwise nothing at all, whatever the functions write
    when there is no room. *)
Theorem C95_comparison :
  forall (A B : Type) (c : comparisons A B) (show_l : A -> option serialiser) (show_r : B -> option serialiser)
    (max : nat) (all expected : bool) (macro source : text) (o : operator) (a : A) (b : B),
  (forall s, show_l a = Some s -> own_code serialises s) -> (forall s, show_r b = Some s -> own_code serialises s) ->
  exists x, binary_serialised max all expected macro source c show_l show_r o a b = Ok x /\
    x_type x = macro /\ x_expected x = source /\
    (x_success x = true <-> c o a b = expected) /\
    (x_success x = false \/ all = true ->
       vcontent (x_actual x) =
         kept max (text_or_mark (show_l a) ++ written (if c o a b then o else opposite o) ++ text_or_mark (show_r b))) /\
    (x_success x = true -> all = false -> vcontent (x_actual x) = []).
Proof. exact @binary_shown. Qed.
Print Assumptions C95_comparison.

Theorem C95_unary :
  forall (A : Type) (to_bool : A -> bool) (show : A -> option serialiser) (max : nat) (all expected : bool) (macro source : text) (a : A),
  (forall s, show a = Some s -> own_code serialises s) ->
  exists x, unary_serialised max all expected macro source to_bool show a = Ok x /\
    x_type x = macro /\ x_expected x = source /\
    (x_success x = true <-> to_bool a = expected) /\
    (x_success x = false \/ all = true -> vcontent (x_actual x) = kept max (text_or_mark (show a))) /\
    (x_success x = true -> all = false -> vcontent (x_actual x) = []).
Proof. exact @unary_shown. Qed.
Print Assumptions C95_unary.

(** The matcher for alternatives, if values are written as recommended. *)
Theorem C95_any_of_partial :
  forall (A : Type) (show : A -> serialiser) (mm : nat) (l : list A) (value : A) (s : match_status),
  (forall a, plainly (show a)) ->
  any_of_describe_serialised show mm l value s = any_of_describe (fun a => text_of (show a)) mm l value s.
Proof. exact (fun A show mm l value s P => any_of_as_text show P mm l value s). Qed.
Print Assumptions C95_any_of_partial.

(** Two claims of the README that do not hold. A text that is too long is not "indicated by a ... at the end" in checks: it is
    not shown at all. *)
Theorem C95_check_refuted :
  forall (A : Type) (show : A -> option serialiser) (max : nat) (macro source : text) (a : A),
  (forall s, show a = Some s -> own_code serialises s) -> max < length (text_or_mark (show a)) ->
  exists x, unary_serialised max true true macro source (fun _ => false) show a = Ok x /\ vcontent (x_actual x) = [].
Proof. exact @too_long_shown. Qed.
Print Assumptions C95_check_refuted.

(** And if a value is written by hand, the dots need not be at the end: the description of is_any_of{a} for a long value
    has dots in the middle, and the words " was not found in {" are missing. *)
Theorem C95_any_of_refuted :
  forall (mm : nat) (by_growing : bool) (t : text), 20 <= mm <= length t ->
  (do ss <- any_of_describe_serialised (fun b : bool => if b then ByHand by_growing t else Value (lit "a")) mm [false] true DidNotMatch ;;
   Ok (vcontent ss)) =
  Ok (apostrophe_text ++ lit "..." ++ apostrophe_text ++ lit "a" ++ apostrophe_text ++ lit "}").
Proof. exact by_hand_alternatives. Qed.
Print Assumptions C95_any_of_refuted.

(** The vector of the README; a value by hand; other code that writes everything or, for want of room, a question mark if
    it can; and code that writes as many characters as possible. *)
Definition vector : serialiser := several [Value (lit "{"); Value (lit "1.5"); Value (lit ","); Value (lit "2"); Value (lit "}")].
Definition all_or_mark (t : text) : behaviour := fun capacity content =>
  if length (content ++ t) <=? capacity then (content ++ t, true)
  else if length content <? capacity then (content ++ lit "?", false) else (content, false).
Definition most (t : text) : behaviour := fun capacity content =>
  (firstn capacity (content ++ t), length (content ++ t) <=? capacity).
Lemma all_or_mark_serialises t : serialises t (all_or_mark t).
Proof.
  intros n c L. unfold all_or_mark. destruct (Nat.leb_spec (length (c ++ t)) n); [|destruct (Nat.ltb_spec (length c) n)].
  - exists t, true. repeat split; auto.
  - exists (lit "?"), false. split; [reflexivity|]. rewrite !app_length in *. cbn [lit length]. split; [cbn; lia|]. split; [split; [discriminate|lia]|discriminate].
  - exists [], false. rewrite !app_nil_r. split; [reflexivity|]. split; [auto|]. split; [split; [discriminate|lia]|discriminate].
Qed.
Lemma most_recommended t : recommended t (most t).
Proof.
  split; [|intros n c L; reflexivity]. intros n c L. unfold most. exists (firstn (n - length c) t), (length (c ++ t) <=? n).
  rewrite firstn_app, (firstn_all2 c) by auto. split; [reflexivity|]. rewrite !app_length, firstn_length, Nat.leb_le. split; [lia|]. split; [reflexivity|]. intros G. apply firstn_all2. lia.
Qed.
Example C95_example :
  plainly vector /\ text_of vector = lit "{1.5,2}" /\
  (let values := [vector; ByHand true (lit "by hand"); Own (lit "own") (all_or_mark (lit "own")); Own (lit "most") (most (lit "most"))] in
   Forall (own_code serialises) values /\
   info_serialised 30 values = Ok (lit "{1.5,2}by handownmost") /\
   info_serialised 19 values = Ok (lit "{1.5,2}by handow...") /\
   info_serialised 16 values = Ok (lit "{1.5,2}by han...") /\
   info_serialised 12 values = Ok (lit "{1.5,2}...") /\
   capture_serialised 16 (lit "a, f(b, c)") [vector; ByHand false (lit "by hand")] = Ok [lit "a := {1.5,2}"; lit "f(b, c) := ..."]) /\
  (do x <- binary_serialised 15 false true [] [] (fun _ _ _ => false) (fun _ => Some vector) (fun _ : unit => None) Equal tt tt ;; Ok (vcontent (x_actual x))) =
    Ok (lit "{1.5,2} != ?") /\
  (do x <- binary_serialised 15 false true [] [] (fun _ _ _ => false) (fun _ => Some vector) (fun _ : unit => Some vector) Equal tt tt ;; Ok (vcontent (x_actual x))) =
    Ok [].
Proof.
  split; [split; cbn; tauto|]. split; [reflexivity|]. split.
  - cbv zeta. split; [|repeat split; vm_compute; reflexivity]. repeat apply Forall_cons; try apply Forall_nil; cbn; auto 10.
    + apply all_or_mark_serialises.
    + apply most_recommended.
  - split; vm_compute; reflexivity.
Qed.
