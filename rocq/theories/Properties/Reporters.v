(** Properties C39-C41: escaping in the XML and TeamCity reporters. *)
From Verif.Spec Require Import TextSpec FilterSpec EscapeSpec.
From Verif.Model Require Import Base Vector StringUtil Reporters.
From Verif.Proofs Require Import VectorProofs EscapeProofs.
Local Open Scope list_scope.

(** ** C39. XML: when the escaped text fits, it is the text with every special character replaced by its entity... *)
Theorem C39_xml_escaped :
  forall (mm : nat) (s t : text), encoded xml_entities s t -> length t <= mm -> xml_make_escaped mm s = Ok t.
Proof. exact xml_made_fits. Qed.
Print Assumptions C39_xml_escaped.

(** ... also in a buffer that already holds the text, in which case the result is [true]... *)
Theorem C39_xml_escape_buffer :
  forall (ss : sstr) (t : text), wf ss -> encoded xml_entities (vcontent ss) t -> length t <= vcap ss ->
  exists ss', xml_escape ss = Ok (ss', true) /\ vcontent ss' = t.
Proof. exact xml_faithful. Qed.
Print Assumptions C39_xml_escape_buffer.

(** ... it contains no special character except at the start of an entity... *)
Theorem C39_no_raw :
  forall (s t a : text) (c : ascii) (b : text), encoded xml_entities s t -> t = a ++ c :: b -> special xml_entities c ->
  c = "&"%char /\ exists x e b', In (x, e) xml_entities /\ c :: b = e ++ b'.
Proof. exact xml_no_raw. Qed.
Print Assumptions C39_no_raw.

(** ... and it is decoded to the original text and to no other. *)
Theorem C39_decoding :
  forall (t s s' : text), encoded xml_entities s t -> encoded xml_entities s' t -> s = s'.
Proof. exact xml_decode. Qed.
Print Assumptions C39_decoding.

(** Every text has an escaped form: the hypothesis of the theorems above only asks that it fits. *)
Theorem C39_encodable : forall s : text, exists t, encoded xml_entities s t.
Proof. exact (fun s => encoded_total xml_entities s xml_distinct). Qed.
Print Assumptions C39_encodable.

Example C39_example :
  encoded xml_entities (quote "a<b&&c>d") (quote "a&lt;b&amp;&amp;c&gt;d") /\
  length (quote "a&lt;b&amp;&amp;c&gt;d") = 22 /\
  xml_make_escaped 22 (quote "a<b&&c>d") = Ok (quote "a&lt;b&amp;&amp;c&gt;d") /\
  xml_make_escaped 40 (quote "&lt;") = Ok (quote "&amp;lt;").
Proof.
  split.
  { apply (proj2 (encoded_encode xml_entities _ _ xml_distinct)). vm_compute. reflexivity. }
  repeat split; vm_compute; reflexivity.
Qed.

(** ** C40. When the escaped text does not fit *)

(** The claim is false for every capacity of at least 8 characters: a special character may be left as it is... *)
Theorem C40_refuted_raw : forall n : nat, 8 <= n -> exists s out, xml_make_escaped n s = Ok ("<"%char :: out).
Proof. exact xml_raw. Qed.
Print Assumptions C40_refuted_raw.

(** ... and an entity may be cut. *)
Theorem C40_refuted_cut :
  forall n : nat, 8 <= n -> exists s a, xml_make_escaped n s = Ok (a ++ quote "&am...") /\ ~ In "&"%char a.
Proof. exact xml_cut. Qed.
Print Assumptions C40_refuted_cut.

(** It is true of the texts with at most one kind of special characters: the result can be decoded. *)
Theorem C40_one_kind_partial :
  forall (mm : nat) (s : text) (c0 : ascii), (forall c, In c s -> special xml_entities c -> c = c0) ->
  exists out s', xml_make_escaped mm s = Ok out /\ length out <= mm /\ encoded xml_entities s' out.
Proof. exact xml_one_kind. Qed.
Print Assumptions C40_one_kind_partial.

(** For all texts and capacities: the text is first made to fit ([fit]), the result fits, and it is either the escaped
    text or what [overflowed] says (Spec/EscapeSpec.v). *)
Theorem C40_result_partial :
  forall (mm : nat) (s : text), exists out t,
  xml_make_escaped mm s = Ok out /\ length out <= mm /\ encoded xml_entities (fit mm s) t /\
  (length t <= mm -> out = t) /\ (mm < length t -> overflowed xml_entities mm (fit mm s) out).
Proof. exact xml_made. Qed.
Print Assumptions C40_result_partial.

Example C40_example :
  xml_make_escaped 21 (quote "a<b&&c>d") = Ok (quote "a&lt;b&amp;&amp;c...") /\
  xml_make_escaped 10 (quote "<&&&") = Ok (quote "<&amp;...") /\
  xml_make_escaped 10 (quote "aaaa&" ++ [ascii_of_nat 34]) = Ok (quote "aaaa&am...") /\
  xml_make_escaped 9 (quote "a<<b") = Ok (quote "a&lt;...") /\
  (forall c, In c (quote "a<<b") -> special xml_entities c -> c = "<"%char).
Proof.
  do 4 (split; [vm_compute; reflexivity|]). intros c I S. cbn in I.
  repeat (destruct I as [<-|I]; [solve [reflexivity|exfalso; cbn -[ascii_of_nat] in S; repeat (destruct S as [S|S]; [discriminate S|]); destruct S]|]).
  destruct I.
Qed.

(** ** C41. TeamCity: when the escaped text fits, it is the text with every special character replaced... *)
Theorem C41_teamcity_escaped :
  forall (mm : nat) (s t : text), encoded teamcity_code s t -> length t <= mm -> tc_make_escaped mm s = Ok t.
Proof. exact tc_made_fits. Qed.
Print Assumptions C41_teamcity_escaped.

Theorem C41_teamcity_escape_buffer :
  forall (ss : sstr) (t : text), wf ss -> encoded teamcity_code (vcontent ss) t -> length t <= vcap ss ->
  exists ss', tc_escape ss = Ok (ss', true) /\ vcontent ss' = t.
Proof. exact tc_faithful. Qed.
Print Assumptions C41_teamcity_escape_buffer.

(** ... every special character other than the vertical bar comes after a vertical bar (which, by the decoding, is not
    itself a character of the text)... *)
Theorem C41_no_raw :
  forall (s t a : text) (c : ascii) (b : text), encoded teamcity_code s t -> t = a ++ c :: b -> special teamcity_code c ->
  c <> "|"%char -> exists a', a = a' ++ ["|"%char].
Proof. exact tc_no_raw. Qed.
Print Assumptions C41_no_raw.

(** ... and the result is decoded to the original text and to no other. *)
Theorem C41_decoding :
  forall (t s s' : text), encoded teamcity_code s t -> encoded teamcity_code s' t -> s = s'.
Proof. exact tc_decode. Qed.
Print Assumptions C41_decoding.

Theorem C41_encodable : forall s : text, exists t, encoded teamcity_code s t.
Proof. exact (fun s => encoded_total teamcity_code s tc_distinct). Qed.
Print Assumptions C41_encodable.

Example C41_example :
  encoded teamcity_code (quote "a[0]|b") (quote "a|[0|]||b") /\ tc_make_escaped 9 (quote "a[0]|b") = Ok (quote "a|[0|]||b") /\
  tc_make_escaped 10 [ascii_of_nat 39; ascii_of_nat 10; ascii_of_nat 13] =
    Ok ["|"%char; ascii_of_nat 39; "|"%char; "n"%char; "|"%char; "r"%char].
Proof.
  split; [|split; vm_compute; reflexivity].
  apply (proj2 (encoded_encode teamcity_code _ _ tc_distinct)). vm_compute. reflexivity.
Qed.
