(** Property C87: the texts of values of built-in types. *)
From Verif.Model Require Import Base Vector StringUtil Integer Fixed FloatText Values.
From Verif.Spec Require Import TextSpec NumberSpec FloatSpec ValueSpec.
From Verif.Proofs Require Import IntegerProofs ValueProofs.

(** C87. A value is appended as its text: the longest prefix of the text that fits, and true exactly when all of it
    fitted; during constant evaluation and at run time, with or without std::to_chars. *)
Theorem C87_value :
  forall (ev : evaluation) (ss : sstr) (v : value) (constant : bool) (std : option (format -> Z -> str)),
  ev = AtCompileTime /\ constant = true /\ std = None \/
  (exists g1 g2, ev = AtRunTime std g1 g2 /\ constant = false /\ vcap ss <= length g1) ->
  (forall texts f bits, std = Some texts -> length (texts f bits) <= 32) ->
  wf ss -> possible v ->
  exists T, shows constant std v T /\
  exists ss' b, append_built_in ev ss v = Ok (ss', b) /\ wf ss' /\ vcap ss' = vcap ss /\
    vcontent ss' = firstn (vcap ss) (vcontent ss ++ T) /\ b = (length (vcontent ss ++ T) <=? vcap ss).
Proof. exact value_form. Qed.
Print Assumptions C87_value.

(** C87. Several values in one call: their texts in a row, cut at the capacity. *)
Theorem C87_values :
  forall (ev : evaluation) (ss : sstr) (l : list value) (constant : bool) (std : option (format -> Z -> str)),
  ev = AtCompileTime /\ constant = true /\ std = None \/
  (exists g1 g2, ev = AtRunTime std g1 g2 /\ constant = false /\ vcap ss <= length g1) ->
  (forall texts f bits, std = Some texts -> length (texts f bits) <= 32) ->
  wf ss -> Forall possible l ->
  exists T, shows_all constant std l T /\
  exists ss' b, append_values ev ss l = Ok (ss', b) /\ wf ss' /\ vcap ss' = vcap ss /\
    vcontent ss' = firstn (vcap ss) (vcontent ss ++ T) /\ b = (length (vcontent ss ++ T) <=? vcap ss).
Proof. exact values_form. Qed.
Print Assumptions C87_values.

(** C87. A value other than a floating-point number has one text. *)
Theorem C87_unique :
  forall (v : value) (t t' : text) (constant : bool) (std : option (format -> Z -> text)),
  (forall bits, v <> Float bits) -> (forall bits, v <> Double bits) -> possible v ->
  shows constant std v t -> shows constant std v t' -> t = t'.
Proof. exact one_text. Qed.
Print Assumptions C87_unique.

(** C87. It is the same during constant evaluation and at run time, and in all configurations, but for pointers to objects. *)
Theorem C87_configuration :
  forall (v : value) (t : text) (constant : bool) (std : option (format -> Z -> text)) (constant' : bool) (std' : option (format -> Z -> text)),
  (forall bits, v <> Float bits) -> (forall bits, v <> Double bits) -> (forall a, v <> Address a) -> possible v ->
  shows constant std v t -> shows constant' std' v t.
Proof. exact same_everywhere. Qed.
Print Assumptions C87_configuration.

(** C87. Different values of one type among bool, the integer types and the enumerations do not have the same text. *)
Theorem C87_distinct :
  forall (constant : bool) (std : option (format -> Z -> text)) (v v' : value) (t : text),
  comparable v v' -> shows constant std v t -> shows constant std v' t -> v = v'.
Proof. exact distinct. Qed.
Print Assumptions C87_distinct.

Definition texts (f : format) (bits : Z) : str := lit "1.5e+00".
Definition at_run_time : evaluation := AtRunTime (Some texts) (repeat zero 100) [].
Definition a_string : list ascii := lit "abc" ++ Ascii.zero :: lit "def".

(** A boolean, a character, an enumerator, a number, an array, a string, pointers; cut at 10 characters. *)
Example C87_example :
  let l := [Boolean true; View (lit " "); Integer true 8 97; View (lit " "); Enumerator (Integer false 16 65535); View (lit " ");
            Double 0x3FF8000000000000; View (lit " "); Array (lit "xy" ++ [Ascii.zero]); View (lit " "); CString (Some a_string); View (lit " ");
            NullPtr; Address 48879; Code false] in
  Forall possible l /\
  shown (append_values at_run_time (new_string 100) l) = Ok (lit "true 97 65535 1.5e+00 xy abc nullptr0x000000000000beef0x????????", true) /\
  shown (append_values AtCompileTime (new_string 100) l) = Ok (lit "true 97 65535 1.500000000000000e+00 xy abc nullptr0x????????0x????????", true) /\
  shown (append_values (AtRunTime None [] []) (new_string 10) l) = Ok (lit "true 97 65", false).
Proof.
  repeat split; try (vm_compute; reflexivity).
  repeat match goal with |- Forall _ (_ :: _) => constructor | |- Forall _ [] => constructor end; try constructor;
    cbv [integer_range pattern fraction_bits exponent_bits binary64]; try lia; try (cbn; intuition lia); eauto; try discriminate.
  constructor; [lia|cbv [integer_range]; cbn; lia].
Qed.

(** Consequences that may surprise: an array of characters without a terminator loses its last character, and is shown
    beyond a terminator inside of it; characters are shown as numbers; integers of more than 64 bits, where the
    implementation has them, are reduced modulo 2^64. *)
Example C87_surprises :
  shown (append_built_in at_run_time (new_string 100) (Array (lit "hi"))) = Ok (lit "h", true) /\
  shown (append_built_in at_run_time (new_string 100) (Array (lit "a" ++ [Ascii.zero] ++ lit "b" ++ [Ascii.zero]))) = Ok (lit "a" ++ [Ascii.zero] ++ lit "b", true) /\
  shown (append_built_in at_run_time (new_string 100) (Integer true 8 65)) = Ok (lit "65", true) /\
  shown (append_built_in at_run_time (new_string 100) (Integer true 128 (2 ^ 64 + 5))) = Ok (lit "5", true) /\
  integer_range true 128 (2 ^ 64 + 5).
Proof. repeat split; vm_compute; reflexivity || discriminate. Qed.
