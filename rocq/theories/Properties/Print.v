(** Properties C37, C38, C51: console output. *)
From Verif.Spec Require Import TextSpec FilterSpec RunSpec PrintSpec.
From Verif.Model Require Import Base Vector StringUtil Print.
From Verif.Proofs Require Import PrintProofs.

(** C37. The chunks given to the print callback add up to the texts printed, and no chunk is longer than the buffer
    unless it is one whole argument. *)
Theorem C37_print_texts :
  forall (max_message : nat) (texts : list text),
  exists chunks, registry_print max_message (map Text texts) = Ok chunks /\
    List.concat chunks = List.concat texts /\
    Forall (fun c => length c <= max_message \/ In c texts) chunks.
Proof. exact registry_print_texts. Qed.
Print Assumptions C37_print_texts.

(** The same with numbers and coloured texts among the arguments, if each of these fits the buffer on its own. *)
Theorem C37_print_pieces :
  forall (max_message : nat) (arguments : list piece), Forall (printable max_message) arguments ->
  exists chunks, registry_print max_message arguments = Ok chunks /\
    List.concat chunks = List.concat (map rendered arguments) /\
    Forall (fun c => length c <= max_message \/ In (Text c) arguments) chunks.
Proof. exact registry_print_spec. Qed.
Print Assumptions C37_print_pieces.

(** Printing never fails, whatever the arguments. *)
Theorem C37_print_never_fails :
  forall (max_message : nat) (arguments : list piece), exists chunks, registry_print max_message arguments = Ok chunks.
Proof. exact registry_print_total. Qed.
Print Assumptions C37_print_never_fails.

Example C37_example :
  registry_print 5 (map Text [lit "abc"; lit "de"; lit "f"; lit "ghijklm"; lit "n"])
  = Ok [lit "abcde"; lit "f"; lit "ghijklm"; lit "n"].
Proof. reflexivity. Qed.
Example C37_example_pieces :
  Forall (printable 16) [Text (lit "a"); Number (lit "12"); make_colored (lit "xyz") true color_error] /\
  registry_print 16 [Text (lit "a"); Number (lit "12"); make_colored (lit "xyz") true color_error]
  = Ok [lit "a12"; color_error ++ lit "xyz" ++ color_reset].
Proof. split; [repeat constructor|reflexivity]. Qed.

(** C38. Partial: exactly what appending a coloured text does, for every buffer, text and pair of sequences. If the
    two sequences leave no room for text, nothing is written and failure is reported. If all fits, all is written. If
    the start sequence and the text overflow the buffer, the text is shortened and the end sequence is complete.
    What is missing is the last case: there the end sequence is cut short. *)
Theorem C38_colour_partial :
  forall (ss : sstr) (value start stop : text), wf ss ->
  exists ss' ok, append_colored ss value start stop = Ok (ss', ok) /\ wf ss' /\ vcap ss' = vcap ss /\
    let room := vcap ss - length (vcontent ss) in
    let wanted := length start + length value + length stop in
    ((room <= length start + length stop -> ss' = ss /\ ok = false) /\
     (length start + length stop < room -> wanted <= room ->
       vcontent ss' = vcontent ss ++ start ++ value ++ stop /\ ok = true) /\
     (length start + length stop < room -> room < length start + length value ->
       vcontent ss' = vcontent ss ++ start ++ firstn (room - length start - length stop) value ++ stop /\
       length (vcontent ss') = vcap ss /\ ok = false) /\
     (length start + length stop < room -> length start + length value <= room -> room < wanted ->
       vcontent ss' = vcontent ss ++ start ++ value ++ firstn (room - length start - length value) stop /\
       length (vcontent ss') = vcap ss /\ ok = false)).
Proof. exact append_colored_spec. Qed.
Print Assumptions C38_colour_partial.

(** The full claim is false: in a buffer of capacity 13, the reset sequence after "abcdef" is left out entirely... *)
Theorem C38_append_refuted :
  exists ss', append_colored (new_string 13) (lit "abcdef") color_error color_reset = Ok (ss', false) /\
    vcontent ss' = color_error ++ lit "abcdef".
Proof. exact append_colored_unterminated. Qed.
Print Assumptions C38_append_refuted.

(** ...and for every message length of at least 12, a message printed on the command line can have its reset sequence
    overwritten by the dots that mark truncation. *)
Theorem C38_print_refuted :
  forall n, 12 <= n -> exists value,
  cli_print n [make_colored value true color_error] = Ok (color_error ++ value ++ lit "...").
Proof. exact cli_print_unterminated. Qed.
Print Assumptions C38_print_refuted.

Example C38_example :
  wf (new_string 16) /\
  append_colored (new_string 16) (lit "abcdefghijkl") color_error color_reset =
    Ok (mkvec (color_error ++ lit "abcde" ++ color_reset) 16, false) /\
  append_colored (new_string 16) (lit "abc") color_error color_reset =
    Ok (mkvec (color_error ++ lit "abc" ++ color_reset ++ [Ascii.zero; Ascii.zero]) 14, true).
Proof. split; [unfold wf; cbn; lia|split; reflexivity]. Qed.

(** C51. The command line's print function: the whole text, or exactly [max_message] characters ending in dots. *)
Theorem C51_print :
  forall (max_message : nat) (texts : list text),
  cli_print max_message (map Text texts) = Ok (fit max_message (List.concat texts)).
Proof. exact cli_print_texts. Qed.
Print Assumptions C51_print.

(** In particular its length. *)
Theorem C51_length :
  forall (max_message : nat) (texts : list text) (out : text),
  cli_print max_message (map Text texts) = Ok out ->
  (length (List.concat texts) <= max_message -> out = List.concat texts) /\
  (max_message < length (List.concat texts) -> length out = max_message /\
     (3 <= max_message -> out = firstn (max_message - 3) (List.concat texts) ++ quote "...")).
Proof. exact cli_print_length. Qed.
Print Assumptions C51_length.

(** With coloured texts and numbers: everything is printed if it fits and leaves room for one character in each
    coloured text. *)
Theorem C51_pieces :
  forall (max_message : nat) (arguments : list piece),
  length (List.concat (map rendered arguments)) < max_message ->
  cli_print max_message arguments = Ok (List.concat (map rendered arguments)).
Proof. exact cli_print_pieces. Qed.
Print Assumptions C51_pieces.

Example C51_example : cli_print 6 (map Text [lit "abcd"; lit "efg"]) = Ok (lit "abc...").
Proof. reflexivity. Qed.
Example C51_example_pieces :
  let arguments := [Text (lit "error: "); make_colored (lit "bad") true color_error; Number (lit "12")] in
  length (List.concat (map rendered arguments)) = 23 /\
  cli_print 24 arguments = Ok (lit "error: " ++ color_error ++ lit "bad" ++ color_reset ++ lit "12").
Proof. split; reflexivity. Qed.
