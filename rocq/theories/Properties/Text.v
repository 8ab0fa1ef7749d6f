(** Properties C01-C03, C06-C11: containers, texts, patterns. *)
From Verif.Model Require Import Base Vector StringUtil.
From Verif.Spec Require Import VectorSpec TextSpec.
From Verif.Proofs Require Import VectorProofs AppendProofs ReplaceProofs MatchProofs.

(** C01. Any sequence of public operations on a fresh small vector shows the outcomes of a bounded list, the
    size never exceeds the capacity, assertions fail exactly on violated [Requires] clauses, and no other
    error (out-of-bounds access, wrap-around) can occur. *)
Theorem C01_vector_is_bounded_list :
  forall (A : Type) (zero : A) (cap : nat) (ops : list (vop A)),
  exists v outs, vrun (vempty zero cap) ops = Ok (v, outs) /\ wf v /\ vcap v = cap /\
    conforms cap [] ops outs (vcontent v).
Proof. exact @vector_refines_list. Qed.
Print Assumptions C01_vector_is_bounded_list.

Example C01_example :
  exists v, vrun (vempty 0 2) [Push 7; Push 8; Back; Pop; Put 0 9; Get 0; Grow 1; Push 1; Pop]
            = Ok (v, [Done; Done; Value 8; Done; Done; Value 9; Done; Failed]).
Proof. eexists. reflexivity. Qed.

(** C01. Except when growing (new elements unspecified), the specification determines outcome and content. *)
Theorem C01_list_effects_deterministic :
  forall (A : Type) (l : list A) (o : vop A) (out1 out2 : vout A) (l1 l2 : list A),
  (forall n, o <> Grow n) -> (forall n, o = Resize n -> n <= length l) ->
  effect l o out1 l1 -> effect l o out2 l2 -> out1 = out2 /\ l1 = l2.
Proof. exact @effect_deterministic. Qed.
Print Assumptions C01_list_effects_deterministic.

Example C01_deterministic_example : effect [1; 2] Pop Done [1] /\ effect [1; 2] (Push 3) Done [1; 2; 3].
Proof. simpl. repeat split; auto. now exists 2. Qed.

(** C01. A small vector made from a braced list holds exactly that list when it fits, and the library reports a
    failed assertion when it does not. *)
Theorem C01_from_list :
  forall (A : Type) (zero : A) (cap : nat) (l : list A),
  (length l <= cap -> exists v, vpush_all (vempty zero cap) l = Ok v /\ wf v /\ vcap v = cap /\ vcontent v = l) /\
  (cap < length l -> vpush_all (vempty zero cap) l = Err Assert).
Proof. exact @from_list. Qed.
Print Assumptions C01_from_list.

Example C01_from_list_example :
  (exists v, vpush_all (vempty 0 3) [4; 5] = Ok v /\ vcontent v = [4; 5]) /\
  vpush_all (vempty 0 1) [4; 5] = Err Assert.
Proof. split; [eexists|]; repeat split; reflexivity. Qed.

(** C02. [append] keeps the longest prefix that fits, says whether everything fitted, touches nothing beyond
    the new end, and both implementations agree. *)
Theorem C02_append_string :
  forall (ss : sstr) (s : str), wf ss ->
  exists ss', append ss s = Ok (ss', length s <=? vcap ss - vsize ss) /\ wf ss' /\ vcap ss' = vcap ss /\
    vcontent ss' = vcontent ss ++ firstn (vcap ss - vsize ss) s /\
    vsize ss' = vsize ss + Nat.min (length s) (vcap ss - vsize ss) /\
    vbuf ss' = vcontent ss' ++ skipn (vsize ss') (vbuf ss).
Proof. exact append_spec. Qed.
Print Assumptions C02_append_string.

Theorem C02_constexpr_agrees : forall (ss : sstr) (s : str), wf ss -> append_constexpr ss s = append ss s.
Proof. exact append_constexpr_eq. Qed.
Print Assumptions C02_constexpr_agrees.

Example C02_example : shown (append (text_in 5 (lit "abc")) (lit "xyz")) = Ok (lit "abcxy", false) /\ wf (text_in 5 (lit "abc")).
Proof. repeat split. unfold wf, vcap. simpl. lia. Qed.

(** C03. Several values; truncation. *)
Theorem C03_append_several :
  forall (l : list str) (ss : sstr), wf ss ->
  exists ss', append_all ss l = Ok (ss', length (vcontent ss ++ List.concat l) <=? vcap ss) /\ wf ss' /\
    vcap ss' = vcap ss /\ vcontent ss' = firstn (vcap ss) (vcontent ss ++ List.concat l).
Proof. exact append_all_content. Qed.
Print Assumptions C03_append_several.

Theorem C03_append_or_truncate :
  forall (ss : sstr) (l : list str), wf ss ->
  exists ss', append_or_truncate ss l = Ok (ss', length (vcontent ss ++ List.concat l) <=? vcap ss) /\ wf ss' /\
    vcap ss' = vcap ss /\
    vcontent ss' = (if length (vcontent ss ++ List.concat l) <=? vcap ss then vcontent ss ++ List.concat l
                    else truncated (vcap ss) (vcontent ss ++ List.concat l)).
Proof. exact append_or_truncate_spec. Qed.
Print Assumptions C03_append_or_truncate.

Example C03_example :
  shown (append_or_truncate (text_in 6 (lit "a")) [lit "bcd"; lit ""; lit "efg"; lit "h"]) = Ok (lit "abc...", false) /\
  shown (append_or_truncate (text_in 2 []) [lit "abc"]) = Ok (lit "..", false) /\
  shown (append_or_truncate (text_in 6 (lit "a")) [lit "bc"; lit "def"]) = Ok (lit "abcdef", true).
Proof. repeat split; vm_compute; reflexivity. Qed.

(** C03. Converting between capacities. *)
Theorem C03_resize_or_truncate :
  forall (n : nat) (s : sstr), wf s ->
  exists s', resize_or_truncate n s = Ok s' /\ wf s' /\ vcap s' = n /\
    vcontent s' = (if length (vcontent s) <=? n then vcontent s else truncated n (vcontent s)).
Proof. exact resize_or_truncate_spec. Qed.
Print Assumptions C03_resize_or_truncate.

(** C03. Construction from a string asserts exactly when it does not fit, and holds it otherwise. *)
Theorem C03_string_from :
  forall (n : nat) (s : str),
  string_from n s = (if length s <=? n then Ok (text_in n s) else Err Assert) /\
  (length s <= n -> wf (text_in n s) /\ vcontent (text_in n s) = s /\ vcap (text_in n s) = n).
Proof. exact (fun n s => conj (string_from_spec n s) (text_in_spec n s)). Qed.
Print Assumptions C03_string_from.

(** C06. If the textbook replacement [t] fits, it is the result and the call returns true; the call returns
    true only in that case. (Every text has exactly one textbook replacement.) *)
Theorem C06_replace_all_exact :
  forall (p r : str), p <> [] -> forall (ss : sstr) (t : str) (fuel : nat),
  wf ss -> replaced p r (vcontent ss) t -> vcap ss <= fuel ->
  exists ss', replace_all fuel ss p r = Ok (ss', length t <=? vcap ss) /\ wf ss' /\ vcap ss' = vcap ss /\
    (length t <= vcap ss -> vcontent ss' = t).
Proof. exact replace_all_exact. Qed.
Print Assumptions C06_replace_all_exact.

Theorem C06_replacement_exists_unique :
  forall (p r s : str), p <> [] -> exists t, replaced p r s t /\ forall t', replaced p r s t' -> t' = t.
Proof. exact replaced_exists_unique. Qed.
Print Assumptions C06_replacement_exists_unique.

(** C06. With a replacement not longer than the pattern the result always fits. *)
Theorem C06_shorter_always_fits :
  forall (p r s t : str) (cap : nat),
  length r <= length p -> length s <= cap -> replaced p r s t -> length t <= cap.
Proof. exact replaced_fits_shorter. Qed.
Print Assumptions C06_shorter_always_fits.

Example C06_example :
  shown (replace_all 9 (text_in 9 (lit "aXbXX")) (lit "X") (lit "yz")) = Ok (lit "ayzbyzyz", true) /\
  shown (replace_all 9 (text_in 9 (lit "aaaaa")) (lit "aa") (lit "b")) = Ok (lit "bba", true) /\
  replaced (lit "X") (lit "yz") (lit "aXbXX") (lit "ayzbyzyz").
Proof.
  split; [vm_compute; reflexivity|]. split; [vm_compute; reflexivity|].
  exact replaced_example.
Qed.

(** C07 is false: on overflow the result is not always the longest prefix of the replaced text, when the
    pattern has several characters. *)
Theorem C07_overflow_prefix_refuted :
  exists (ss : sstr) (p r t : str) (ss' : sstr),
    wf ss /\ p <> [] /\ replaced p r (vcontent ss) t /\ vcap ss < length t /\
    replace_all 100 ss p r = Ok (ss', false) /\ vcontent ss' <> firstn (vcap ss) t.
Proof. exact replace_overflow_refuted. Qed.
Print Assumptions C07_overflow_prefix_refuted.

(** C07, what holds: the call returns false, fills the buffer, and all but the last [length p - 1] characters
    are those of the full replacement. In particular the result is the longest prefix for one-character
    patterns. Missing: patterns of several characters, last [length p - 1] characters (refuted above). *)
Theorem C07_overflow_prefix_partial :
  forall (p r : str), p <> [] -> forall (ss : sstr) (t : str) (fuel : nat),
  wf ss -> replaced p r (vcontent ss) t -> vcap ss <= fuel -> vcap ss < length t ->
  exists ss', replace_all fuel ss p r = Ok (ss', false) /\ wf ss' /\ vcap ss' = vcap ss /\
    length (vcontent ss') = vcap ss /\
    firstn (vcap ss - (length p - 1)) (vcontent ss') = firstn (vcap ss - (length p - 1)) t.
Proof. exact replace_all_overflow. Qed.
Print Assumptions C07_overflow_prefix_partial.

Theorem C07_overflow_prefix_char_partial :
  forall (c : ascii) (r : str) (ss : sstr) (t : str) (fuel : nat),
  wf ss -> replaced [c] r (vcontent ss) t -> vcap ss <= fuel -> vcap ss < length t ->
  exists ss', replace_all fuel ss [c] r = Ok (ss', false) /\ wf ss' /\ vcap ss' = vcap ss /\
    vcontent ss' = firstn (vcap ss) t.
Proof. exact replace_all_overflow_char. Qed.
Print Assumptions C07_overflow_prefix_char_partial.

Example C07_example :
  shown (replace_all 4 (text_in 4 (lit "aXX")) (lit "X") (lit "xyz")) = Ok (lit "axyz", false).
Proof. vm_compute; reflexivity. Qed.

(** C08 is false: with an empty pattern the call never returns. *)
Theorem C08_terminates_refuted :
  forall (fuel : nat) (ss : sstr) (r : str), wf ss -> replace_all fuel ss [] r = Err Fuel.
Proof. exact replace_all_empty_pattern. Qed.
Print Assumptions C08_terminates_refuted.

(** C08, what holds: with a non-empty pattern it returns after at most [capacity] replacements, without any
    failed assertion or memory error. Missing: the empty pattern (refuted above). *)
Theorem C08_terminates_partial :
  forall (p r : str) (ss : sstr) (fuel : nat), p <> [] -> wf ss -> vcap ss <= fuel ->
  exists ss' b, replace_all fuel ss p r = Ok (ss', b).
Proof. exact replace_all_terminates. Qed.
Print Assumptions C08_terminates_partial.

Example C08_example : lit "a" <> [] /\ wf (text_in 3 (lit "aaa")).
Proof. split; [discriminate|unfold wf, vcap; simpl; lia]. Qed.

(** C09. [escape_all_or_truncate] (for any non-empty pattern, in particular one character): the exact
    replacement if it fits; otherwise false, and the replacement of a prefix followed by dots, within the
    capacity. *)
Theorem C09_escape_all_or_truncate :
  forall (p r : str), p <> [] -> length p < length r -> forall (ss : sstr) (t : str) (fuel : nat),
  wf ss -> replaced p r (vcontent ss) t -> vcap ss <= fuel ->
  exists ss', escape_all_or_truncate fuel ss p r = Ok (ss', length t <=? vcap ss) /\ wf ss' /\ vcap ss' = vcap ss /\
    (length t <= vcap ss -> vcontent ss' = t) /\
    (vcap ss < length t -> exists pre suf u, vcontent ss = pre ++ suf /\ replaced p r pre u /\
       vcontent ss' = u ++ dots (Nat.min 3 (vcap ss))).
Proof. exact escape_exact. Qed.
Print Assumptions C09_escape_all_or_truncate.

(** C09. When it does not fit, and the pattern is one character: the text is cut at the last start or end of a
    replacement that leaves room for the dots, if there is one; otherwise at the last character that does. *)
Theorem C09_escape_longest :
  forall (c : ascii) (r : str), 2 <= length r -> forall (ss : sstr) (t : str) (fuel : nat),
  wf ss -> replaced [c] r (vcontent ss) t -> vcap ss <= fuel -> vcap ss < length t ->
  exists ss' pre suf u, escape_all_or_truncate fuel ss [c] r = Ok (ss', false) /\
    vcontent ss = pre ++ suf /\ replaced [c] r pre u /\ vcontent ss' = u ++ dots (Nat.min 3 (vcap ss)) /\
    ((exists x, pre = x ++ [c]) \/ (exists y, suf = c :: y) \/ length pre = vcap ss - 3) /\
    (forall pre' suf' u', vcontent ss = pre' ++ suf' -> (exists x, pre' = x ++ [c]) \/ (exists y, suf' = c :: y) ->
       replaced [c] r pre' u' -> length u' + 3 <= vcap ss -> length u' <= length u).
Proof. exact escape_longest. Qed.
Print Assumptions C09_escape_longest.

(** C09. A replacement that is not longer than the pattern is a failed assertion. *)
Theorem C09_escape_requires_longer :
  forall (fuel : nat) (ss : sstr) (p r : str), length r <= length p -> escape_all_or_truncate fuel ss p r = Err Assert.
Proof. exact escape_assert. Qed.
Print Assumptions C09_escape_requires_longer.

Example C09_example :
  shown (escape_all_or_truncate 12 (text_in 12 (lit "a&b&")) (lit "&") (lit "&amp;")) = Ok (lit "a&amp;b&amp;", true) /\
  shown (escape_all_or_truncate 10 (text_in 10 (lit "a&b&c")) (lit "&") (lit "&amp;")) = Ok (lit "a&amp;b...", false).
Proof. split; vm_compute; reflexivity. Qed.

(** C10. *)
Theorem C10_find_first_not_escaped :
  forall (s : str) (c : ascii),
  match find_first_not_escaped s c with
  | Some j => unescaped_at s c j /\ forall k, k < j -> ~ unescaped_at s c k
  | None => forall k, ~ unescaped_at s c k
  end.
Proof. exact find_first_not_escaped_spec. Qed.
Print Assumptions C10_find_first_not_escaped.

Example C10_example :
  find_first_not_escaped (lit "a\,\\,b,") ","%char = Some 5 /\ find_first_not_escaped (lit "a\,") ","%char = None.
Proof. split; reflexivity. Qed.

(** C11. *)
Theorem C11_is_match_is_glob :
  forall (s re : str), is_match s re = true <-> re = [] \/ exists ts, tokens re = Some ts /\ glob ts s.
Proof. exact is_match_spec. Qed.
Print Assumptions C11_is_match_is_glob.

Example C11_example :
  is_match (lit "abcd") (lit "a*\d") = true /\ is_match (lit "abcd") (lit "a*e*") = false /\
  is_match (lit "a*") (lit "a\*") = true /\ is_match (lit "ab") (lit "a\*") = false /\
  is_match (lit "a") (lit "a**") = true /\ is_match (lit "a") (lit "*\") = false.
Proof. repeat split; reflexivity. Qed.
