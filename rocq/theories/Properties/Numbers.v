(** Properties C04, C05: integers and pointers.
    [g1], [g2] are the unspecified characters left behind by a failing [std::to_chars]. *)
From Verif.Model Require Import Base Vector StringUtil Integer.
From Verif.Spec Require Import TextSpec NumberSpec.
From Verif.Proofs Require Import IntegerProofs NumberForms.

(** C04. Appending a signed 64-bit integer appends its canonical decimal notation: the longest prefix that
    fits, and true exactly when all of it fitted. *)
Theorem C04_append_int :
  forall (ss : sstr) (i : Z) (g1 g2 : str),
  wf ss -> (- 2 ^ 63 <= i < 2 ^ 63)%Z -> vcap ss <= length g1 ->
  exists s, writes_int s i /\
  exists ss' b, append_int ss i g1 g2 = Ok (ss', b) /\ wf ss' /\ vcap ss' = vcap ss /\
    vcontent ss' = firstn (vcap ss) (vcontent ss ++ s) /\ b = (length (vcontent ss ++ s) <=? vcap ss).
Proof. exact append_int_runtime. Qed.
Print Assumptions C04_append_int.

(** C04. Same for unsigned 64-bit integers. *)
Theorem C04_append_uint :
  forall (ss : sstr) (i : N) (g1 g2 : str),
  wf ss -> (i < 2 ^ 64)%N -> vcap ss <= length g1 ->
  exists s, writes 10 s i /\
  exists ss' b, append_uint ss i g1 g2 = Ok (ss', b) /\ wf ss' /\ vcap ss' = vcap ss /\
    vcontent ss' = firstn (vcap ss) (vcontent ss ++ s) /\ b = (length (vcontent ss ++ s) <=? vcap ss).
Proof. exact append_uint_runtime. Qed.
Print Assumptions C04_append_uint.

(** C04. The constexpr implementations (also used at run time when std::to_chars is not available). *)
Theorem C04_append_int_constexpr :
  forall (ss : sstr) (i : Z), wf ss -> (- 2 ^ 63 <= i < 2 ^ 63)%Z ->
  exists s, writes_int s i /\
  exists ss' b, append_int_constexpr 10 ss i = Ok (ss', b) /\ wf ss' /\ vcap ss' = vcap ss /\
    vcontent ss' = firstn (vcap ss) (vcontent ss ++ s) /\ b = (length (vcontent ss ++ s) <=? vcap ss).
Proof. exact append_int_ct. Qed.
Print Assumptions C04_append_int_constexpr.

Theorem C04_append_uint_constexpr :
  forall (base : N) (ss : sstr) (i : N), (base = 10 \/ base = 16)%N -> wf ss -> (i < 2 ^ 64)%N ->
  exists s, writes base s i /\
  exists ss' b, append_uint_constexpr base ss i = Ok (ss', b) /\ wf ss' /\ vcap ss' = vcap ss /\
    vcontent ss' = firstn (vcap ss) (vcontent ss ++ s) /\ b = (length (vcontent ss ++ s) <=? vcap ss).
Proof. exact append_uint_ct. Qed.
Print Assumptions C04_append_uint_constexpr.

(** C04. The canonical notation of a number is unique. *)
Theorem C04_notation_unique :
  forall (s1 s2 : str) (z : Z), writes_int s1 z -> writes_int s2 z -> s1 = s2.
Proof. exact writes_int_unique. Qed.
Print Assumptions C04_notation_unique.

Example C04_example :
  shown (append_int (text_in 30 (lit "x=")) (-9223372036854775808) (repeat zero 30) []) = Ok (lit "x=-9223372036854775808", true) /\
  shown (append_int (text_in 4 (lit "x=")) (-9223372036854775808) (lit "????") []) = Ok (lit "x=-9", false) /\
  shown (append_int_constexpr 10 (text_in 30 []) (-9223372036854775808)) = Ok (lit "-9223372036854775808", true) /\
  shown (append_uint (text_in 30 []) 18446744073709551615 (repeat zero 30) []) = Ok (lit "18446744073709551615", true) /\
  shown (append_int_constexpr 10 (text_in 30 []) 0) = Ok (lit "0", true).
Proof. repeat split; vm_compute; reflexivity. Qed.

(** C05. Non-null pointers: "0x" and exactly 16 hexadecimal digits denoting the address. *)
Theorem C05_append_pointer :
  forall (ss : sstr) (addr : N) (g1 g2 : str),
  wf ss -> (0 < addr < 2 ^ 64)%N -> vcap ss <= length g1 ->
  exists hex, writes_fixed 16 16 hex addr /\
  exists ss' b, append_ptr ss addr g1 g2 = Ok (ss', b) /\ wf ss' /\ vcap ss' = vcap ss /\
    vcontent ss' = firstn (vcap ss) (vcontent ss ++ lit "0x" ++ hex) /\
    b = (length (vcontent ss ++ lit "0x" ++ hex) <=? vcap ss).
Proof. exact append_ptr_spec. Qed.
Print Assumptions C05_append_pointer.

Theorem C05_append_null_pointer :
  forall (ss : sstr) (g1 g2 : str), append_ptr ss 0 g1 g2 = append ss (lit "nullptr").
Proof. exact append_null. Qed.
Print Assumptions C05_append_null_pointer.

Example C05_example :
  shown (append_ptr (text_in 30 []) 48879 (repeat zero 30) []) = Ok (lit "0x000000000000beef", true) /\
  shown (append_ptr (text_in 5 []) 48879 (repeat zero 30) []) = Ok (lit "0x000", false) /\
  shown (append_ptr (text_in 30 []) 0 [] []) = Ok (lit "nullptr", true).
Proof. repeat split; vm_compute; reflexivity. Qed.
