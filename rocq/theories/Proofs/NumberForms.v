(** Statements of the integer theorems in the form used by Properties/Numbers.v. *)
From Verif.Model Require Import Base Vector StringUtil Integer.
From Verif.Spec Require Import TextSpec NumberSpec.
From Verif.Proofs Require Import AppendProofs IntegerProofs.

Lemma append_int_runtime (ss : sstr) (i : Z) (g1 g2 : str) :
  wf ss -> (- 2 ^ 63 <= i < 2 ^ 63)%Z -> vcap ss <= length g1 ->
  exists s, writes_int s i /\
  exists ss' b, append_int ss i g1 g2 = Ok (ss', b) /\ wf ss' /\ vcap ss' = vcap ss /\
    vcontent ss' = firstn (vcap ss) (vcontent ss ++ s) /\ b = (length (vcontent ss ++ s) <=? vcap ss).
Proof.
  intros W I G. exists (to_chars_int i). split; [now apply to_chars_int_writes|].
  unfold append_int. apply append_to_spec; auto. pose proof (to_chars_int_length i I). lia.
Qed.

Lemma append_uint_runtime (ss : sstr) (i : N) (g1 g2 : str) :
  wf ss -> (i < 2 ^ 64)%N -> vcap ss <= length g1 ->
  exists s, writes 10 s i /\
  exists ss' b, append_uint ss i g1 g2 = Ok (ss', b) /\ wf ss' /\ vcap ss' = vcap ss /\
    vcontent ss' = firstn (vcap ss) (vcontent ss ++ s) /\ b = (length (vcontent ss ++ s) <=? vcap ss).
Proof.
  intros W I G. exists (to_chars_uint 10 i). split; [apply to_chars_uint_writes; auto; lia|].
  unfold append_uint. apply append_to_spec; auto. pose proof (to_chars_uint_length i I). lia.
Qed.

Lemma append_int_ct (ss : sstr) (i : Z) : wf ss -> (- 2 ^ 63 <= i < 2 ^ 63)%Z ->
  exists s, writes_int s i /\
  exists ss' b, append_int_constexpr 10 ss i = Ok (ss', b) /\ wf ss' /\ vcap ss' = vcap ss /\
    vcontent ss' = firstn (vcap ss) (vcontent ss ++ s) /\ b = (length (vcontent ss ++ s) <=? vcap ss).
Proof.
  intros W I. exists (to_chars_int i). split; [now apply to_chars_int_writes|].
  rewrite append_int_constexpr_spec by auto.
  destruct (append_content ss (to_chars_int i) W) as (ss' & E & W' & C & K). exists ss'. eexists. eauto 10.
Qed.

Lemma append_uint_ct (base : N) (ss : sstr) (i : N) : (base = 10 \/ base = 16)%N -> wf ss -> (i < 2 ^ 64)%N ->
  exists s, writes base s i /\
  exists ss' b, append_uint_constexpr base ss i = Ok (ss', b) /\ wf ss' /\ vcap ss' = vcap ss /\
    vcontent ss' = firstn (vcap ss) (vcontent ss ++ s) /\ b = (length (vcontent ss ++ s) <=? vcap ss).
Proof.
  intros B W I. exists (to_chars_uint base i). split; [apply to_chars_uint_writes; auto; lia|].
  rewrite append_uint_constexpr_spec by (auto; lia).
  destruct (append_content ss (to_chars_uint base i) W) as (ss' & E & W' & C & K). exists ss'. eexists. eauto 10.
Qed.

Lemma append_null (ss : sstr) (g1 g2 : str) : append_ptr ss 0 g1 g2 = append ss (lit "nullptr").
Proof. reflexivity. Qed.
