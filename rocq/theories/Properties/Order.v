(** Property C97: printed floating-point numbers are in order. *)
From Coq Require Import ZArith QArith List Lia.
From Verif.Spec Require Import TextSpec NumberSpec FloatSpec FilterSpec ExpressionSpec ValueSpec OrderSpec.
From Verif.Model Require Import Base Vector StringUtil Integer Fixed FloatText Values Expression Comparison.
From Verif.Proofs Require Import OrderText OrderChecks.
Local Open Scope Z_scope.

(** C97. Two floats, or two doubles, printed with the same number of digits: the one printed as the smaller number is
    the smaller one, equal ones are printed as equal numbers, whatever their signs and magnitudes. The longest prefix
    of the text that fits is appended. *)
Theorem C97_order :
  forall (t : traits) (f : format) (bits1 bits2 : Z) (ss1 ss2 : sstr) (precision : nat) (x1 x2 : extended),
  t = float_traits /\ f = binary32 \/ t = double_traits /\ f = binary64 ->
  pattern f bits1 -> pattern f bits2 -> wf ss1 -> wf ss2 -> (1 <= precision)%nat ->
  number_value (number_of f bits1) = Some x1 -> number_value (number_of f bits2) = Some x2 ->
  exists T1 y1 T2 y2,
    (exists ss' b, append_float t ss1 bits1 precision = Ok (ss', b) /\ wf ss' /\ vcap ss' = vcap ss1 /\
       vcontent ss' = firstn (vcap ss1) (vcontent ss1 ++ T1) /\ b = (length (vcontent ss1 ++ T1) <=? vcap ss1)%nat) /\
    (exists ss' b, append_float t ss2 bits2 precision = Ok (ss', b) /\ wf ss' /\ vcap ss' = vcap ss2 /\
       vcontent ss' = firstn (vcap ss2) (vcontent ss2 ++ T2) /\ b = (length (vcontent ss2 ++ T2) <=? vcap ss2)%nat) /\
    reads T1 y1 /\ reads T2 y2 /\ (at_most x1 x2 -> at_most y1 y2) /\ (at_most x2 x1 -> at_most y2 y1).
Proof. exact printed_in_order. Qed.
Print Assumptions C97_order.

(** C97. A text is read as one number only. *)
Theorem C97_reading : forall (t : list Ascii.ascii) (x y : extended), reads t x -> reads t y -> same x y.
Proof. exact read_once. Qed.
Print Assumptions C97_reading.

(** C97. In a check that compares two floats, or two doubles (with the precisions by default, evaluated by the
    compiler, or without std::to_chars), and fails, the numbers shown are not the wrong way round for the operator
    shown, which holds of the operands. *)
Theorem C97_checks :
  forall (ev : evaluation) (max : nat) (all expected : bool) (macro source : text) (apply : comparisons value value) (o : operator)
         (make : Z -> value) (f : format) (bits1 bits2 : Z) (x1 x2 : extended),
  (ev = AtCompileTime \/ exists g1 g2, ev = AtRunTime None g1 g2) ->
  make = Float /\ f = binary32 \/ make = Double /\ f = binary64 ->
  pattern f bits1 -> pattern f bits2 ->
  number_value (number_of f bits1) = Some x1 -> number_value (number_of f bits2) = Some x2 ->
  (apply o (make bits1) (make bits2) = true <-> holds o x1 x2) ->
  exists A B y1 y2 p e,
    binary_built_in ev max all expected macro source apply o (make bits1) (make bits2) = Ok e /\
    (x_success e = true <-> (holds o x1 x2 <-> expected = true)) /\
    (x_success e = false -> vcontent (x_actual e) = kept max (A ++ written p ++ B)) /\
    (p = o \/ p = opposite o) /\ holds p x1 x2 /\ reads A y1 /\ reads B y2 /\ not_reversed p y1 y2.
Proof. exact checks_not_reversed. Qed.
Print Assumptions C97_checks.

(** C97 does not hold for operands of different types, which are not printed with the same number of digits:
    [CHECK(0.1f <= 0.1000000005)] fails, because 0.1f is the larger number, and shows 1.000000e-01 > 1.000000005000000e-01. *)
Theorem C97_types_refuted :
  exists A B e,
    binary_built_in AtCompileTime 1024 false true (lit "CHECK") (lit "a <= b") (fun _ _ _ => false) LessEqual (Float 0x3DCCCCCD) (Double 0x3FB999999BBF5B17) = Ok e /\
    x_success e = false /\ vcontent (x_actual e) = A ++ written Greater ++ B /\
    exists x1 x2 y1 y2, number_value (number_of binary32 0x3DCCCCCD) = Some x1 /\ number_value (number_of binary64 0x3FB999999BBF5B17) = Some x2 /\
      holds Greater x1 x2 /\ reads A y1 /\ reads B y2 /\ holds Less y1 y2.
Proof. exact types_reversed. Qed.
Print Assumptions C97_types_refuted.

Definition printed_float (t : traits) (bits : Z) (precision : nat) : res (str * bool) :=
  do (ss, b) <- append_float t (new_string 30) bits precision ;; Ok (vcontent ss, b).

(** The largest double below 1 and 1 with 16 and with 15 digits; both zeros; a failed check of -0.25 < -0.5. *)
Example C97_example :
  number_value (number_of binary64 0x3FEFFFFFFFFFFFFF) = Some (Real (binary 0x1FFFFFFFFFFFFF (-53))) /\
  at_most (Real (binary 0x1FFFFFFFFFFFFF (-53))) (Real (binary 0x10000000000000 (-52))) /\
  printed_float double_traits 0x3FEFFFFFFFFFFFFF 16 = Ok (lit "9.999999999999999e-01", true) /\
  printed_float double_traits 0x3FF0000000000000 16 = Ok (lit "1.000000000000000e+00", true) /\
  printed_float double_traits 0x3FEFFFFFFFFFFFFF 15 = Ok (lit "1.00000000000000e+00", true) /\
  printed_float float_traits 0x80000000 7 = Ok (lit "-0.000000e+00", true) /\ printed_float float_traits 0 7 = Ok (lit "0.000000e+00", true) /\
  (exists e, binary_built_in AtCompileTime 1024 false true (lit "CHECK") (lit "a < b") (fun _ _ _ => false) Less (Float 0xBE800000) (Float 0xBF000000) = Ok e /\
             vcontent (x_actual e) = lit "-2.500000e-01 >= -5.000000e-01") /\
  ~ holds Less (Real (- (1 # 4))) (Real (- (1 # 2))) /\ not_reversed GreaterEqual (Real (- (1 # 4))) (Real (- (1 # 2))).
Proof.
  split; [vm_compute; reflexivity|]. split; [vm_compute; discriminate|]. do 5 (split; [vm_compute; reflexivity|]). split; [eexists; split; vm_compute; reflexivity|].
  split; [intros (_ & H); apply H; vm_compute; discriminate|vm_compute; discriminate].
Qed.
