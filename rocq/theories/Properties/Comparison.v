(** Property C91: checks that compare values of built-in types. *)
From Verif.Spec Require Import TextSpec FloatSpec FilterSpec ExpressionSpec ValueSpec CompareSpec.
From Verif.Model Require Import Base Vector StringUtil Values Expression Comparison.
From Verif.Proofs Require Import ComparisonProofs.

(** C91. A failed comparison of values of built-in types shows the texts of both values, with the operator or its
    opposite between them; or nothing, when that is too long. *)
Theorem C91_shown :
  forall (ev : evaluation) (constant : bool) (std : option (format -> Z -> text)) (max : nat),
  ev = AtCompileTime /\ constant = true /\ std = None \/
  (exists g1 g2, ev = AtRunTime std g1 g2 /\ constant = false /\ max <= length g1) ->
  (forall texts f bits, std = Some texts -> length (texts f bits) <= 32) ->
  forall (all expected : bool) (macro source : text) (apply : comparisons value value) (o : operator) (a b : value),
  possible a -> possible b ->
  exists A B e, shows constant std a A /\ shows constant std b B /\
    binary_built_in ev max all expected macro source apply o a b = Ok e /\
    x_type e = macro /\ x_expected e = source /\
    (x_success e = true <-> apply o a b = expected) /\
    (x_success e = false \/ all = true ->
       vcontent (x_actual e) = kept max (A ++ written (if apply o a b then o else opposite o) ++ B)) /\
    (x_success e = true -> all = false -> vcontent (x_actual e) = []).
Proof. exact binary_shown. Qed.
Print Assumptions C91_shown.

(** C91. Booleans, integers and enumerators of any two types, unless one is negative and the other of an unsigned type
    that is not narrower: the check succeeds exactly when the comparison of the two numbers is true (or false, for
    the macros that expect that), and what is shown is a true statement about the two numbers. *)
Theorem C91_truth :
  forall (ev : evaluation) (constant : bool) (std : option (format -> Z -> text)) (max : nat),
  ev = AtCompileTime /\ constant = true /\ std = None \/
  (exists g1 g2, ev = AtRunTime std g1 g2 /\ constant = false /\ max <= length g1) ->
  (forall texts f bits, std = Some texts -> length (texts f bits) <= 32) ->
  forall (all expected : bool) (macro source : text) (o : operator) (a b : value) (x y : Z),
  possible a -> possible b -> number a x -> number b y ->
  (forall w, ~ misread a b w) -> (forall w, ~ misread b a w) ->
  exists A B e p, shows constant std a A /\ shows constant std b B /\
    binary_built_in ev max all expected macro source compare_values o a b = Ok e /\
    (x_success e = true <-> (relation o x y <-> expected = true)) /\
    (x_success e = false -> vcontent (x_actual e) = kept max (A ++ written p ++ B)) /\
    (p = o \/ p = opposite o) /\ relation p x y.
Proof. exact truth_shown. Qed.
Print Assumptions C91_truth.

(** C91. In the excepted case the negative number is taken for another one, on either side. *)
Theorem C91_misread :
  forall (o : operator) (a b : value) (x y : Z) (w : nat),
  number a x -> number b y -> possible a -> possible b -> misread a b w ->
  (compare_values o a b = true <-> relation o (x + 2 ^ Z.of_nat w)%Z y).
Proof. exact compare_misread. Qed.
Print Assumptions C91_misread.
Theorem C91_misread_right :
  forall (o : operator) (a b : value) (x y : Z) (w : nat),
  number a x -> number b y -> possible a -> possible b -> misread b a w ->
  (compare_values o a b = true <-> relation o x (y + 2 ^ Z.of_nat w)%Z).
Proof. exact compare_misread_right. Qed.
Print Assumptions C91_misread_right.

(** C91. Then what is shown is not always true: such a check that [a < b] fails although it is true of the numbers, and
    shows [a >= b]. *)
Theorem C91_always_true_refuted :
  forall (ev : evaluation) (constant : bool) (std : option (format -> Z -> text)) (max : nat),
  ev = AtCompileTime /\ constant = true /\ std = None \/
  (exists g1 g2, ev = AtRunTime std g1 g2 /\ constant = false /\ max <= length g1) ->
  (forall texts f bits, std = Some texts -> length (texts f bits) <= 32) ->
  forall (all : bool) (macro source : text) (a b : value) (x y : Z) (w : nat),
  possible a -> possible b -> number a x -> number b y -> misread a b w -> (y <= x + 2 ^ Z.of_nat w)%Z ->
  (x < y)%Z /\
  exists A B e, shows constant std a A /\ shows constant std b B /\
    binary_built_in ev max all true macro source compare_values Less a b = Ok e /\
    x_success e = false /\ vcontent (x_actual e) = kept max (A ++ written GreaterEqual ++ B).
Proof. exact wrong_shown. Qed.
Print Assumptions C91_always_true_refuted.

(** C91. Failed comparisons of values of the same types among bool, integers and enumerations that show the same (and
    do show something) compared the same values, whatever their operators. *)
Theorem C91_identified :
  forall (ev : evaluation) (constant : bool) (std : option (format -> Z -> text)) (max : nat),
  ev = AtCompileTime /\ constant = true /\ std = None \/
  (exists g1 g2, ev = AtRunTime std g1 g2 /\ constant = false /\ max <= length g1) ->
  (forall texts f bits, std = Some texts -> length (texts f bits) <= 32) ->
  forall (all expected : bool) (macro source : text) (apply : comparisons value value) (o : operator) (a b : value) (e : expression)
         (all' expected' : bool) (macro' source' : text) (apply' : comparisons value value) (o' : operator) (a' b' : value) (e' : expression),
  comparable a a' -> comparable b b' -> possible a -> possible b -> possible a' -> possible b' ->
  binary_built_in ev max all expected macro source apply o a b = Ok e ->
  binary_built_in ev max all' expected' macro' source' apply' o' a' b' = Ok e' ->
  x_success e = false -> x_success e' = false ->
  vcontent (x_actual e) = vcontent (x_actual e') -> vcontent (x_actual e) <> [] ->
  a = a' /\ b = b'.
Proof. exact message_identifies. Qed.
Print Assumptions C91_identified.

(** C91. A check of one boolean, integer or enumerator: it succeeds exactly when the number is not zero (or is zero, for
    the macros that expect that), and shows the value if it fails. *)
Theorem C91_single :
  forall (ev : evaluation) (constant : bool) (std : option (format -> Z -> text)) (max : nat),
  ev = AtCompileTime /\ constant = true /\ std = None \/
  (exists g1 g2, ev = AtRunTime std g1 g2 /\ constant = false /\ max <= length g1) ->
  (forall texts f bits, std = Some texts -> length (texts f bits) <= 32) ->
  forall (all expected : bool) (macro source : text) (a : value) (x : Z),
  possible a -> number a x ->
  exists A e, shows constant std a A /\
    unary_built_in ev max all expected macro source truth a = Ok e /\
    (x_success e = true <-> (x <> 0%Z <-> expected = true)) /\
    (x_success e = false -> vcontent (x_actual e) = kept max A).
Proof. exact unary_truth_shown. Qed.
Print Assumptions C91_single.

Definition shown_by (r : res expression) : option (text * bool) :=
  match r with Ok e => Some (vcontent (x_actual e), x_success e) | Err _ => None end.

(** Checks of an int with a short, of an int with an unsigned (misread), of an enumerator, of a text that does not fit. *)
Example C91_example :
  let ev := AtRunTime None [] [] in
  let check max := binary_built_in ev max false true (quote "CHECK") (quote "a < b") compare_values in
  possible (Integer true 32 (-1)) /\ possible (Integer false 16 65535) /\ possible (Integer false 32 1) /\
  (forall w, ~ misread (Integer true 32 (-1)) (Integer false 16 65535) w) /\
  (forall w, ~ misread (Integer false 16 65535) (Integer true 32 (-1)) w) /\
  misread (Integer true 32 (-1)) (Integer false 32 1) 32 /\
  shown_by (check 100 Less (Integer true 32 (-1)) (Integer false 16 65535)) = Some ([], true) /\
  shown_by (check 100 GreaterEqual (Integer true 32 (-1)) (Integer false 16 65535)) = Some (quote "-1 < 65535", false) /\
  shown_by (check 100 Less (Integer true 32 (-1)) (Integer false 32 1)) = Some (quote "-1 >= 1", false) /\
  shown_by (check 100 Equal (Enumerator (Integer true 32 5)) (Enumerator (Integer true 32 7))) = Some (quote "5 != 7", false) /\
  shown_by (check 9 GreaterEqual (Integer true 32 (-1)) (Integer false 16 65535)) = Some ([], false) /\
  shown_by (unary_built_in ev 100 false true (quote "CHECK") (quote "a") truth (Integer true 32 0)) = Some (quote "0", false).
Proof.
  repeat split; try (vm_compute; reflexivity); try (constructor; [lia|cbn; lia]).
  - intros w (n & z & _ & _ & _ & C & _). inversion C; subst; lia.
  - intros w (n & z & C & N & L & _). inversion N; subst. lia.
  - exists 32, (-1)%Z. repeat split; try constructor; lia.
Qed.
