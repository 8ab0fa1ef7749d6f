(** Property C29: labels of captured expressions. *)
From Verif.Spec Require Import TextSpec FilterSpec CaptureSpec.
From Verif.Model Require Import Base Capture.
From Verif.Proofs Require Import CaptureProofs.

(** C29. For arguments made of plain text, literals without escaped quotes and balanced parentheses ([balanced],
    Spec/CaptureSpec.v), each value is labelled with the source text of its own argument, without the blanks around it.
    Missing: expressions with other brackets, escaped quotes or digit separators (see below). *)
Theorem C29_labels_partial :
  forall (args : list text) (values : list text), length args = length values ->
  Forall (fun a => balanced false a /\ (Z.of_nat (length a) <= 2147483647)%Z /\ Exists (fun c => ~ blank c) a) args ->
  exists names, Forall2 trimmed args names /\
    capture_texts (joined args) values = Ok (map (fun x => [fst x; quote " := "; snd x]) (List.combine names values)).
Proof. exact labels. Qed.
Print Assumptions C29_labels_partial.

(** The trimmed text is determined. *)
Theorem C29_trimmed_unique : forall s t t' : text, trimmed s t -> trimmed s t' -> t = t'.
Proof. exact trimmed_unique. Qed.
Print Assumptions C29_trimmed_unique.

(** Expressions that C++ sees as two arguments, but that are labelled wrongly: a digit separator hides the comma, and a
    comma in braces ends the label. *)
Theorem C29_digit_separator_refuted :
  capture_texts (quote "1'000, b") [quote "1000"; quote "2"] =
  Ok [[quote "1'000, b"; quote " := "; quote "1000"]; [[]; quote " := "; quote "2"]].
Proof. exact digit_separator. Qed.
Print Assumptions C29_digit_separator_refuted.

Theorem C29_braces_refuted :
  capture_texts (quote "f{1, 2}, b") [quote "3"; quote "4"] =
  Ok [[quote "f{1"; quote " := "; quote "3"]; [quote "2}"; quote " := "; quote "4"]].
Proof. exact braces. Qed.
Print Assumptions C29_braces_refuted.

(** A string literal made of one escaped quote; a comma between template arguments. *)
Theorem C29_escaped_quote_refuted :
  let q := [ascii_of_nat 34] in let literal := q ++ quote "\" ++ q ++ q in
  capture_texts (literal ++ quote ", b") [quote "1"; quote "2"] =
  Ok [[literal ++ quote ", b"; quote " := "; quote "1"]; [[]; quote " := "; quote "2"]].
Proof. exact escaped_quote. Qed.
Print Assumptions C29_escaped_quote_refuted.

Theorem C29_template_refuted :
  capture_texts (quote "f<1, 2>(), b") [quote "3"; quote "4"] =
  Ok [[quote "f<1"; quote " := "; quote "3"]; [quote "2>()"; quote " := "; quote "4"]].
Proof. exact template_arguments. Qed.
Print Assumptions C29_template_refuted.

Example C29_example :
  let q := [ascii_of_nat 34] in
  let args := [quote " f(x, (y), " ++ q ++ quote "a,(b" ++ q ++ quote ")"; quote " ','"; quote " z "] in
  Forall (fun a => balanced false a /\ (Z.of_nat (length a) <= 2147483647)%Z /\ Exists (fun c => ~ blank c) a) args /\
  capture_texts (joined args) [quote "1"; quote "2"; quote "3"] =
    Ok [[quote "f(x, (y), " ++ q ++ quote "a,(b" ++ q ++ quote ")"; quote " := "; quote "1"];
        [quote "','"; quote " := "; quote "2"]; [quote "z"; quote " := "; quote "3"]].
Proof.
  cbn zeta. split; [|vm_compute; reflexivity].
  assert (P : forall c, existsb (aeqb c) [","%char; "("%char; ")"%char; double_quote; single_quote] = false -> plain c).
  { intros c H N. rewrite <- not_true_iff_false in H. apply H. apply existsb_exists. exists c. split; [exact N|]. apply Ascii.eqb_refl. }
  assert (NB : forall c, existsb (aeqb c) blanks = false -> ~ blank c).
  { intros c H N. apply blank_spec in N. congruence. }
  assert (N : forall a, existsb (fun c => negb (existsb (aeqb c) blanks)) a = true -> Exists (fun c => ~ blank c) a).
  { intros a H. apply existsb_exists in H as (c & Hc & E). apply Exists_exists. exists c. split; [exact Hc|]. apply NB. now apply negb_true_iff. }
  repeat (apply Forall_cons; [split; [|split; [vm_compute; discriminate|apply N; vm_compute; reflexivity]]|]); [| | |constructor].
  - do 2 (apply bal_plain; [apply P; reflexivity|]).
    apply (bal_parens false (quote "x, (y), " ++ [ascii_of_nat 34] ++ quote "a,(b" ++ [ascii_of_nat 34]) []); [|constructor].
    apply bal_plain; [apply P; reflexivity|]. apply bal_comma. apply bal_plain; [apply P; reflexivity|].
    apply (bal_parens true (quote "y") (quote ", " ++ [ascii_of_nat 34] ++ quote "a,(b" ++ [ascii_of_nat 34])).
    + apply bal_plain; [apply P; reflexivity|constructor].
    + apply bal_comma. apply bal_plain; [apply P; reflexivity|]. apply (bal_string true (quote "a,(b") []); [|constructor]. cbn. intuition discriminate.
  - apply bal_plain; [apply P; reflexivity|]. apply (bal_char false (quote ",") []); [|constructor]. cbn. intuition discriminate.
  - repeat (apply bal_plain; [apply P; reflexivity|]). constructor.
Qed.
