(** Registration of tests and reporters when it fails (C78). No reference to the model. *)
From Coq Require Import NArith Arith Ascii String Bool List.
From Verif.Spec Require Import TextSpec FilterSpec NumberSpec RunSpec.
Import ListNotations.
Local Open Scope list_scope.

(** Why a registration is refused, the message for the handler of failed assertions, and the explanation printed, given
    the limit that is exceeded, in decimal. *)
Inductive refusal := TooManyTests | NameTooLong | TooManyReporters | InvalidReporter (name : text).
Definition message (why : refusal) : text :=
  match why with
  | TooManyTests => quote "max number of test cases reached"
  | NameTooLong => quote "test case name exceeds max length"
  | TooManyReporters => quote "max number of reporters reached"
  | InvalidReporter _ => quote "invalid reporter name"
  end.
Definition explanation (why : refusal) (limit : text) : text :=
  let line_feed := [ascii_of_nat 10] in
  match why with
  | TooManyTests =>
    quote " max number of test cases reached; please increase 'SNITCH_MAX_TEST_CASES' (currently " ++ limit ++ quote ")." ++ line_feed
  | NameTooLong =>
    quote " max length of test name reached; please increase 'SNITCH_MAX_TEST_NAME_LENGTH' (currently " ++ limit ++ quote ")" ++ line_feed ++ quote "."
  | TooManyReporters =>
    quote " max number of reporters reached; please increase 'SNITCH_MAX_REGISTERED_REPORTERS' (currently " ++ limit ++ quote ")." ++ line_feed
  | InvalidReporter name =>
    quote " reporter name cannot contains '::' (trying to register '" ++ name ++ quote "')" ++ line_feed ++ quote "."
  end.

(** The texts [printed] are the explanation, after [prefix]. *)
Definition explained (prefix : text) (why : refusal) (limit : nat) (printed : list text) : Prop :=
  exists digits, writes 10 digits (N.of_nat limit) /\ List.concat printed = prefix ++ explanation why digits.

(** What a list of attempts should leave registered: the first ones that are [acceptable], as many as there is room for. *)
Definition kept {A} (acceptable : A -> bool) (room : nat) (attempts : list A) : list A := firstn room (filter acceptable attempts).

(** The name of a test fits: its text is neither empty nor longer than the limit. *)
Definition name_fits (limit : nat) (name type : text) : bool :=
  let n := length (full_name_of name type) in (1 <=? n) && (n <=? limit).

(** The attempts that did not fail, given what the handler was told for each. *)
Definition accepted {A} (attempted : list A) (told : list (option text)) : list A :=
  map fst (filter (fun x => match snd x with None => true | Some _ => false end) (List.combine attempted told)).
