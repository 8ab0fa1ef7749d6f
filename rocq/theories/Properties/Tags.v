(** Property C82: tag strings of any form. *)
From Verif.Model Require Import Base Vector StringUtil Filter.
From Verif.Spec Require Import TextSpec FilterSpec TagSpec.
From Verif.Proofs Require Import FilterProofs TagProofs.

(** C82. Every string given as tags is either refused or read in exactly one way. *)
Theorem C82_one_reading :
  forall (mt : nat) (s : text),
  ((exists has, read_as mt s has) \/ unreadable mt s) /\
  (forall has has', read_as mt s has -> read_as mt s has' -> has = has') /\
  (forall has, read_as mt s has -> ~ unreadable mt s).
Proof. exact one_reading. Qed.
Print Assumptions C82_one_reading.

(** The library reads it that way: these are the tags it gives to everything that asks for them, in order, and the
    special tags are recognised among them. *)
Theorem C82_tags :
  forall (mt : nat) (s : text),
  (unreadable mt s -> for_each_tag mt s = Err Assert) /\
  (forall has, read_as mt s has -> exists l, for_each_tag mt s = Ok l /\
    flat_map (fun t => match t with Visible s _ => [s] | _ => [] end) l = has /\
    (existsb is_hidden l = true <-> In (quote "[.]") has) /\
    (existsb is_may_fail l = true <-> In (quote "[!mayfail]") has) /\
    (existsb is_should_fail l = true <-> In (quote "[!shouldfail]") has)).
Proof. exact tags_read. Qed.
Print Assumptions C82_tags.

(** Filters, hidden tests, and tests that may or should fail then follow the documented rules for these tags: the
    theorems C12-C14 for a string of any form. *)
Theorem C82_selection :
  forall (mt mn : nat) (filters : list text) (id : test_id) (has : list text),
  read_as mt (id_tags id) has ->
  (length (full_name_of (id_name id) (id_type id)) <= mn -> filters <> [] ->
   exists b, cli_selects mt mn filters id = Ok b /\ (b = true <-> selected_in (full_name_of (id_name id) (id_type id)) has filters)) /\
  (exists b, default_selects mt id = Ok b /\ (b = true <-> ~ In (quote "[.]") has)) /\
  (forall f, exists r, is_filter_match_tags mt (id_tags id) f = Ok r /\ (included r = true <-> tags_hold_in has f)).
Proof. exact selection_any. Qed.
Print Assumptions C82_selection.

Theorem C82_failures :
  forall (mt : nat) (s : text) (has : list text), read_as mt s has ->
  exists may should, fail_flags mt s = Ok (may, should) /\
    (may = true <-> In (quote "[!mayfail]") has) /\ (should = true <-> In (quote "[!shouldfail]") has).
Proof. exact reading_used. Qed.
Print Assumptions C82_failures.

(** A refused string is refused by everything that reads the tags. *)
Theorem C82_refused :
  forall (mt : nat) (id : test_id), unreadable mt (id_tags id) ->
  default_selects mt id = Err Assert /\ fail_flags mt (id_tags id) = Err Assert /\
  (forall f, is_filter_match_tags mt (id_tags id) f = Err Assert).
Proof. exact refused_everywhere. Qed.
Print Assumptions C82_refused.

(** A well-formed string is read as the tags it was written from: [read_as] extends C16. *)
Theorem C82_well_formed :
  forall (mt : nat) (tags : list text), well_formed mt tags -> read_as mt (tag_string tags) (tags_of tags).
Proof. exact well_formed_reading. Qed.
Print Assumptions C82_well_formed.

(** Anything that has both brackets, but no ["]["], is one tag. *)
Theorem C82_one_tag :
  forall (mt : nat) (s : text), ~ occurs (quote "][") s -> In "["%char s -> In "]"%char s -> ~ too_long mt s ->
  read_as mt s (tags_in s).
Proof. exact no_joint_one_tag. Qed.
Print Assumptions C82_one_tag.

(** So a mistyped string is not always refused: ["[a] [b]"] is not. *)
Theorem C82_mistyped_refuted :
  exists s l, for_each_tag 20 s = Ok l /\ ~ exists tags, Forall no_brackets tags /\ s = tag_string tags.
Proof. exact mistyped. Qed.
Print Assumptions C82_mistyped_refuted.

Example C82_example :
  for_each_tag 20 (lit "[a] [b]") = Ok [Visible (lit "[a] [b]") false] /\
  for_each_tag 20 (lit "x[a][.b") = Ok [Visible (lit "x[a]") false; Hidden; Visible (lit "[.]") false; Visible (lit "[b") true] /\
  for_each_tag 20 (lit "][a]") = Ok [Visible (lit "[a]") false] /\
  for_each_tag 20 (lit "[!mayfail] ") = Ok [Visible (lit "[!mayfail] ") false] /\
  for_each_tag 2 (lit "[a][.b]") = Err Assert /\
  cli_selects 20 20 [lit "[a]"] (mkid (lit "t") (lit "[a] [b]") [] []) = Ok false /\
  unreadable 2 (quote "[a][.b]") /\ read_as 20 (quote "][a]") [quote "[a]"] /\
  read_as 20 (quote "x[a][.b") [quote "x[a]"; quote "[.]"; quote "[b"].
Proof.
  repeat match goal with |- _ /\ _ => split end; try (vm_compute; reflexivity).
  - destruct (one_reading 2 (quote "[a][.b]")) as [[[has R]|U] _]; auto.
    apply read_as_reads in R as (l & E & _). vm_compute in E. discriminate.
  - destruct (one_reading 20 (quote "][a]")) as [[[has R]|U] _].
    + pose proof R as (l & E & V & _)%read_as_reads. vm_compute in E. injection E as <-. cbn in V. now rewrite <- V in R.
    + apply unreadable_assert in U. vm_compute in U. discriminate.
  - destruct (one_reading 20 (quote "x[a][.b")) as [[[has R]|U] _].
    + pose proof R as (l & E & V & _)%read_as_reads. vm_compute in E. injection E as <-. cbn in V. now rewrite <- V in R.
    + apply unreadable_assert in U. vm_compute in U. discriminate.
Qed.
