(** Programs that list their tests (C109). No reference to the model. *)
From Coq Require Import Arith Ascii String Bool List.
From Verif.Spec Require Import TextSpec FilterSpec Events SessionSpec XmlSpec CutXmlSpec.
Import ListNotations.
Local Open Scope list_scope.

(** A command line that asks for the list of the tests with a tag, or for the list of the tests. The other options that ask
    for something else than a run have priority over the second, and only --help has over the first. *)
Definition asks_list (setting_of : text -> option (option text)) : Prop :=
  setting_of (quote "--help") = None /\
  (setting_of (quote "--list-tests-with-tag") <> None \/
   (forall n, In n actions -> setting_of n = None) /\ setting_of (quote "--list-tests") <> None).

(** A test with this full name and these tags is in the list. Without filters all tests are, the hidden ones too. *)
Definition in_list (setting_of : text -> option (option text)) (filters : list text) (name : text) (tags : list text) : Prop :=
  match setting_of (quote "--list-tests-with-tag") with
  | Some (Some tag) => tags_hold tags tag
  | _ => filters = [] \/ selected name tags filters
  end.

(** What is reported of a listing. *)
Definition listing_events {ID} (tests : list (ID * nat)) : list (event ID) :=
  [ListTestRunStarted] ++ map (fun t => TestCaseListed (fst t) (snd t)) tests ++ [ListTestRunEnded].

(** The listing as an XML document: one element for each test. [field] and [name_of] give what is printed of a text and of the
    full name of a test. *)
Section Xml.
Context {ID : Type}.
Variable field : text -> text.
Variable name_of : ID -> text.
Variables tags fixture : ID -> text.
Variable file : event ID -> text.
Variable shown : nat -> text.
Definition test_lines (t : ID * nat) : list xml_line :=
  [Start (quote "TestCase") [];
   whole (quote "Name") (name_of (fst t)); whole (quote "ClassName") (field (fixture (fst t))); whole (quote "Tags") (field (tags (fst t)));
   Start (quote "SourceInfo") []; whole (quote "File") (field (file (TestCaseListed (fst t) (snd t)))); whole (quote "Line") (number_of shown (snd t)); Stop (quote "SourceInfo");
   Stop (quote "TestCase")].
Definition drawn_listing (tests : list (ID * nat)) : text :=
  snd (drawn 0 ([Contents declaration; Start (quote "MatchingTests") []] ++ flat_map test_lines tests ++ [Stop (quote "MatchingTests")])).
End Xml.
