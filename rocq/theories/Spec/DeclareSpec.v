(** Names of types, declarations of test cases (README.md:288-328), and filters that select one test (C68-C70). No
    reference to the model. *)
From Coq Require Import Arith Ascii String Bool List.
From Verif.Spec Require Import TextSpec FilterSpec.
Import ListNotations.
Local Open Scope list_scope.

(** ** Names of types (C68) *)

(** What each compiler gives as the signature of [get_type_name<T>], given its spelling of T. *)
Inductive compiler := Clang | Gcc | Msvc.
Definition before_type (c : compiler) : text :=
  match c with
  | Clang => quote "std::string_view snitch::impl::get_type_name() [T = "
  | Gcc => quote "constexpr std::string_view snitch::impl::get_type_name() [with T = "
  | Msvc => quote "class std::basic_string_view<char,struct std::char_traits<char> > __cdecl snitch::impl::get_type_name<"
  end.
Definition after_type (c : compiler) : text :=
  match c with
  | Clang => quote "]"
  | Gcc => quote "; std::string_view = std::basic_string_view<char>]"
  | Msvc => quote ">(void) noexcept"
  end.
Definition signature (c : compiler) (type : text) : text := before_type c ++ type ++ after_type c.

(** The text by which the end of the type is recognised. *)
Definition ender (c : compiler) : text :=
  match c with Clang => quote "]" | Gcc => quote "; " | Msvc => quote ">(void)" end.

(** ** Declarations (C69). Types are given by their spelling. *)
Inductive declaration {B : Type} :=
| TestCase (name tags : text) (line : nat) (body : B)
| TemplateTestCase (name tags : text) (types : list text) (line : nat) (body : text -> B)
| TemplateListTestCase (name tags : text) (template : text) (types : list text) (line : nat) (body : text -> B)
| TestCaseMethod (fixture name tags : text) (line : nat) (body : B)
| TemplateTestCaseMethod (fixture name tags : text) (types : list text) (line : nat) (body : text -> B)
| TemplateListTestCaseMethod (fixture name tags : text) (template : text) (types : list text) (line : nat) (body : text -> B).
Arguments declaration : clear implicits.

(** The test cases declared: one, or one for each type. *)
Record instance {B : Type} := mkinstance { i_name : text; i_tags : text; i_type : text; i_fixture : text; i_line : nat; i_body : B }.
Arguments instance : clear implicits.
Definition instances {B} (d : declaration B) : list (instance B) :=
  match d with
  | TestCase name tags line body => [mkinstance _ name tags [] [] line body]
  | TemplateTestCase name tags types line body | TemplateListTestCase name tags _ types line body =>
    map (fun t => mkinstance _ name tags t [] line (body t)) types
  | TestCaseMethod fixture name tags line body => [mkinstance _ name tags [] fixture line body]
  | TemplateTestCaseMethod fixture name tags types line body | TemplateListTestCaseMethod fixture name tags _ types line body =>
    map (fun t => mkinstance _ name tags t fixture line (body t)) types
  end.

(** Declarations that compile (there is at least one type) and whose types are named exactly (C68). *)
Definition types_of {B} (d : declaration B) : option (list text) :=
  match d with
  | TestCase _ _ _ _ | TestCaseMethod _ _ _ _ _ => None
  | TemplateTestCase _ _ types _ _ | TemplateListTestCase _ _ _ types _ _
  | TemplateTestCaseMethod _ _ _ types _ _ | TemplateListTestCaseMethod _ _ _ _ types _ _ => Some types
  end.
Definition declarable {B} (c : compiler) (d : declaration B) : Prop :=
  forall types, types_of d = Some types -> types <> [] /\ Forall (fun t => ~ occurs (ender c) t) types.

(** ** Filters that stand for themselves (C70): a backslash before each character that has a meaning in filters or at
    the start of a command-line argument. *)
Definition special : text := quote "*\,[]~-".
Definition escaped (s : text) : text := flat_map (fun c => if in_dec ascii_dec c special then [bslash; c] else [c]) s.
