(** Code and tests in the same file, with snitch disabled (README.md:68) (C93). No reference to the model. *)
From Coq Require Import List Bool.
From Verif.Spec Require Import TextSpec RunSpec DeclareSpec UserCodeSpec.
Import ListNotations.
Local Open Scope list_scope.

(** The macros that take code of the user, by the documentation (README.md:330-470). *)
Inductive time := AtRun | Constexpr | Consteval.
Inductive check_macro :=
| Truth (t : time) (require negated : bool)            (* CHECK, REQUIRE, CHECK_FALSE, REQUIRE_FALSE, and their CONSTEXPR_ ... *)
| That (t : time) (require : bool)                     (* CHECK_THAT, ... *)
| ThrowsAs (require : bool) | ThrowsMatches (require : bool) | NoThrow (require : bool)
| Capture | Info.
(** The macros that take a message only. *)
Inductive message_macro := Succeed | Fail | FailCheck | Skip | SkipCheck.

Section World.
Variable W : Type. (* the objects of the program *)

(** The body of a function or of a test: ordinary statements, and macros with the expressions written in them. *)
Inductive statement :=
| Ordinary (f : user_code W unit)
| Checking (m : check_macro) (operands : list (user_code W unit))
| Telling (m : message_macro) (text : user_code W unit)
| Section_ (name : user_code W unit) (body : list statement).

(** The ordinary statements that are not in a section, in order. *)
Definition without_snitch (body : list statement) : list (user_code W unit) :=
  flat_map (fun s => match s with Ordinary f => [f] | _ => [] end) body.
Fixpoint in_order (l : list (user_code W unit)) : user_code W unit :=
  match l with
  | [] => giving tt
  | f :: l' => and_then f (fun _ => in_order l')
  end.

(** What a source file contains. *)
Inductive item :=
| Test (d : declaration (list statement))
| ReporterType (name type : text) | ReporterCallbacks (name : text)
| Function (name : text) (body : list statement).

(** The functions of the file, without what snitch provides. *)
Definition functions (items : list item) : list (text * user_code W unit) :=
  flat_map (fun i => match i with Function n b => [(n, in_order (without_snitch b))] | _ => [] end) items.

(** The declarations that are refused when snitch is disabled: those with a list of types, and those of templates of fixtures. *)
Definition refused (i : item) : bool :=
  match i with
  | Test (TemplateListTestCase _ _ _ _ _ _) | Test (TemplateTestCaseMethod _ _ _ _ _ _) | Test (TemplateListTestCaseMethod _ _ _ _ _ _ _) => true
  | _ => false
  end.
End World.
Arguments Ordinary {W}. Arguments Checking {W}. Arguments Telling {W}. Arguments Section_ {W}.
Arguments Test {W}. Arguments ReporterType {W}. Arguments ReporterCallbacks {W}. Arguments Function {W}.
Arguments without_snitch {W}. Arguments in_order {W}. Arguments functions {W}. Arguments refused {W}.
