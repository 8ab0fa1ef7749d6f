(** Model of the names of types (include/snitch/snitch_type_name.hpp) and of the declaration of test cases
    (include/snitch/snitch_macros_test_case.hpp, include/snitch/snitch_registry.hpp:221-281). As in Model/Run.v,
    SNITCH_ENABLE is set. *)
From Verif.Spec Require Import TextSpec FilterSpec Events DeclareSpec. (* only for the vocabulary of declarations *)
From Verif.Model Require Import Base Vector StringUtil Filter Run.

(** snitch_type_name.hpp:9-32 [get_type_name]: [prefix] and [suffix] of each compiler. *)
Definition type_prefix (c : compiler) : str :=
  match c with Clang => lit "[T = " | Gcc => lit "with T = " | Msvc => lit "get_type_name<" end.
Definition type_suffix (c : compiler) : str :=
  match c with Clang => lit "]" | Gcc => lit "; " | Msvc => lit ">(void)" end.

(** 27-31. [npos + prefix.size()] and [end - start] with [end < start] would wrap around; [substr] takes what there is if
    [end] is [npos]. The compiler evaluates this function. *)
Definition get_type_name (prefix suffix function : str) : res str :=
  do start <- (match find function prefix with Some p => Ok (p + length prefix) | None => Err Wrap end) ;;
  match find function suffix with
  | None => Ok (skipn start function)
  | Some p => do size <- csub p start ;; Ok (substr function start size)
  end.

(** snitch_type_name.hpp:36-37 [type_name]. *)
Definition type_name (c : compiler) (type : str) : res str :=
  get_type_name (type_prefix c) (type_suffix c) (signature c type).

Section Declare.
Variable c : compiler.
Variable max_tests mn : nat. (* max_test_cases, max_test_name_length *)

(** src/snitch_registry.cpp:351-377 [add_impl]; the printed error messages are not modelled. The vector is given by its
    content. *)
Definition add_impl (tests : list test_case) (id : test_id) (line : nat) (func : prog) : res (list test_case) :=
  do av <- csub max_tests (length tests) ;;
  if av =? 0 then Err Assert
  else
    let tests1 := tests ++ [mktest id line func] in
    do full <- make_full_name mn id ;;
    match full with [] => Err Assert | _ => Ok tests1 end.

(** src/snitch_registry.cpp:379-382 [add]. *)
Definition add (tests : list test_case) (name tags : str) (line : nat) (func : prog) : res (list test_case) :=
  add_impl tests (mkid name tags [] []) line func.

(** src/snitch_registry.cpp:384-388 [add_fixture]. *)
Definition add_fixture (tests : list test_case) (fixture name tags : str) (line : nat) (func : prog) : res (list test_case) :=
  add_impl tests (mkid name tags [] fixture) line func.

(** The fold over the types, snitch_registry.hpp:237-241 and 266-270: from left to right. *)
Fixpoint add_each (tests : list test_case) (id_of : str -> test_id) (types : list str) (line : nat) (func : str -> prog) : res (list test_case) :=
  match types with
  | [] => Ok tests
  | t :: types' =>
    do name <- type_name c t ;;
    do tests1 <- add_impl tests (id_of name) line (func t) ;;
    add_each tests1 id_of types' line func
  end.

(** snitch_registry.hpp:233-242 [add_with_types]; an empty list does not compile, here [Assert]. *)
Definition add_with_types (tests : list test_case) (types : list str) (name tags : str) (line : nat) (func : str -> prog) : res (list test_case) :=
  match types with
  | [] => Err Assert
  | _ => add_each tests (fun type => mkid name tags type []) types line func
  end.

(** snitch_registry.hpp:245-252 [add_with_type_list]: the template [TL] of the list is ignored. *)
Definition add_with_type_list (tests : list test_case) (template : str) (types : list str) (name tags : str) (line : nat) (func : str -> prog) : res (list test_case) :=
  match types with
  | [] => Err Assert
  | _ => add_with_types tests types name tags line func
  end.

(** snitch_registry.hpp:263-271 [add_fixture_with_types]. An empty list does not compile either (nothing to return). *)
Definition add_fixture_with_types (tests : list test_case) (types : list str) (fixture name tags : str) (line : nat) (func : str -> prog) : res (list test_case) :=
  match types with
  | [] => Err Assert
  | _ => add_each tests (fun type => mkid name tags type fixture) types line func
  end.

(** snitch_registry.hpp:275-281 [add_fixture_with_type_list]. *)
Definition add_fixture_with_type_list (tests : list test_case) (template : str) (types : list str) (fixture name tags : str) (line : nat) (func : str -> prog) : res (list test_case) :=
  add_fixture_with_types tests types fixture name tags line func.

(** snitch_macros_test_case.hpp:8-97: what each macro calls when the program starts. Simplification: the body of a test
    with a fixture includes the construction and destruction of the fixture (54, 71, 89). The last two macros are modelled
    as if [<typename TestType>] stood before [()] in 71 and 89; as it stands the lambda is not valid C++. *)
Definition declare (tests : list test_case) (d : declaration prog) : res (list test_case) :=
  match d with
  | TestCase name tags line body => add tests name tags line body
  | TemplateTestCase name tags types line body => add_with_types tests types name tags line body
  | TemplateListTestCase name tags template types line body => add_with_type_list tests template types name tags line body
  | TestCaseMethod fixture name tags line body => add_fixture tests fixture name tags line body
  | TemplateTestCaseMethod fixture name tags types line body => add_fixture_with_types tests types fixture name tags line body
  | TemplateListTestCaseMethod fixture name tags template types line body => add_fixture_with_type_list tests template types fixture name tags line body
  end.

(** The declarations of a program, in the order in which their initialisers are executed. *)
Fixpoint declare_all (tests : list test_case) (l : list (declaration prog)) : res (list test_case) :=
  match l with
  | [] => Ok tests
  | d :: l' => do tests1 <- declare tests d ;; declare_all tests1 l'
  end.
End Declare.
