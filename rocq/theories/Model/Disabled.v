(** Model of the macros, and of [main], with [SNITCH_ENABLE] set to 0: include/snitch/snitch_macros_*.hpp,
    src/snitch_main.cpp. The preprocessor is modelled as a function from uses of macros to C++ statements and
    declarations, of which only what matters here is kept: whether operands are evaluated, what is executed, what is
    initialised before [main], and what may stand outside functions. *)
From Verif.Spec Require Import TextSpec RunSpec DeclareSpec UserCodeSpec DisabledSpec. (* only for the vocabulary of source files *)
From Verif.Model Require Import Base.

Section Disabled.
Context {W : Type}.

(** Statements of C++. [sizeof] does not evaluate its operand. *)
Inductive cpp :=
| Execute (f : user_code W unit)
| DoOnceSizeof (operands : list (user_code W unit)) (* do { static_cast<void>(sizeof(a, ..., 0)); } while (0) *)
| VoidZero                                          (* static_cast<void>(0) *)
| IfConstexpr (condition : bool) (body : list cpp).

(** snitch_macros_utility.hpp:14-21 [SNITCH_DISCARD_ARGS]. The warnings that are disabled are left out. *)
Definition discard_args (operands : list (user_code W unit)) : cpp := DoOnceSizeof operands.

(** snitch_macros_check.hpp:89-92, 100-101, snitch_macros_constexpr.hpp:89-94, snitch_macros_consteval.hpp:58-63,
    snitch_macros_exceptions.hpp:135-140, snitch_macros_misc.hpp:25-26. In [THROWS_AS] and [THROWS_MATCHES] the exception
    type is an operand of [sizeof], which evaluates nothing; it is left out. *)
Definition expand_check (m : check_macro) (operands : list (user_code W unit)) : cpp :=
  match m with
  | Truth AtRun _ _ => discard_args operands
  | Truth Constexpr _ _ => discard_args operands
  | Truth Consteval _ _ => discard_args operands
  | That AtRun _ => discard_args operands
  | That Constexpr _ => discard_args operands
  | That Consteval _ => discard_args operands
  | ThrowsAs _ => discard_args operands
  | ThrowsMatches _ => discard_args operands
  | NoThrow _ => discard_args operands
  | Capture => discard_args operands
  | Info => discard_args operands
  end.

(** snitch_macros_check.hpp:94-98: [MESSAGE] does not occur in the expansion. *)
Definition expand_message (m : message_macro) : cpp :=
  match m with
  | Succeed => VoidZero
  | Fail => VoidZero
  | FailCheck => VoidZero
  | Skip => VoidZero
  | SkipCheck => VoidZero
  end.

(** snitch_macros_misc.hpp:24 [SNITCH_SECTION]: the block that follows is the branch of an [if constexpr (false)]. *)
Fixpoint expand (s : statement W) : cpp :=
  match s with
  | Ordinary f => Execute f
  | Checking m operands => expand_check m operands
  | Telling m _ => expand_message m
  | Section_ _ body => IfConstexpr false ((fix each l := match l with [] => [] | x :: l' => expand x :: each l' end) body)
  end.
Definition expand_body (body : list (statement W)) : list cpp := map expand body.

(** Execution of statements, in the sense of C++. *)
Fixpoint execute (s : cpp) : user_code W unit :=
  match s with
  | Execute f => f
  | DoOnceSizeof _ => giving tt
  | VoidZero => giving tt
  | IfConstexpr c body =>
    if c then (fix all l := match l with [] => giving tt | x :: l' => and_then (execute x) (fun _ => all l') end) body else giving tt
  end.
Fixpoint execute_all (l : list cpp) : user_code W unit :=
  match l with
  | [] => giving tt
  | s :: l' => and_then (execute s) (fun _ => execute_all l')
  end.

(** What stands outside functions: the definition of a function that nothing calls (a template, or a member of a class,
    likewise), a variable initialised by code, [static_assert] of a text that is not null, nothing, a function of the user;
    or a statement followed by a block, which C++ does not allow there. *)
Inductive toplevel :=
| Uncalled (body : list cpp)
| UncalledTemplate (body : text -> list cpp)
| Initialised (f : user_code W unit)
| StaticAssert (condition : bool)
| Nothing
| Called (name : text) (body : list cpp)
| StatementThenBlock (s : cpp).

(** snitch_macros_test_case.hpp:99-121. *)
Definition expand_test (d : declaration (list (statement W))) : toplevel :=
  match d with
  | TestCase _ _ _ body => Uncalled (expand_body body)
  | TemplateListTestCase _ _ _ _ _ _ => StatementThenBlock VoidZero
  | TemplateTestCase _ _ _ _ body => UncalledTemplate (fun t => expand_body (body t))
  | TestCaseMethod _ _ _ _ body => Uncalled (expand_body body)
  | TemplateListTestCaseMethod _ _ _ _ _ _ _ => StatementThenBlock VoidZero
  | TemplateTestCaseMethod _ _ _ _ _ _ => StatementThenBlock VoidZero
  end.

(** snitch_macros_reporter.hpp:17-18. The address of a string literal is not null. *)
Definition expand_item (i : item W) : toplevel :=
  match i with
  | Test d => expand_test d
  | ReporterType _ _ => StaticAssert true
  | ReporterCallbacks _ => Nothing
  | Function name body => Called name (expand_body body)
  end.

Definition allowed_outside_functions (t : toplevel) : bool :=
  match t with StatementThenBlock _ => false | StaticAssert c => c | _ => true end.

(** A program: what is executed before [main], and the functions of the user. [None]: refused by the compiler. *)
Record built := mkbuilt { b_initialisers : list (user_code W unit); b_functions : list (text * user_code W unit) }.
Definition build_disabled (items : list (item W)) : option built :=
  let file := map expand_item items in
  if forallb allowed_outside_functions file
  then Some (mkbuilt (flat_map (fun t => match t with Initialised f => [f] | _ => [] end) file)
                     (flat_map (fun t => match t with Called n b => [(n, execute_all b)] | _ => [] end) file))
  else None.

(** src/snitch_main.cpp:7-19 [snitch::main] if [is_enabled] (snitch_registry.hpp:41) is false. *)
Definition main_disabled (argv : list text) : nat := 0.

(** A program whose [main] is that of snitch: the initialisers, then [main]. *)
Definition start (p : built) (argv : list text) (w : W) : answer W nat :=
  and_then (in_order (b_initialisers p)) (fun _ => giving (main_disabled argv)) w.
End Disabled.
