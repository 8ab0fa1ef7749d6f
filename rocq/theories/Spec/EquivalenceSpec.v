(** Ways of writing a test that are documented to be equivalent (C86). No reference to the model. *)
From Coq Require Import Arith Bool List.
From Verif.Spec Require Import TextSpec FilterSpec ExpressionSpec Events MacroSpec.
Import ListNotations.
Local Open Scope list_scope.

(** ** Rewriting a test body
    [rule] applied in one direction or the other, any number of times, anywhere in the body. *)
Inductive rewritten (rule : code -> code -> Prop) : code -> code -> Prop :=
| ByRule b b' : rule b b' -> rewritten rule b b'
| Same b : rewritten rule b b
| Back b b' : rewritten rule b b' -> rewritten rule b' b
| Again b b' b'' : rewritten rule b b' -> rewritten rule b' b'' -> rewritten rule b b''
| InEffect n k k' : rewritten rule k k' -> rewritten rule (Effect n k) (Effect n k')
| InRaise when x k k' : rewritten rule k k' -> rewritten rule (Raise when x k) (Raise when x k')
| InDo line abort c e e' k k' : rewritten rule e e' -> rewritten rule k k' -> rewritten rule (Do line abort c e k) (Do line abort c e' k')
| InDoSkip line abort m k k' : rewritten rule k k' -> rewritten rule (DoSkip line abort m k) (DoSkip line abort m k')
| InSection_ s b b' k k' : rewritten rule b b' -> rewritten rule k k' -> rewritten rule (Section_ s b k) (Section_ s b' k')
| InCaptured args values b b' k k' : rewritten rule b b' -> rewritten rule k k' -> rewritten rule (Captured args values b k) (Captured args values b' k')
| InInformed pieces b b' k k' : rewritten rule b b' -> rewritten rule k k' -> rewritten rule (Informed pieces b k) (Informed pieces b' k')
| InTry accepts notify b b' k k' : rewritten rule b b' -> rewritten rule k k' -> rewritten rule (Try accepts notify b k) (Try accepts notify b' k').

(** ** The documented rules *)

(** CAPTURE of several values "is equivalent to writing multiple CAPTURE() calls" (README.md:673). *)
Inductive captures_split : code -> code -> Prop :=
| Split arg args v values b k :
    captures_split (Captured (arg :: args) (v :: values) b k) (Captured [arg] [v] (Captured args values b Done) k).

(** The same evaluation, of something made of the arguments. *)
Definition of_each {T U} (f : T -> U) (e : evaluation T) : evaluation U :=
  match e with
  | RunTime v => RunTime (fun pass => f (v pass))
  | CompileTime v => CompileTime (f v)
  | BothTimes v w => BothTimes (f v) (fun pass => f (w pass))
  end.
(** CHECK_FALSE(EXPR) "is equivalent to CHECK( !(EXPR))", CHECK_THAT(EXPR, MATCHER) "is equivalent to
    CHECK(EXPR == MATCHER)" (README.md:352, 357, 362, 367). *)
Inductive check_rewritten : code -> code -> Prop :=
| False_is_not line abort source source' ev e k :
    check_rewritten (Do line abort (Holds false source ev) e k)
                    (Do line abort (Holds true source' (of_each (fun c => Undecomposed (negb (holds c))) ev)) e k)
| That_is_equal line abort value matcher source ev e k :
    check_rewritten (Do line abort (That value matcher ev) e k)
                    (Do line abort (Holds true source (of_each (fun r => Matching _ (r_matcher r) true (r_value r)) ev)) e k).

(** CONSTEVAL_CHECK is the "same as CHECK(EXPR) but with operands evaluated at compile-time", CONSTEXPR_CHECK "both at
    compile-time and run-time" (README.md:378-398, 409-429); also for CHECK_FALSE, CHECK_THAT and REQUIRE. *)
Inductive evaluated_when : code -> code -> Prop :=
| Compiled_holds line abort positive source v e k :
    evaluated_when (Do line abort (Holds positive source (CompileTime v)) e k)
                   (Do line abort (Holds positive source (RunTime (fun _ => v))) Done k)
| Compiled_that line abort value matcher r e k :
    evaluated_when (Do line abort (That value matcher (CompileTime r)) e k)
                   (Do line abort (That value matcher (RunTime (fun _ => r))) Done k)
| Both_holds line abort positive source v w e k :
    evaluated_when (Do line abort (Holds positive source (BothTimes v w)) e k)
                   (Do line abort (Holds positive source (CompileTime v)) Done (Do line abort (Holds positive source (RunTime w)) e k))
| Both_that line abort value matcher r r' e k :
    evaluated_when (Do line abort (That value matcher (BothTimes r r')) e k)
                   (Do line abort (That value matcher (CompileTime r)) Done (Do line abort (That value matcher (RunTime r')) e k)).

(** CHECK, CHECK_FALSE, CHECK_THAT, CHECK_THROWS_AS, ..., FAIL_CHECK are "similar" to REQUIRE, REQUIRE_FALSE, ..., FAIL,
    "except that on failure the test case continues" (README.md:347, 441, 451, 461, 473). The body with the former only: *)
Fixpoint continuing (b : code) : code :=
  match b with
  | Done => Done
  | Effect n k => Effect n (continuing k)
  | Raise when x k => Raise when x (continuing k)
  | Do line _ c e k => Do line false c (continuing e) (continuing k)
  | DoSkip line abort m k => DoSkip line abort m (continuing k)
  | Section_ s b k => Section_ s (continuing b) (continuing k)
  | Captured args values b k => Captured args values (continuing b) (continuing k)
  | Informed pieces b k => Informed pieces (continuing b) (continuing k)
  | Try accepts notify b k => Try accepts notify (continuing b) (continuing k)
  end.

(** ** Comparing what is reported *)

(** An event, but for the texts of the expression reported: macro, source text and text with operands. *)
Definition in_payload {ID} (f : payload -> payload) (e : event ID) : event ID :=
  match e with
  | AssertionFailed id sections captures l what expected allowed => AssertionFailed id sections captures l (f what) expected allowed
  | AssertionSucceeded id sections captures l what => AssertionSucceeded id sections captures l (f what)
  | e => e
  end.
Definition no_texts (p : payload) : payload :=
  match p with Expression _ _ _ => Expression [] [] [] | p => p end.
(** An event, but for the name of the macro. *)
Definition no_macro (p : payload) : payload :=
  match p with Expression _ expected actual => Expression [] expected actual | p => p end.

(** The events up to the first failure, or the first SKIP (after which failures are not reported), included. *)
Definition stops {ID} (e : event ID) : bool :=
  match e with AssertionFailed _ _ _ _ _ _ _ | TestCaseSkipped _ _ _ _ _ => true | _ => false end.
Fixpoint until_stop {ID} (l : list (event ID)) : list (event ID) :=
  match l with
  | [] => []
  | e :: l' => if stops e then [e] else e :: until_stop l'
  end.
