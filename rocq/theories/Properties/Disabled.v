(** Property C93: tests disabled at build time. *)
From Verif.Spec Require Import TextSpec FilterSpec Events RunSpec DeclareSpec UserCodeSpec DisabledSpec.
From Verif.Model Require Import Base Filter Run Declare Disabled.
From Verif.Proofs Require Import DisabledProofs.
Import ListNotations.
Local Open Scope list_scope.

(** With snitch disabled, a file that is accepted by the compiler has the functions of the user and nothing else: their
    behaviour is that of their ordinary statements outside sections (no operand of a macro is evaluated, whatever it does
    and whatever it throws; REQUIRE, FAIL and SKIP do not stop; sections are left out), and the program of snitch changes
    no object and ends with 0, whatever its tests and arguments are. A file is accepted if and only if it has none of the
    three macros for lists of types and for templates of fixtures. *)
Theorem C93_partial :
  forall (W : Type) (items : list (item W)),
  match build_disabled items with
  | None => Exists (fun i => refused i = true) items
  | Some p =>
    Forall (fun i => refused i = false) items /\
    Forall2 (fun x y => fst x = fst y /\ forall w, snd x w = snd y w) (b_functions p) (functions items) /\
    (forall (argv : list text) (w : W), start p argv w = Gives w 0)
  end.
Proof. exact (fun W => @disabled_build W). Qed.
Print Assumptions C93_partial.

(** So the full claim, that tests can be disabled, is false: a file with TEMPLATE_LIST_TEST_CASE is refused, although it is
    accepted, and registers its tests, if snitch is enabled. *)
Theorem C93_refuted :
  forall (W : Type) (name tags template type : text) (line : nat) (body : text -> list (statement W)) (before after : list (item W)),
  build_disabled (before ++ Test (TemplateListTestCase name tags template [type] line body) :: after) = None.
Proof. exact (fun W name tags template type line body => lists_refused name tags template [type] line body). Qed.
Print Assumptions C93_refuted.

(** A file with a function that counts, checks and fails; two tests; two reporters. *)
Definition counts (n : nat) : user_code nat unit := fun w => Gives (w + n) tt.
Definition fails : user_code nat unit := fun w => Leaves w (StdExn (quote "no")).
Definition example_body : list (statement nat) :=
  [Ordinary (counts 1); Checking (Truth AtRun true false) [counts 10]; Telling Fail fails; Checking (ThrowsAs false) [fails];
   Section_ (counts 20) [Ordinary (counts 30); Checking Capture [counts 40]]; Ordinary (counts 2)].
Definition example_file : list (item nat) :=
  [Function (quote "f") example_body; Test (TestCase (quote "t") (quote "[x]") 3 example_body);
   ReporterType (quote "r") (quote "my_reporter"); ReporterCallbacks (quote "s");
   Test (TemplateTestCase (quote "u") [] [quote "int"] 9 (fun _ => example_body))].
Example C93_example :
  Forall (fun i => refused i = false) example_file /\
  (exists p, build_disabled example_file = Some p /\ map (fun x => snd x 5) (b_functions p) = [Gives 8 tt] /\
             start p [quote "--help"] 5 = Gives 5 0) /\
  in_order [counts 1; fails; counts 2] 5 = Leaves 6 (StdExn (quote "no")) /\
  (* the refused declaration is accepted when snitch is enabled *)
  declare_all Gcc 5 30 [] [TemplateListTestCase (quote "a") [] (quote "std::tuple") [quote "int"] 4 (fun _ => Nil)] =
    Ok [mktest (mkid (quote "a") [] (quote "int") []) 4 Nil].
Proof.
  split; [repeat constructor|]. split; [eexists; repeat split|]. split; vm_compute; reflexivity.
Qed.
