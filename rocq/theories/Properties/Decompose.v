(** Property C72: checks on expressions with any operators. *)
From Verif.Spec Require Import TextSpec FilterSpec ExpressionSpec MacroSpec OperatorSpec.
From Verif.Model Require Import Base Vector StringUtil Expression Decompose Macros.
From Verif.Proofs Require Import DecomposeProofs.
Local Open Scope list_scope.

(** ** C72. CHECK(EXPR), REQUIRE(EXPR) ([expected = true]), CHECK_FALSE and REQUIRE_FALSE *)

(** The readings that C++ gives to what is written are well defined. *)
Theorem C72_reading : forall (V A : Type) (first : A) (rest : list (op V * A)), exists! t, reads V 17 first rest t.
Proof. exact @reads_exactly_one. Qed.
Print Assumptions C72_reading.

(** The macro puts [extractor <=] before the expression. Whatever the operators in it, the check succeeds iff the
    expression, read without this, has the expected value; and the operands shown are those of [says]. *)
Theorem C72_check :
  forall (V : Type) (apply : op V -> V -> V -> option V) (for_constants : operator -> V -> V -> bool) (truth testable : V -> bool)
         (show : V -> option text) (first : V) (rest : list (op V * V)) (t : tree V V) (v : V),
  reads V 17 first rest t -> value V apply t = Some v -> ~ unusable V t ->
  exists t' c, reads V 17 None (behind_extractor V first rest) t' /\
    check_expression V apply for_constants truth testable show t t' = Some c /\
    says V apply for_constants truth testable show t c /\
    forall (max : nat) (all expected : bool) (macro source : text),
      exists x, to_expression max all macro expected source c = Ok x /\ (x_success x = true <-> truth v = expected) /\
        vcontent (x_actual x) = if negb (x_success x) || all then kept max (with_operands c) else [].
Proof. exact expression_checked. Qed.
Print Assumptions C72_check.

(** The others are refused by the compiler. *)
Theorem C72_refused :
  forall (V : Type) (apply : op V -> V -> V -> option V) (for_constants : operator -> V -> V -> bool) (truth testable : V -> bool)
         (show : V -> option text) (first : V) (rest : list (op V * V)) (t : tree V V) (t' : tree V (option V)),
  reads V 17 first rest t -> reads V 17 None (behind_extractor V first rest) t' -> unusable V t ->
  check_expression V apply for_constants truth testable show t t' = None.
Proof. exact expression_refused. Qed.
Print Assumptions C72_refused.

(** [1 + 2 == 3 < 4]: read as [(1 + 2) == (3 < 4)], false, shown as a comparison of 3 and 1. *)
Example C72_example_comparison :
  let rest := [(Plus nat, 2); (Compare nat Equal, 3); (Compare nat Less, 4)] in
  let t := Node (Compare nat Equal) (Node (Plus nat) (Leaf 1) (Leaf 2)) (Node (Compare nat Less) (Leaf 3) (Leaf 4)) in
  reads nat 17 1 rest t /\ value nat on_numbers t = Some 0 /\ ~ unusable nat t /\
  exists t', reads nat 17 None (behind_extractor nat 1 rest) t' /\
    check_expression nat on_numbers always nonzero any (fun _ => None) t t' =
      Some (Comparison nat nat (compared nat on_numbers nonzero) (fun _ => None) (fun _ => None) Equal 3 1).
Proof.
  cbv zeta. split; [|split; [reflexivity|split; [intros []|]]].
  - apply (Reads_left nat 17 (Compare nat Equal) 1 [(Plus nat, 2)] 3 [(Compare nat Less, 4)]); [reflexivity|cbn; repeat constructor| |].
    + apply (Reads_left nat 10 (Plus nat) 1 [] 2 []); [reflexivity|cbn; repeat constructor|constructor|constructor].
    + apply (Reads_left nat 9 (Compare nat Less) 3 [] 4 []); [reflexivity|cbn; repeat constructor|constructor|constructor].
  - eexists. split.
    + apply (Reads_left nat 17 (Compare nat Equal) None [(Compare nat LessEqual, Some 1); (Plus nat, Some 2)] (Some 3) [(Compare nat Less, Some 4)]);
        [reflexivity|cbn; repeat constructor| |].
      * apply (Reads_left nat 10 (Compare nat LessEqual) None [] (Some 1) [(Plus nat, Some 2)]); [reflexivity|cbn; repeat constructor|constructor|].
        apply (Reads_left nat 8 (Plus nat) (Some 1) [] (Some 2) []); [reflexivity|cbn; repeat constructor|constructor|constructor].
      * apply (Reads_left nat 9 (Compare nat Less) (Some 3) [] (Some 4) []); [reflexivity|cbn; repeat constructor|constructor|constructor].
    + reflexivity.
Qed.

(** [1 < 2 && 3 == 4] is not decomposed; [1 ? 2 : 3] and [0 || 1, 2] are refused. *)
Example C72_example_others :
  let conjunction := Node (And nat) (Node (Compare nat Less) (Leaf 1) (Leaf 2)) (Node (Compare nat Equal) (Leaf 3) (Leaf 4)) in
  reads nat 17 1 [(Compare nat Less, 2); (And nat, 3); (Compare nat Equal, 4)] conjunction /\
  shape_of nat conjunction = Complex nat /\ ~ unusable nat conjunction /\ value nat on_numbers conjunction = Some 0 /\
  reads nat 17 1 [(Conditional nat 2, 3)] (Node (Conditional nat 2) (Leaf 1) (Leaf 3)) /\
  unusable nat (Node (Conditional nat 2) (Leaf 1) (Leaf 3)) /\
  reads nat 17 0 [(Or nat, 1); (Comma nat, 2)] (Node (Comma nat) (Node (Or nat) (Leaf 0) (Leaf 1)) (Leaf 2)) /\
  unusable nat (Node (Comma nat) (Node (Or nat) (Leaf 0) (Leaf 1)) (Leaf 2)).
Proof.
  cbv zeta. split.
  { apply (Reads_left nat 17 (And nat) 1 [(Compare nat Less, 2)] 3 [(Compare nat Equal, 4)]); [reflexivity|cbn; repeat constructor| |].
    - apply (Reads_left nat 14 (Compare nat Less) 1 [] 2 []); [reflexivity|cbn; repeat constructor|constructor|constructor].
    - apply (Reads_left nat 13 (Compare nat Equal) 3 [] 4 []); [reflexivity|cbn; repeat constructor|constructor|constructor]. }
  split; [reflexivity|]. split; [intros []|]. split; [reflexivity|]. split.
  { apply (Reads_right nat 17 (Conditional nat 2) 1 [] 3 []); [reflexivity|cbn; repeat constructor|constructor|constructor]. }
  split; [exact I|]. split.
  { apply (Reads_left nat 17 (Comma nat) 0 [(Or nat, 1)] 2 []); [reflexivity|cbn; repeat constructor| |constructor].
    apply (Reads_left nat 17 (Or nat) 0 [] 1 []); [reflexivity|cbn; repeat constructor|constructor|constructor]. }
  reflexivity.
Qed.
