(** Programs used beside C42 and C43, and what is reported about them. *)
From Coq Require Import NArith.
From Verif.Spec Require Import TextSpec FilterSpec EscapeSpec NumberSpec Events VerdictSpec RunSpec TreeSpec SessionSpec XmlSpec.
From Verif.Model Require Import Base Vector StringUtil Filter Run Session Reporters.
From Verif.Proofs Require Import EscapeProofs XmlProofs SoundProofs ReportProofs.
Local Open Scope list_scope.
Local Open Scope nat_scope.

(** ** The programs used in the examples *)
Definition small : Session.limits := mklimits 5 5 40 60 20 40 8 32 3 12 false (lit "1.2").
Definition test (name : string) (line : nat) (b : prog) : test_case := mktest (mkid (quote name) [] [] []) line b.
Definition in_test (n : nat) : section_id := mksec (quote "s&" ++ [ascii_of_nat (48 + n)]) [] n.
(** SECTION { CHECK(a < b) fails; SECTION { } SECTION { } } *)
Definition nested_test : test_case :=
  test "n" 1 (InSection (in_test 2)
    (Check 3 (IsTrue (fun _ => Expression (quote "CHECK") (quote "a < b") (quote "3 >= 2")) (fun _ => false)) false Nil
      (InSection (in_test 4) Nil (InSection (in_test 5) Nil Nil))) Nil).
(** SKIP("<") *)
Definition skipping_test : test_case := test "n" 1 (Skip 2 (fun _ => quote "<") true Nil).
(** SECTION { SECTION { } SECTION { } } FAIL *)
Definition failing_test : test_case :=
  test "n" 1 (InSection (in_test 2) (InSection (in_test 3) Nil (InSection (in_test 4) Nil Nil))
    (Check 5 (IsTrue (fun _ => Message []) (fun _ => false)) true Nil Nil)).
Definition report_of (t : test_case) : res (nat * list str) :=
  do (events, _) <- run_selected_tests small 5 Full [t] (quote "p") [] (fun _ => Ok true) ;;
  xml_reports 100 20 (quote "1.2") (fun _ => quote "f") (fun _ => None) events 0.


(** ** Theorems on whole runs, combined *)
Lemma decimal_reads n : (N.of_nat n < 2 ^ 64)%N -> writes 10 (decimal n) (N.of_nat n).
Proof. intros R. exact (proj2 (proj2 (decimal_short n R))). Qed.

Theorem xml_document :
  exists shown : nat -> text, (forall n, (N.of_nat n < 2 ^ 64)%N -> writes 10 (shown n) (N.of_nat n)) /\
  forall (mm mn : nat) (version : text) (file : event -> text) (duration : event -> option text) (events : list event) (root : node),
  told_run full id_tags file duration shown version events root ->
  Forall (readable full id_tags id_fixture file duration mm mn) events -> harmless version ->
  exists out, xml_reports mm mn version file duration events 0 = Ok (0, out) /\ document root (concat out).
Proof. exists decimal. split; [exact decimal_reads|]. intros. now apply run_document. Qed.
Theorem xml_listing :
  exists shown : nat -> text, (forall n, (N.of_nat n < 2 ^ 64)%N -> writes 10 (shown n) (N.of_nat n)) /\
  forall (mm mn : nat) (version : text) (file : event -> text) (duration : event -> option text) (tests : list (test_id * nat)) (events : list event) (root : node),
  (events, root) = told_listing full id_tags id_fixture file shown tests ->
  Forall (readable full id_tags id_fixture file duration mm mn) events ->
  exists out, xml_reports mm mn version file duration events 0 = Ok (0, out) /\ document root (concat out).
Proof. exists decimal. split; [exact decimal_reads|]. intros. eapply listing_document; eauto. Qed.
Theorem xml_run :
  exists shown : nat -> text, (forall n, (N.of_nat n < 2 ^ 64)%N -> writes 10 (shown n) (N.of_nat n)) /\
  forall (lm : Session.limits) (fuel : nat) (v : verbosity) (predicate : test_id -> res bool) (tests : list test_case) (name : text)
    (filters : list text) (events : list event) (success : bool)
    (mm mn : nat) (version : text) (file : event -> text) (duration : event -> option text),
  vlevel High <= vlevel v -> Forall (tidy lm fuel) tests ->
  run_selected_tests lm fuel v tests name filters predicate = Ok (events, success) ->
  Forall (readable full id_tags id_fixture file duration mm mn) events -> harmless version ->
  exists root out,
    told_run full id_tags file duration shown version events root /\
    xml_reports mm mn version file duration events 0 = Ok (0, out) /\ document root (concat out).
Proof.
  exists decimal. split; [exact decimal_reads|]. intros lm fuel v predicate tests name filters events success mm mn version file duration V T R D H.
  destruct (run_told version file duration lm fuel v tests name filters predicate events success V T R) as (root & K).
  destruct (run_document mm mn version file duration events root K D H) as (out & E1 & E2). exists root, out. auto.
Qed.
Theorem xml_no_wrap lm fuel v (predicate : test_id -> res bool) tests name filters events success mm mn version file duration :
  run_selected_tests lm fuel v tests name filters predicate = Ok (events, success) ->
  Forall (fun e => forall level, exists level' out, xml_report mm mn version file duration e (S level) = Ok (level', out)) events.
Proof.
  intros R. apply run_sound in R. eapply Forall_impl; [|exact R]. intros e K level.
  destruct (report_works mm mn version file duration e level K) as (out & E). eauto.
Qed.

(** ** Programs *)
Lemma skip_document : exists out, report_of skipping_test = Ok (0, out) /\ forall root, ~ document root (concat out).
Proof.
  destruct (report_of skipping_test) as [[n out]|] eqn:E; [|vm_compute in E; discriminate E].
  exists out. vm_compute in E. injection E as <- <-. split; [reflexivity|].
  intros root D. apply document_even in D. vm_compute in D. discriminate D.
Qed.
Lemma abort_level : exists level out, report_of failing_test = Ok (S level, out).
Proof.
  destruct (report_of failing_test) as [[n out]|] eqn:E; [|vm_compute in E; discriminate E].
  vm_compute in E. injection E as <- <-. eexists _, _. reflexivity.
Qed.
Lemma section_counts :
  exists before inside c after,
    run_selected_tests small 5 Full [nested_test] (quote "p") [] (fun _ => Ok true) =
      Ok (before ++ [SectionStarted (in_test 2)] ++ inside ++ [SectionEnded (in_test 2) false c] ++ after, false) /\
    n_all c = 1 /\ length (filter is_assertion inside) = 2.
Proof.
  destruct (run_selected_tests small 5 Full [nested_test] (quote "p") [] (fun _ => Ok true)) as [[l b]|] eqn:E; [|vm_compute in E; discriminate E].
  exists (firstn 2 l), (firstn 6 (skipn 3 l)), (mkcounts 1 1 0), (skipn 10 l).
  vm_compute in E. injection E as <- <-. split; [vm_compute; reflexivity|]. split; reflexivity.
Qed.

Lemma fits_encode n s : length (encode xml_entities s) <= n -> fits n s.
Proof. intros L. exists (encode xml_entities s). split; auto. now apply (proj2 (encoded_encode xml_entities _ _ xml_distinct)). Qed.
Lemma harmless_all s : forallb (fun c => negb (existsb (fun p => Ascii.eqb c (fst p)) xml_entities)) s = true -> harmless s.
Proof.
  intros F c I S. rewrite forallb_forall in F. specialize (F c I). apply Bool.negb_true_iff in F.
  assert (X : existsb (fun p => Ascii.eqb c (fst p)) xml_entities = true); [|congruence]. apply existsb_exists.
  apply in_map_iff in S as (p & <- & K). exists p. split; auto. apply Ascii.eqb_refl.
Qed.
Lemma nested_readable :
  match run_selected_tests small 5 Full [nested_test] (quote "p") [] (fun _ => Ok true) with
  | Ok (events, _) =>
    Forall (readable (fun id => full_name_of (id_name id) (id_type id)) id_tags id_fixture (fun _ => quote "f") (fun _ => None) 100 20) events /\
    length events = 13
  | Err _ => False
  end /\
  plain (t_body nested_test) /\ nesting (t_body nested_test) = 2 /\ leaves (t_body nested_test) = 2 /\ capturing (t_body nested_test) = 0 /\
  match report_of nested_test with
  | Ok (0, out) => exists a b, concat out = a ++ quote "      <Expression success=" ++ [ascii_of_nat 34] ++ quote "false" ++ [ascii_of_nat 34] ++ b
  | _ => False
  end.
Proof.
  split; [|split; [cbn; intuition discriminate|split; [reflexivity|split; [reflexivity|split; [reflexivity|]]]]].
  - destruct (run_selected_tests small 5 Full [nested_test] (quote "p") [] (fun _ => Ok true)) as [[l b]|] eqn:E; [|vm_compute in E; discriminate E].
    vm_compute in E. injection E as <- <-. split; [|reflexivity].
    repeat (apply Forall_cons || apply Forall_nil); unfold readable, readable_counts, readable_duration, readable_payload;
      repeat match goal with |- _ /\ _ => split end;
      match goal with
      | |- fits _ _ => apply fits_encode; apply Nat.leb_le; vm_compute; reflexivity
      | |- in_range _ => unfold in_range; apply N.ltb_lt; vm_compute; reflexivity
      | |- harmless _ => apply harmless_all; vm_compute; reflexivity
      | |- Forall _ [] => apply Forall_nil
      | |- _ => exact I
      end.
  - destruct (report_of nested_test) as [[n out]|] eqn:E; [|vm_compute in E; discriminate E].
    assert (n = 0) as -> by (vm_compute in E; now injection E).
    exists (firstn 243 (concat out)), (skipn 276 (concat out)). vm_compute in E. injection E as <-. vm_compute. reflexivity.
Qed.
Lemma two_tests :
  exists events, run_selected_tests small 5 Full [nested_test; skipping_test] (quote "p") [] (fun _ => Ok true) = Ok (events, false) /\
    hd_error (rev events) = Some (TestRunEnded (quote "p") [] 2 1 0 1 (mkcounts 3 2 0) false) /\
    length (filter is_assertion events) = 3 /\ length (ended events) = 2.
Proof.
  destruct (run_selected_tests small 5 Full [nested_test; skipping_test] (quote "p") [] (fun _ => Ok true)) as [[l b]|] eqn:E; [|vm_compute in E; discriminate E].
  vm_compute in E. injection E as <- <-. eexists. split; [reflexivity|]. split; [reflexivity|]. split; reflexivity.
Qed.
