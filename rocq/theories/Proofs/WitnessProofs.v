(** Bodies with checks inside checks, and what is reported about them (C22, C25, C26, C71). *)
From Verif.Spec Require Import TextSpec FilterSpec Events RunSpec VerdictSpec TreeSpec StopSpec.
From Verif.Model Require Import Base Vector StringUtil Filter Run.
From Verif.Proofs Require Import RunFacts.

Definition holds_at (line : nat) (abort : bool) (e k : prog) : prog := Check line (IsTrue (fun _ => Message []) (fun _ => true)) abort e k.

(** SECTION("A") { SECTION("B") { CHECK(f()); } } where f() { act 1; CHECK(...); act 2; }. *)
Definition helper : prog :=
  InSection (sec "A" 1) (InSection (sec "B" 2) (holds_at 4 false (Act 1 (holds_at 9 false Nil (Act 2 Nil))) Nil) Nil) Nil.

(** CHECK(f()) where f() { CHECK(true); }. *)
Definition checked : prog := holds_at 1 false (holds_at 2 false Nil Nil) Nil.
Lemma checked_events :
  shown (run small 5 (mktest plain_id 0 checked) []) =
    Some ([TestCaseStarted plain_id 0] ++ AssertionSucceeded plain_id [] [] (mkloc 2 Exact) (Message []) ::
          AssertionSucceeded plain_id [] [] (mkloc 1 InCheck) (Message []) ::
          [AssertionSucceeded plain_id [] [] (mkloc 0 Exact) (Message (quote "no exception caught"));
           TestCaseEnded plain_id 0 (mkcounts 3 0 0) Success], ISuccess).
Proof. vm_compute. reflexivity. Qed.
Lemma inexact :
  exists (p : prog) (st : state) (before after : list event) (sections : list section_id) (captures : list text) (l : location) (what : payload),
    plain p /\ run small 5 (mktest plain_id 0 p) [] = Ok st /\
    trace st = before ++ AssertionSucceeded plain_id sections captures l what :: after /\ loc_type l <> Exact.
Proof.
  exists checked. destruct (run small 5 (mktest plain_id 0 checked) []) as [st|] eqn:E; [|vm_compute in E; discriminate].
  pose proof checked_events as S. rewrite E in S. cbn [shown] in S. injection S as S _.
  exists st, [TestCaseStarted plain_id 0; AssertionSucceeded plain_id [] [] (mkloc 2 Exact) (Message [])]. do 5 eexists.
  split; [cbn; intuition discriminate|]. split; [reflexivity|]. split; [rewrite S; reflexivity|]. discriminate.
Qed.

(** SECTION("A") { REQUIRE(f()); act 3; } SECTION("B") {} where f() { FAIL(""); act 2; }. *)
Definition required : prog :=
  InSection (sec "A" 1)
    (holds_at 2 true (Check 9 (IsTrue (fun _ => Message []) (fun _ => false)) true Nil (Act 2 Nil)) (Act 3 Nil)) (InSection (sec "B" 5) Nil Nil).

(** SECTION("A") { try { INFO("x"); throw 1; } catch (...) {} } SECTION("B") {}. *)
Definition unnotified : prog :=
  InSection (sec "A" 1)
    (Catch (fun _ => true) false (Capture [fun _ => [quote "x"]] (Throw (fun _ => true) OtherExn Nil) Nil) Nil)
    (InSection (sec "B" 2) Nil Nil).
Lemma unnotified_brackets :
  shown_brackets (run small 5 (mktest plain_id 0 unnotified) []) =
    Some [Start (sec "A" 1); End (sec "A" 1); End (sec "A" 1); Start (sec "B" 2); End (sec "B" 2)].
Proof. vm_compute. reflexivity. Qed.
