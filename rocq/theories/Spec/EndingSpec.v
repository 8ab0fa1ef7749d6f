(** How a report ends (C115). No reference to the model. *)
From Coq Require Import Arith Ascii String Bool NArith List.
From Verif.Spec Require Import TextSpec FilterSpec NumberSpec ConsoleSpec Events VerdictSpec SessionSpec.
Import ListNotations.
Local Open Scope string_scope.
Local Open Scope list_scope.
Local Open Scope nat_scope.

Section Ending.
Context {ID : Type}.
Notation event := (event ID).

(** Given all that was reported when each test was run: how many tests have this verdict; how many checks there were, how many of
    them failed, and how many failed in tests that are allowed or expected to fail. *)
Definition tests_with (s : case_state) (told : list (list event)) : nat := List.length (filter (fun l => same_state (verdict l) s) told).
Definition checks (told : list (list event)) : nat := List.length (filter is_assertion (List.concat told)).
Definition checks_that (s : case_state) (told : list (list event)) : nat :=
  List.length (filter (fun e => is_failure e && same_state (says e) s) (List.concat told)).

Definition numeral (n : nat) (t : text) : Prop := writes 10 t (N.of_nat n).

(** On the console: a line drawn with the sign =, and a sentence that says whether all tests passed. *)
Definition console_ending (colours : bool) (time : option text) (told : list (list event)) (p : text) : Prop :=
  let ran := List.length told in
  let failed := tests_with Failed told in
  exists r f k n, numeral ran r /\ numeral failed f /\ numeral (tests_with Skipped told) k /\ numeral (checks told) n /\
    p = repeat "="%char 42 ++ feed ++
        (if failed =? 0
         then painted colours Good (quote "success:") ++ quote " all tests passed (" ++ r ++ quote " test cases, "
         else painted colours Bad (quote "error:") ++ (if failed =? ran then quote " all" else quote " some") ++
              quote " tests failed (" ++ f ++ quote " out of " ++ r ++ quote " test cases, ") ++
        n ++ quote " assertions" ++
        (if tests_with Skipped told =? 0 then [] else quote ", " ++ k ++ quote " test cases skipped") ++
        match time with Some d => quote ", " ++ d ++ quote " seconds" | None => [] end ++ quote ")" ++ feed.

(** In XML: two elements, about the checks and about the tests, and the end of the document. Note that the successes among the
    tests include those that were skipped. *)
Definition blank (t : text) : Prop := Forall (fun c => c = " "%char) t.
Definition result_element (name : text) (good bad excused skipped : text) : text :=
  quote "<" ++ name ++ quote " successes=" ++ double_quote ++ good ++ double_quote ++ quote " failures=" ++ double_quote ++ bad ++ double_quote ++
  quote " expectedFailures=" ++ double_quote ++ excused ++ double_quote ++ quote " skips=" ++ double_quote ++ skipped ++ double_quote ++ quote "/>" ++ feed.
Definition xml_ending (told : list (list event)) (p : text) : Prop :=
  exists margin1 margin2 margin3 g b x k g' b' x' passed good,
    blank margin1 /\ blank margin2 /\ blank margin3 /\
    numeral passed g /\ passed + checks_that Failed told + checks_that AllowedFail told = checks told /\
    numeral (checks_that Failed told) b /\ numeral (checks_that AllowedFail told) x /\
    numeral (tests_with Skipped told) k /\
    numeral good g' /\ good = tests_with Success told + tests_with Skipped told /\
    numeral (tests_with Failed told) b' /\ numeral (tests_with AllowedFail told) x' /\
    p = margin1 ++ result_element (quote "OverallResults") g b x k ++
        margin2 ++ result_element (quote "OverallResultsCases") g' b' x' k ++
        margin3 ++ quote "</Catch2TestRun>" ++ feed.
End Ending.
