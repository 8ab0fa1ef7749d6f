(** C67: consequences and examples. *)
From Verif.Spec Require Import TextSpec FilterSpec ExpressionSpec CaptureSpec Events RunSpec VerdictSpec MacroSpec.
From Verif.Model Require Import Base Vector StringUtil Filter Run Expression Macros.
From Verif.Proofs Require Import Lists FilterProofs RunFacts MacroProofs.
Local Open Scope list_scope.

Lemma macros_events cf max all fuel id line b tr0 tags may should : proper (cf_max_message_length cf) b ->
  cf_verbosity cf = Full -> id_tags id = tag_string tags -> well_formed (cf_max_tag_length cf) tags -> tagged tags may should ->
  let p := meaning max all b in
  regular p -> nesting p <= cf_max_nested cf -> scopes p <= S (cf_max_nested cf) -> capturing p <= cf_max_captures cf -> Nat.max 1 (leaves p) <= fuel ->
  exists st, run_code cf max all fuel id line b tr0 = Ok st /\
    trace st = tr0 ++ fst (behave_case id may should (cf_max_capture_length cf) (cf_max_message_length cf) line p).
Proof.
  intros P V E W T p R N C F. rewrite macros_mean by auto. exact (follows_specification cf fuel id line p tr0 tags may should V E W T R N C F).
Qed.

Lemma after_nothing {ID} (s : case_state) (f : case_state -> @behaviour ID) : after ([], s, Finished) f = f s.
Proof. cbn [after]. now destruct (f s) as [[ev s'] x]. Qed.
Lemma after_ext {ID} (r : @behaviour ID) f g : (forall s, f s = g s) -> after r f = after r g.
Proof. intros H. destruct r as [[ev s] [|y fr gone]]; cbn [after]; auto. now rewrite H. Qed.

Lemma condition_alone (id : test_id) may should mc mm max all pass (cx : context) target line abort (positive : bool) source (ev : evaluation condition) k (s : case_state) :
  let behave := behave id may should mc mm pass in
  let name := macro_name ev abort (if positive then [] else quote "_FALSE") in
  let said := map (fun '(suffix, _, v) =>
    (Bool.eqb (holds (v pass)) positive, shown_condition max all (name ++ suffix) source positive (v pass))) (evaluations ev) in
  behave cx target (meaning max all (Do line abort (Holds positive source ev) Done k)) s =
  in_turn id may should cx line abort said s (behave cx target (meaning max all k)).
Proof.
  cbv zeta. cbn [meaning assertions]. set (name := macro_name ev abort _). clearbody name.
  generalize (evaluations ev) as l. intros l. revert s. induction l as [|[[suffix runs] v] l IH]; intros s; cbn [fold_right map in_turn]; [reflexivity|].
  cbn [behave]. replace (if runs then Nil else Nil) with Nil by (destruct runs; reflexivity). cbn [behave conclusion].
  rewrite after_nothing. apply after_ext. intros s1. destruct (_ && abort); [reflexivity|]. apply IH.
Qed.

Lemma that_alone (id : test_id) may should mc mm max all pass (cx : context) target line abort value matcher (ev : evaluation match_request) k (s : case_state) :
  let behave := behave id may should mc mm pass in
  let name := macro_name ev abort (quote "_THAT") in
  let said := map (fun '(suffix, _, v) =>
    let matched := matches (r_matcher (v pass)) (r_value (v pass)) in
    (matched, Events.Expression (name ++ suffix) (value ++ quote ", " ++ matcher)
                (fit max (describe (r_matcher (v pass)) (r_value (v pass)) (status_of matched))))) (evaluations ev) in
  behave cx target (meaning max all (Do line abort (That value matcher ev) Done k)) s =
  in_turn id may should cx line abort said s (behave cx target (meaning max all k)).
Proof.
  cbv zeta. cbn [meaning assertions]. set (name := macro_name ev abort _). clearbody name.
  generalize (evaluations ev) as l. intros l. revert s. induction l as [|[[suffix runs] v] l IH]; intros s; cbn [fold_right map in_turn]; [reflexivity|].
  cbn [behave]. replace (if runs then Nil else Nil) with Nil by (destruct runs; reflexivity). cbn [behave conclusion].
  rewrite after_nothing. apply after_ext. intros s1. destruct (_ && abort); [reflexivity|]. apply IH.
Qed.

(** ** An example with all the macros *)
Definition nat_comparisons : comparisons nat nat := fun o a b =>
  match o with
  | Less => a <? b | Greater => b <? a | LessEqual => a <=? b | GreaterEqual => b <=? a | Equal => a =? b | NotEqual => negb (a =? b)
  end.
Definition digit (n : nat) : option text := Some [ascii_of_nat (48 + n)].
Definition compared (o : operator) (a b : nat) : condition := Comparison nat nat nat_comparisons digit digit o a b.
Definition is_even : matcher nat :=
  mkmatcher Nat.even (fun n s => printed (digit n) ++ match s with Matched => quote " is even" | DidNotMatch => quote " is odd" end).
Definition odd_what : matcher exn :=
  mkmatcher (fun x => match x with StdExn [_] => true | _ => false end)
            (fun _ s => match s with Matched => quote "one letter" | DidNotMatch => quote "not one letter" end).
Definition any (x : exn) : bool := true.
Definition standard (x : exn) : bool := match x with StdExn _ => true | _ => false end.
Definition always (n : nat) : bool := true.

Definition every_macro : code :=
  Captured [quote "x"; quote " f(y, z) "] [fun pass => printed (digit pass); fun _ => quote "9"]
    (Section_ (mksec (quote "A") [] 2)
      (Do 3 false (Holds true (quote "x < 2") (RunTime (fun pass => compared Less (pass + 2) 2))) (Effect 1 Done)
      (Do 4 false (Holds false (quote "y") (RunTime (fun _ => Single nat (fun n => negb (n =? 0)) (fun _ => None) 1))) Done
      (Do 5 false (Holds true (quote "a && b") (RunTime (fun _ => Undecomposed true))) Done
      (Do 6 false (Holds true (quote "4 == even") (CompileTime (Matching nat is_even true 4))) Done
      (Do 7 false (Holds true (quote "1 > c") (BothTimes (compared Greater 1 0) (fun pass => compared Greater 1 1))) Done
      Done)))))
    (Section_ (mksec (quote "B") [] 8)
      (Informed [fun _ => quote "pass "; fun pass => printed (digit pass)]
        (Do 9 false (That (quote "n") (quote "even") (RunTime (fun _ => request nat is_even 3))) Done
        (Do 10 true (That (quote "n") (quote "even") (CompileTime (request nat is_even 2))) Done
        (Do 11 true (Succeeds (fun _ => quote "ok")) Done
        (Do 12 false (Fails (fun _ => quote "no")) Done Done)))) Done)
      Done))
    (Do 13 false (ThrowsAs (quote "E") standard) (Raise always (StdExn (quote "e")) Done)
    (Do 14 false (ThrowsMatches (quote "E") standard odd_what) (Raise always (StdExn (quote "ee")) Done)
    (Do 15 false (NoThrow (quote "f()")) (Raise always OtherExn Done)
    (Try any true (Raise always OtherExn Done)
    (Do 16 false (ThrowsAs (quote "E") standard) (Effect 2 Done) Done))))).

Definition roomy : config := mkconfig Full 3 3 10 40 20.
(** Line, verdict, captures and payload of each assertion, as strings. *)
Definition readable (t : text) : string := string_of_list_ascii t.
Definition reports (r : res state) : option (list (nat * bool * list string * list string)) :=
  let words p := match p with Message m => [readable m] | Events.Expression a b c => [readable a; readable b; readable c] end in
  match r with
  | Ok st => Some (flat_map (fun e => match e with
      | AssertionFailed _ _ c l what _ _ => [(loc_line l, false, map readable c, words what)]
      | AssertionSucceeded _ _ c l what => [(loc_line l, true, map readable c, words what)]
      | _ => [] end) (trace st))
  | Err _ => None
  end.

Lemma every_macro_proper : proper 40 every_macro.
Proof.
  assert (PL : forall c, existsb (Ascii.eqb c) [","%char; "("%char; ")"%char; double_quote; single_quote] = false -> CaptureSpec.plain c).
  { intros c H N. rewrite <- not_true_iff_false in H. apply H. apply existsb_exists. exists c. split; [exact N|]. apply Ascii.eqb_refl. }
  assert (NB : forall c s, In c s -> is_blank c = false -> Exists (fun c => ~ blank c) s).
  { intros c s H B. apply Exists_exists. exists c. split; auto. intros N. apply is_blank_spec in N. congruence. }
  cbn [proper every_macro]. repeat match goal with |- _ /\ _ => split end; try exact I; try reflexivity.
  - constructor; [|constructor; [|constructor]].
    + split; [apply bal_plain; [apply PL; reflexivity|constructor]|]. split; [vm_compute; discriminate|]. apply (NB "x"%char); [left; reflexivity|reflexivity].
    + split; [|split; [vm_compute; discriminate|apply (NB "f"%char); [right; left; reflexivity|reflexivity]]].
      do 2 (apply bal_plain; [apply PL; reflexivity|]).
      apply (bal_parens false (quote "y, z") (quote " ")); [|apply bal_plain; [apply PL; reflexivity|constructor]].
      apply bal_plain; [apply PL; reflexivity|]. apply bal_comma. do 2 (apply bal_plain; [apply PL; reflexivity|]). constructor.
  - constructor; [|constructor]. intros pass s. destruct s; vm_compute; lia.
  - constructor; [|constructor]. intros pass s. destruct s; vm_compute; lia.
Qed.
