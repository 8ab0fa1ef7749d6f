(** A program that dies, for C96. *)
From Verif.Spec Require Import TextSpec FilterSpec PrintSpec NumberSpec CliSpec Events VerdictSpec SessionSpec ProgramSpec ConsoleSpec StreamSpec.
From Verif.Model Require Import Base Vector StringUtil Print Filter Run Cli File Session Reporters Program Streams.
From Verif.Spec Require Import ProgramClaims.
From Verif.Proofs Require Import ReportExamples ConsoleProofs ProgramFacts StreamProofs.
Local Open Scope string_scope.
Local Open Scope list_scope.
Local Open Scope nat_scope.

Theorem console_remains (done : list step) (w : world) :
  (dies true done w -> StreamSpec.begins (console_left w) (written Console done)) /\
  (runs true done start w -> waiting (console w) = [] -> console_left w = written Console done).
Proof.
  split; [apply console_died|]. intros R W. rewrite <- (console_ran _ _ R), W. unfold console_left. now rewrite app_nil_r.
Qed.

Definition crash_test : test_case :=
  test "t" 1 (Check 2 (IsTrue (fun _ => Expression (quote "CHECK") (quote "a < b") (quote "3 >= 2")) (fun _ => false)) false Nil (Act 7 Nil)).
Definition crashing : registry := library_of [(crash_test, []); (test "m" 9 (Act 8 Nil), [])].
Definition steps_in (l : list string) : option (list step * nat) :=
  match main_steps small 5 at_file untimed (fun _ => true) crashing (quote "./demo") (map quote l) with Ok x => Some x | Err _ => None end.
Definition events_in (l : list string) : list event :=
  match main small 5 (fun _ => true) crashing (quote "./demo") (map quote l) with Ok (out, _) => events_of out | Err _ => [] end.
Definition lines_of (l : list string) : text := flat_map (fun s => quote s ++ [ascii_of_nat 10]) l.

Fixpoint until_code (n : nat) (l : list step) : list step :=
  match l with [] => [] | UserCode m :: l' => if m =? n then [] else UserCode m :: until_code n l' | c :: l' => c :: until_code n l' end.
Fixpoint after_code (n : nat) (l : list step) : list step :=
  match l with [] => [] | UserCode m :: l' => if m =? n then l' else after_code n l' | _ :: l' => after_code n l' end.

Lemma crash_possible l done rest code : steps_in l = Some (done ++ rest, code) -> exists w, runs true done start w.
Proof.
  unfold steps_in. destruct (main_steps _ _ _ _ _ _ _ _) as [[st c]|] eqn:M; [|discriminate]. intros [= -> ->].
  eapply steps_paced in M as (q & Q & _); [|reflexivity|reflexivity]. destruct (paced_prefix_possible _ _ _ Q) as (w & R & _). eauto.
Qed.

Lemma crash_example :
  asks ["-o"; "out"] /\ has_file (map quote ["-o"; "out"]) = true /\ console_asked small at_file untimed crashing (map quote ["-o"; "out"]) /\
  (exists before after, events_in ["-o"; "out"] = before ++ User 7 :: after /\
     forall colours, Forall (displayable id_name id_type (fun id => full_name_of (id_name id) (id_type id)) untimed decimal (l_version small) (painted colours) 60 40) before) /\
  (exists done rest, steps_in ["-o"; "out"] = Some (done ++ UserCode 7 :: rest, 1) /\ opened done = true /\ user_codes done = [] /\
     written OutputFile done = lines_of ["starting demo with snitch v1.2"; "=========================================="; "failed: running test case ""t""";
       "          at f:2"; "          CHECK(a < b), got: 3 >= 2"] /\ (exists w, runs true done start w)) /\
  (exists done rest, steps_in [] = Some (done ++ UserCode 7 :: rest, 1) /\ opened done = false /\ length (given_to Console done) = 7) /\
  (exists steps, steps_in ["-o"; "out"; "m"] = Some (steps, 0) /\ opened steps = true /\ written OutputFile steps <> []).
Proof.
  split; [asks_tac|]. split; [vm_compute; reflexivity|]. split; [left; split; vm_compute; reflexivity|]. split; [|split; [|split]].
  - destruct (events_in ["-o"; "out"]) as [|e1 [|e2 [|e3 l]]] eqn:E; vm_compute in E; try discriminate. injection E as <- <- <- <-.
    do 2 eexists. split; [match goal with |- ?a :: ?b :: User 7 :: ?c = _ => instantiate (2 := [a; b]) end; reflexivity|]. intros colours.
    repeat (apply Forall_cons || apply Forall_nil); unfold displayable, displayable_assertion, displayable_payload, short_duration, short_number;
      repeat match goal with |- _ /\ _ => split end;
      match goal with
      | |- short_paint _ _ _ _ => unfold short_paint; apply Nat.leb_le; destruct colours; vm_compute; reflexivity
      | |- _ <= _ => apply Nat.leb_le; vm_compute; reflexivity
      | |- Forall _ [] => apply Forall_nil
      | |- Forall _ _ => repeat (apply Forall_cons || apply Forall_nil); unfold short_paint; apply Nat.leb_le; destruct colours; vm_compute; reflexivity
      | |- _ => idtac
      end.
  - assert (X : exists done rest, steps_in ["-o"; "out"] = Some (done ++ UserCode 7 :: rest, 1) /\ opened done = true /\ user_codes done = [] /\
      written OutputFile done = lines_of ["starting demo with snitch v1.2"; "=========================================="; "failed: running test case ""t""";
        "          at f:2"; "          CHECK(a < b), got: 3 >= 2"]).
    { destruct (steps_in ["-o"; "out"]) as [[l c]|] eqn:F; vm_compute in F; [|discriminate]. injection F as <- <-.
      match goal with |- exists _ _, Some (?l, _) = _ /\ _ => exists (until_code 7 l), (after_code 7 l) end. split; [vm_compute; reflexivity|]. repeat split; vm_compute; reflexivity. }
    destruct X as (done & rest & E & A & B & C). exists done, rest. repeat (split; [assumption|]). exact (crash_possible _ _ _ _ E).
  - destruct (steps_in []) as [[l c]|] eqn:F; vm_compute in F; [|discriminate]. injection F as <- <-. 
    match goal with |- exists _ _, Some (?l, _) = _ /\ _ => exists (until_code 7 l), (after_code 7 l) end. split; [vm_compute; reflexivity|]. split; vm_compute; reflexivity.
  - destruct (steps_in ["-o"; "out"; "m"]) as [[l c]|] eqn:F; vm_compute in F; [|discriminate]. injection F as <- <-. eexists. split; [reflexivity|]. split; [vm_compute; reflexivity|].
    vm_compute. discriminate.
Qed.
