(** Programs used in the examples and the counterexample of C104. *)
From Coq Require Import Lia.
From Verif.Spec Require Import TextSpec FilterSpec PrintSpec CliSpec Events VerdictSpec TreeSpec SessionSpec ProgramSpec ShardSpec ExpressionSpec.
From Verif.Model Require Import Base Vector StringUtil Print Filter Run Cli File Session Reporters Expression Program.
From Verif.Spec Require Import ProgramClaims LinkClaims.
From Verif.Proofs Require Import Lists ExpressionProofs ReportExamples ProgramFacts LinkProofs LinkExamples.
Local Open Scope string_scope.
Local Open Scope list_scope.
Local Open Scope nat_scope.

Definition test_line : text := ascii_of_nat 10 :: quote "  <TestCase name=""m""".
Lemma xml_depends_on_others :
  exists (lm : Session.limits) (fuel : nat) (file : event -> text) (duration : event -> option text) (can_open : text -> bool)
    (extra : test_case -> bool) (r r' : registry) (argv : list text) (out out' : list output) (code code' : nat),
  with_extra extra r r' /\ reporter_asked (xml_reporter lm file duration) r argv /\
  main_program lm fuel file duration can_open r (quote "demo") argv = Ok (out, code) /\
  main_program lm fuel file duration can_open r' (quote "demo") argv = Ok (out', code') /\
  occurs test_line (console_text out) /\ ~ occurs test_line (console_text out').
Proof.
  set (a := [test "m" 9 Nil]). set (b := [failing_test; test "m" 9 Nil]). set (argv := map quote ["--reporter"; "xml"]).
  set (go := fun l => main_program small 5 at_file untimed (fun _ => true) (with_order l) (quote "demo") argv).
  assert (K : match go a, go b with Ok (o, c), Ok (o', c') => contains_match test_line (console_text o) && negb (contains_match test_line (console_text o')) | _, _ => false end = true) by (vm_compute; reflexivity).
  exists small, 5, at_file, untimed, (fun _ => true), (fun t => seqb (id_name (t_id t)) (quote "n")), (with_order a), (with_order b), argv.
  destruct (go a) as [[o c]|] eqn:A; [|discriminate]. destruct (go b) as [[o' c']|] eqn:B; [|discriminate]. apply andb_true_iff in K as [K1 K2].
  exists o, o', c, c'. split; [split; [reflexivity|repeat split]|]. split; [|split; [exact A|split; [exact B|split]]].
  - exists (quote "xml"), 1. split; [vm_compute; reflexivity|]. split; [left; reflexivity|apply first_of; [reflexivity|vm_compute; reflexivity]].
  - now apply contains_spec.
  - intros H. apply contains_spec in H. rewrite H in K2. discriminate.
Qed.

(** The tests of the library without the one tagged [x]. *)
Definition is_extra (t : test_case) : bool := seqb (id_tags (t_id t)) (quote "[x]").
Definition fewer : registry := with_order (filter (fun t => negb (is_extra t)) (g_tests library)).
Definition code_of (r : registry) (argv : list string) : option nat :=
  match main small 5 (fun _ => true) r (quote "./demo") (map quote argv) with Ok (_, code) => Some code | Err _ => None end.

Lemma fewer_example :
  with_extra is_extra fewer library /\ length (g_tests library) = 3 /\ length (g_tests fewer) = 2 /\
  Forall (fun t => is_extra t = true -> not_chosen small (map quote ["~[x]"]) t) (g_tests library) /\ asks ["~[x]"] /\
  said_by library ["~[x]"] = said_by fewer ["~[x]"] /\ said_by library ["~[x]"] <> None.
Proof.
  split; [split; [reflexivity|repeat split]|]. split; [reflexivity|]. split; [reflexivity|]. split; [|split; [asks_tac|split; [vm_compute; reflexivity|vm_compute; discriminate]]].
  apply Forall_cons; [vm_compute; discriminate|]. apply Forall_cons; [intros _|apply Forall_cons; [vm_compute; discriminate|apply Forall_nil]].
  exists [quote "x"]. split; [reflexivity|]. split; [unfold well_formed; repeat (apply Forall_cons || apply Forall_nil); repeat split; cbn; try lia; try intuition discriminate|].
  split; [vm_compute; repeat constructor|]. intros H. unfold chosen in H.
  assert (B : cli_selects (l_max_tag_length small) (l_max_test_name_length small) [quote "~[x]"] (t_id (mktest (mkid (quote "m") (quote "[x]") [] []) 7 Nil)) = Ok false) by (vm_compute; reflexivity).
  edestruct (FilterProofs.cli_selects_spec (l_max_tag_length small) (l_max_test_name_length small) [quote "~[x]"] (t_id (mktest (mkid (quote "m") (quote "[x]") [] []) 7 Nil)) [quote "x"]) as (b & E & I); [reflexivity| |discriminate| |].
  - unfold well_formed; repeat (apply Forall_cons || apply Forall_nil); repeat split; cbn; try lia; try intuition discriminate.
  - vm_compute. repeat constructor.
  - rewrite B in E. injection E as <-. apply I in H. discriminate.
Qed.

Lemma more_example :
  Forall (fun t => is_extra t = true -> (exists tags, id_tags (t_id t) = tag_string tags /\ well_formed (l_max_tag_length small) tags) /\
            length (full_name_of (id_name (t_id t)) (id_type (t_id t))) <= l_max_test_name_length small /\
            exists st, run (config_of small Full) 5 t [] = Ok st) (g_tests library) /\
  Forall (fun argv => asks argv /\ length (map quote argv) <= l_max_command_line_args small) orders_tried /\
  Forall (fun argv => exists a b, said_by fewer argv = Some a /\ said_by library argv = Some b /\ length a < length b /\ 100 <= length a) orders_tried /\
  code_of library ["[x]"] = Some 0 /\ code_of fewer ["[x]"] = Some 0 /\ code_of library [] = Some 1.
Proof.
  split; [|split; [|split; [|split; [|split]]]]; [| | |vm_compute; reflexivity|vm_compute; reflexivity|vm_compute; reflexivity].
  - apply Forall_cons; [vm_compute; discriminate|]. apply Forall_cons; [intros _|apply Forall_cons; [vm_compute; discriminate|apply Forall_nil]].
    split; [exists [quote "x"]; split; [reflexivity|]; unfold well_formed; repeat (apply Forall_cons || apply Forall_nil); repeat split; cbn; try lia; try intuition discriminate|].
    split; [vm_compute; repeat constructor|]. eexists. vm_compute. reflexivity.
  - repeat (apply Forall_cons || apply Forall_nil); (split; [asks_tac|cbn; lia]).
  - assert (X : forall argv, match said_by fewer argv, said_by library argv with Some a, Some b => (length a <? length b) && (100 <=? length a) | _, _ => false end = true ->
      exists a b, said_by fewer argv = Some a /\ said_by library argv = Some b /\ length a < length b /\ 100 <= length a).
    { intros argv H. destruct (said_by fewer argv) as [a|]; [|discriminate]. destruct (said_by library argv) as [b|]; [|discriminate].
      apply andb_true_iff in H as [H1 H2]. apply Nat.ltb_lt in H1. apply Nat.leb_le in H2. exists a, b. auto. }
    repeat (apply Forall_cons || apply Forall_nil); apply X; vm_compute; reflexivity.
Qed.
