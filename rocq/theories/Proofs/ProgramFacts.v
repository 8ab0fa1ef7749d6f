(** Statements about whole programs (C61-C66) put together, and the program used in the examples. *)
From Coq Require Import NArith Lia.
From Verif.Spec Require Import TextSpec FilterSpec PrintSpec NumberSpec RunSpec TreeSpec Events VerdictSpec SessionSpec ProgramSpec XmlSpec ConsoleSpec ServiceSpec CliSpec.
From Verif.Model Require Import Base Vector StringUtil Print Filter Run Cli File Session Reporters Program.
From Verif.Spec Require Import ProgramClaims.
From Verif.Proofs Require Import ReportProofs ReportExamples ConsoleProofs ServiceProofs XmlProofs WholeProofs LifetimeProofs TotalProofs.
Local Open Scope string_scope.
Local Open Scope list_scope.
Local Open Scope nat_scope.

Theorem console_end_to_end :
  exists shown : nat -> text, (forall n, (N.of_nat n < 2 ^ 64)%N -> writes 10 (shown n) (N.of_nat n)) /\
  forall (lm : Session.limits) (fuel : nat) (file : event -> text) (duration : event -> option text) (can_open : text -> bool)
    (r : registry) (path : text) (argv : list text) (out : list output) (code : nat) (out' : list output) (code' : nat),
  let full_name := fun id => full_name_of (id_name id) (id_type id) in
  let fits := fun colours => displayable id_name id_type full_name duration shown (l_version lm) (painted colours) (l_max_message_length lm) (l_max_test_name_length lm) in
  let asked := asked_verbosity (setting (read argv) (quote "--verbosity")) (g_verbose r) in
  length argv <= l_max_command_line_args lm -> acceptable argv -> asks_run (setting (read argv)) -> g_to_file r = false ->
  console_asked lm file duration r argv -> 32 <= l_max_message_length lm ->
  main_program lm fuel file duration can_open r path argv = Ok (out, code) ->
  main lm fuel can_open r path argv = Ok (out', code') ->
  code = code' /\
  exists (colours : bool) (report : text),
    report_goes lm r argv out report /\
    (Forall (fits colours) (events_of out') ->
     report = flat_map (event_text id_name id_type full_name id_tags file duration shown (l_version lm) (painted colours)) (events_of out')) /\
    (vlevel Normal <= vlevel asked ->
     exists before e name fs run failed allowed skipped c,
       events_of out' = before ++ [e] /\ e = TestRunEnded name fs run failed allowed skipped c (code =? 0) /\ (failed = 0 <-> code = 0) /\
       (fits colours e -> exists first, report = first ++ rule ++ summary_text duration shown (painted colours) e run failed skipped c (code =? 0))) /\
    report_colours r argv colours.
Proof. exists decimal. split; [exact decimal_reads|]. intros. eapply console_program; eassumption. Qed.

Theorem xml_end_to_end :
  exists shown : nat -> text, (forall n, (N.of_nat n < 2 ^ 64)%N -> writes 10 (shown n) (N.of_nat n)) /\
  forall (lm : Session.limits) (fuel : nat) (file : event -> text) (duration : event -> option text) (can_open : text -> bool)
    (r : registry) (path : text) (argv : list text) (out : list output) (code : nat) (out' : list output) (code' : nat) (arg : text),
  let full_name := fun id => full_name_of (id_name id) (id_type id) in
  length argv <= l_max_command_line_args lm -> acceptable argv -> asks_run (setting (read argv)) -> g_to_file r = false ->
  setting (read argv) (quote "--reporter") = Some (Some arg) -> names arg (quote "xml") ->
  (exists i, first_named (g_reporters r) i (xml_reporter lm file duration)) ->
  Forall (tidy lm fuel) (g_tests r) -> harmless (l_version lm) ->
  main_program lm fuel file duration can_open r path argv = Ok (out, code) ->
  main lm fuel can_open r path argv = Ok (out', code') ->
  Forall (readable full_name id_tags id_fixture file duration (l_max_message_length lm) (l_max_test_name_length lm)) (events_of out') ->
  code = code' /\
  exists root report name fs run failed allowed skipped c,
    told_run full_name id_tags file duration shown (l_version lm) (events_of out') root /\
    report_goes lm r argv out report /\ document root report /\
    hd_error (rev (events_of out')) = Some (TestRunEnded name fs run failed allowed skipped c (code =? 0)) /\ (failed = 0 <-> code = 0).
Proof. exists decimal. split; [exact decimal_reads|]. intros. eapply xml_program; eassumption. Qed.

Theorem teamcity_end_to_end :
  exists shown : nat -> text, (forall n, (N.of_nat n < 2 ^ 64)%N -> writes 10 (shown n) (N.of_nat n)) /\
  forall (lm : Session.limits) (fuel : nat) (file : event -> text) (duration : event -> option text) (can_open : text -> bool)
    (r : registry) (path : text) (argv : list text) (out : list output) (code : nat) (out' : list output) (code' : nat) (arg : text),
  let full_name := fun id => full_name_of (id_name id) (id_type id) in
  length argv <= l_max_command_line_args lm -> acceptable argv -> asks_run (setting (read argv)) -> g_to_file r = false ->
  setting (read argv) (quote "--reporter") = Some (Some arg) -> names arg (quote "teamcity") ->
  (exists i, first_named (g_reporters r) i (teamcity_reporter lm file duration)) ->
  main_program lm fuel file duration can_open r path argv = Ok (out, code) ->
  main lm fuel can_open r path argv = Ok (out', code') ->
  Forall (telling full_name file duration shown (l_max_message_length lm) (l_max_test_name_length lm)) (events_of out') ->
  code = code' /\
  exists report, report_goes lm r argv out report /\
    message_lines (flat_map (messages_of full_name file duration shown) (events_of out')) report.
Proof. exists decimal. split; [exact decimal_reads|]. intros. eapply teamcity_program; eassumption. Qed.

(** Which reporters of the library satisfy the hypotheses of C66. *)
Theorem library_reporters lm file duration :
  Forall (fun p => starts p /\ (speaks p \/ p = xml_reporter lm file duration)) [console_reporter lm file duration; xml_reporter lm file duration; teamcity_reporter lm file duration].
Proof.
  constructor; [split; [apply console_starts|left; apply console_speaks]|]. constructor; [split; [apply xml_starts|now right]|].
  constructor; [split; [apply teamcity_starts|left; apply teamcity_speaks]|]. constructor.
Qed.

(** ** The program used in the examples *)
Definition at_file : event -> text := fun _ => quote "f".
Definition untimed : event -> option text := fun _ => None.
Definition tagged_tests : list (test_case * list text) :=
  [(nested_test, []); (mktest (mkid (quote "m") (quote "[x]") [] []) 7 (Act 1 Nil), [quote "x"]); (test "s" 9 (Skip 10 (fun _ => quote "no") true Nil), [])].
Definition library_of (tests : list (test_case * list text)) : registry :=
  mkregistry (map fst tests) [console_reporter small at_file untimed; xml_reporter small at_file untimed; teamcity_reporter small at_file untimed]
    Normal false None None false Vacant.
Definition library : registry := library_of tagged_tests.
Definition events_for (l : list string) : list event :=
  match main small 5 (fun _ => true) library (quote "./demo") (map quote l) with Ok (out, _) => events_of out | Err _ => [] end.
Definition printed_by (l : list string) : option (text * text * nat) :=
  match main_program small 5 at_file untimed (fun _ => true) library (quote "./demo") (map quote l) with
  | Ok (out, code) => Some (console_text out, file_text out, code)
  | Err _ => None
  end.

Lemma tagged_tests_able : Forall (able small 5) tagged_tests.
Proof.
  repeat (apply Forall_cons || apply Forall_nil); unfold able; cbn [fst snd]; repeat match goal with |- _ /\ _ => split end.
  all: try reflexivity.
  all: try (apply Nat.leb_le; vm_compute; reflexivity).
  all: try (cbn; intuition discriminate).
  all: try (repeat constructor; vm_compute; intuition discriminate).
  all: try (exists false, false; split; vm_compute; intuition discriminate).
Qed.
Lemma tagged_tests_tidy : Forall (tidy small 5) (g_tests library).
Proof.
  assert (A : forall x, able small 5 x -> plain (t_body (fst x)) -> tidy small 5 (fst x)).
  { intros x (H1 & H2 & (may & should & H3) & _ & _ & H5 & H6 & H7) P. unfold tidy. split; [|auto]. exists (snd x), may, should. auto. }
  pose proof tagged_tests_able as B. unfold library, library_of, tagged_tests in *. cbn [g_tests map fst] in *.
  inversion_clear B as [|? ? B1 B']. inversion_clear B' as [|? ? B2 B'']. inversion_clear B'' as [|? ? B3 _].
  apply A in B1; [|cbn; intuition discriminate]. apply A in B2; [|cbn; intuition discriminate].
  constructor; [exact B1|]. constructor; [exact B2|]. constructor; [|constructor].
  unfold tidy. destruct B3 as (H1 & H2 & (may & should & H3) & _ & H4 & H5 & H6 & H7). split; [exists [], may, should; auto|]. split; [right; split; [exact H4|exact I]|auto].
Qed.

Definition asks (l : list string) : Prop := acceptable (map quote l) /\ asks_run (setting (read (map quote l))).
Ltac asks_tac := split; [split; [vm_compute; intuition discriminate|vm_compute; repeat constructor; cbn; intuition discriminate]|
  intros n H; cbn in H; repeat (destruct H as [<-|H]; [vm_compute; reflexivity|]); destruct H].
Lemma asks_console : asks ["-v"; "high"].
Proof. asks_tac. Qed.
Lemma asks_xml : asks ["--reporter"; "xml"; "-o"; "out"].
Proof. asks_tac. Qed.
Lemma asks_teamcity : asks ["m"; "--reporter"; "teamcity"].
Proof. asks_tac. Qed.

(** The events of these runs can all be displayed, written as XML, told to TeamCity. *)
Lemma shown_events colours :
  Forall (displayable id_name id_type (fun id => full_name_of (id_name id) (id_type id)) untimed decimal (l_version small) (painted colours) 60 40) (events_for ["-v"; "high"]).
Proof.
  destruct (events_for ["-v"; "high"]) as [|e l] eqn:E; [constructor|]. vm_compute in E. injection E as <- <-.
  repeat (apply Forall_cons || apply Forall_nil); unfold displayable, displayable_assertion, displayable_payload, short_duration, short_number;
      repeat match goal with |- _ /\ _ => split end;
      match goal with
      | |- short_paint _ _ _ _ => unfold short_paint; apply Nat.leb_le; destruct colours; vm_compute; reflexivity
      | |- _ <= _ => apply Nat.leb_le; vm_compute; reflexivity
      | |- Forall _ [] => apply Forall_nil
      | |- Forall _ _ => repeat (apply Forall_cons || apply Forall_nil); unfold short_paint; apply Nat.leb_le; destruct colours; vm_compute; reflexivity
      | |- _ => exact I
      end.
Qed.
Lemma written_events :
  Forall (readable (fun id => full_name_of (id_name id) (id_type id)) id_tags id_fixture at_file untimed 60 40) (events_for ["--reporter"; "xml"; "-o"; "out"]) /\
  length (events_for ["--reporter"; "xml"; "-o"; "out"]) = 18.
Proof.
  destruct (events_for ["--reporter"; "xml"; "-o"; "out"]) as [|e l] eqn:E; [vm_compute in E; discriminate|]. vm_compute in E. injection E as <- <-. split; [|reflexivity].
  repeat (apply Forall_cons || apply Forall_nil); unfold readable, readable_counts, readable_duration, readable_payload;
      repeat match goal with |- _ /\ _ => split end;
      match goal with
      | |- fits _ _ => apply fits_encode; apply Nat.leb_le; vm_compute; reflexivity
      | |- in_range _ => unfold in_range; apply N.ltb_lt; vm_compute; reflexivity
      | |- harmless _ => apply harmless_all; vm_compute; reflexivity
      | |- Forall _ [] => apply Forall_nil
      | |- _ => exact I
      end.
Qed.
Lemma told_events :
  Forall (telling (fun id => full_name_of (id_name id) (id_type id)) at_file untimed decimal 60 40) (events_for ["m"; "--reporter"; "teamcity"]) /\
  length (events_for ["m"; "--reporter"; "teamcity"]) = 5.
Proof.
  destruct (events_for ["m"; "--reporter"; "teamcity"]) as [|e l] eqn:E; [vm_compute in E; discriminate|]. vm_compute in E. injection E as <- <-. split; [|reflexivity].
  repeat (apply Forall_cons || apply Forall_nil); unfold telling, telling_details, telling_payload;
      repeat match goal with |- _ /\ _ => split end;
      match goal with
      | |- room _ _ => apply room_encode; apply Nat.leb_le; vm_compute; reflexivity
      | |- in_range _ => unfold in_range; apply N.ltb_lt; vm_compute; reflexivity
      | |- clean _ => apply clean_lit; vm_compute; reflexivity
      | |- _ <= _ => apply Nat.leb_le; vm_compute; reflexivity
      | |- Forall _ [] => apply Forall_nil
      | |- _ => exact I
      end.
Qed.
