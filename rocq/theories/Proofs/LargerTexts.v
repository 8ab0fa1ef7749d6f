(** Larger limits, names of tests in what is printed (C101). *)
From Verif.Spec Require Import TextSpec FilterSpec PrintSpec CliSpec Events VerdictSpec SessionSpec.
From Verif.Model Require Import Base Vector StringUtil Print Filter Run Cli File Session Reporters Program.
From Verif.Spec Require Import LimitClaims.
From Verif.Proofs Require Import Lists SessionProofs SessionFacts ConfigProofs HistoryProofs XmlProofs LargerProofs.
From Coq Require Import Lia.
Local Open Scope string_scope.
Local Open Scope list_scope.
Local Open Scope nat_scope.

Section Names.
Variables (lm lm' : limits) (file : event -> str) (duration : event -> option str) (fuel : nat).
Hypothesis LA : at_least_as_large lm lm'.

Definition short (id : test_id) : Prop := length (full_name_of (id_name id) (id_type id)) <= l_max_test_name_length lm.
Definition named (e : event) : Prop := match e with TestCaseStarted id _ | TestCaseEnded id _ _ _ | TestCaseListed id _ => short id | _ => True end.
Definition named_output (o : output) : Prop := match o with Reported _ e => named e | _ => True end.

Lemma named_calls color counter e : named e ->
  console_calls (l_max_message_length lm) (l_max_test_name_length lm') (l_version lm) color file duration counter e =
  console_calls (l_max_message_length lm) (l_max_test_name_length lm) (l_version lm) color file duration counter e.
Proof.
  intros N. pose proof (more_name_length _ _ LA) as M. destruct e; try reflexivity; cbn [named] in N; unfold short in N; cbn [console_calls].
  all: match goal with |- context [full_name_buffer (l_max_test_name_length lm) ?id] =>
    destruct (full_name_content (l_max_test_name_length lm) id N) as (sa & -> & _ & _ & K);
    destruct (full_name_content (l_max_test_name_length lm') id (Nat.le_trans _ _ _ N M)) as (sb & -> & _ & _ & K') end.
  all: cbn [bind]; rewrite K, K'; reflexivity.
Qed.
Lemma named_report r e : named e -> report lm' file duration r e = report lm file duration r e.
Proof.
  intros N. unfold report, mm, mn, console_report. rewrite (same_message_length _ _ LA), (same_version _ _ LA). destruct (g_reporter r); [reflexivity|]. now rewrite named_calls.
Qed.
Lemma named_perform l : Forall named_output l -> forall r, perform lm' file duration r l = perform lm file duration r l.
Proof.
  induction 1 as [|o l N _ IH]; intros r; [reflexivity|]. destruct o; cbn [perform]; rewrite ?IH; try reflexivity. rewrite named_report by exact N. destruct (report lm file duration r _) as [[r1 texts]|]; cbn [bind]; [|reflexivity].
  destruct (print_all r1 texts) as [p|]; cbn [bind]; [|reflexivity]. now rewrite IH.
Qed.

Lemma named_list p tests l : Forall (fun t => short (t_id t)) tests -> list_events tests p = Ok l -> Forall named l.
Proof.
  intros F. unfold list_events. destruct (list_loop p tests) as [m|] eqn:E; cbn [bind]; [|discriminate]. intros [= <-].
  rewrite (list_loop_select p tests (list_loop_ok _ _ _ E)) in E. injection E as <-. constructor; [exact I|]. apply Forall_app. split; [|repeat constructor].
  apply Forall_forall. intros e I. apply in_map_iff in I as (t & <- & I). apply filter_In in I as [I _]. rewrite Forall_forall in F. exact (F t I).
Qed.
Lemma named_run v p tests name fs events s : Forall (fun t => short (t_id t)) tests -> run_selected_tests lm fuel v tests name fs p = Ok (events, s) -> Forall named events.
Proof.
  intros F. rewrite (run_selected_verbosity lm fuel p v tests), run_selected. destruct (cases lm fuel p tests) as [l|] eqn:C; [|discriminate]. cbv beta iota zeta.
  match goal with |- Ok (?a, _) = _ -> _ => intros X; assert (EE : events = a) by congruence; clear X; rewrite EE; clear EE end.
  apply Forall_forall. intros e I. apply filter_In in I as [I _]. unfold report_at in I. cbn [vlevel Nat.leb] in I. rewrite visible_full in I.
  apply in_app_iff in I as [I|I]; [destruct I as [<-|[]]; exact Logic.I|]. apply in_app_iff in I as [I|I]; [|destruct I as [<-|[]]; exact Logic.I].
  apply in_concat in I as (part & I & J). apply in_map_iff in I as ([t st] & <- & I). destruct (cases_select _ _ _ _ _ C) as (E & R & _). rewrite Forall_forall in R, F. specialize (R _ I). cbn [fst snd] in *.
  assert (T : In t tests). { assert (K : In t (map fst l)) by (apply (in_map fst _ _ I)). rewrite E in K. now apply filter_In in K. }
  destruct (run_alone lm fuel t st R) as (body & c & s' & TR & IN & _). rewrite TR in J. destruct J as [<-|J]; [exact (F t T)|].
  apply in_app_iff in J as [J|[<-|[]]]; [|exact (F t T)]. rewrite Forall_forall in IN. specialize (IN e J). destruct e; try discriminate; exact Logic.I.
Qed.

Lemma named_reported k l : Forall named l -> Forall named_output (map (Reported k) l).
Proof. intros F. apply Forall_forall. intros o I. apply in_map_iff in I as (e & <- & I). rewrite Forall_forall in F. exact (F e I). Qed.
Lemma named_printed l : Forall named_output (map Printed l).
Proof. apply Forall_forall. intros o I. apply in_map_iff in I as (e & <- & I). exact Logic.I. Qed.

Lemma named_outputs r args r2 out s : Forall (fun t => short (t_id t)) (g_tests r) -> run_tests lm fuel r args = Ok (r2, out, s) -> Forall named_output out.
Proof.
  intros F. unfold run_tests. destruct (run_tests_impl lm fuel r args) as [[o su]|] eqn:E; cbn [bind]; [|discriminate]. intros [= <- <- <-].
  apply Forall_app. split; [|constructor; [exact I|destruct (g_file r); repeat constructor]]. revert E. unfold run_tests_impl.
  destruct (get_option args (lit "--help")); [destruct (print_help _ _ _); cbn [bind]; [|discriminate]; intros [= <- _]; apply named_printed|].
  destruct (get_option args (lit "--list-tests-with-tag")).
  - destruct (value_of _); cbn [bind]; [|discriminate]. destruct (list_events _ _) eqn:L; cbn [bind]; [|discriminate]. intros [= <- _]. eapply named_reported, named_list; eauto.
  - destruct (get_option args (lit "--list-tags")); [destruct (list_all_tags _ _ _ _); cbn [bind]; [|discriminate]; intros [= <- _]; apply named_printed|].
    destruct (get_option args (lit "--list-reporters")); [destruct (prints _ _); cbn [bind]; [|discriminate]; intros [= <- _]; apply named_printed|].
    destruct (get_positional_argument args (lit "test regex")).
    + destruct (for_each_positional_argument args _) as [fs|]; cbn [bind]; [|discriminate]. destruct (get_option args (lit "--list-tests")).
      * destruct (list_events _ _) eqn:L; cbn [bind]; [|discriminate]. intros [= <- _]. eapply named_reported, named_list; eauto.
      * destruct (run_selected_tests _ _ _ _ _ _ _) as [[ev su']|] eqn:R; cbn [bind]; [|discriminate]. intros [= <- _]. eapply named_reported, named_run; eauto.
    + destruct (get_option args (lit "--list-tests")).
      * destruct (list_events _ _) eqn:L; cbn [bind]; [|discriminate]. intros [= <- _]. eapply named_reported, named_list; eauto.
      * unfold run_default. destruct (run_selected_tests _ _ _ _ _ _ _) as [[ev su']|] eqn:R; cbn [bind]; [|discriminate]. intros [= <- _]. eapply named_reported, named_run; eauto.
Qed.
End Names.

Theorem carries_program_names lm lm' file duration fuel can_open r path argv x :
  at_least_as_large lm lm' -> 2 <= l_max_command_line_args lm ->
  Forall (fun t => length (full_name_of (id_name (t_id t)) (id_type (t_id t))) <= l_max_test_name_length lm) (g_tests r) ->
  main_program lm fuel file duration can_open r path argv = Ok x -> main_program lm' fuel file duration can_open r path argv = Ok x.
Proof.
  intros LA C2 F. revert x. change (carries (main_program lm fuel file duration can_open r path argv) (main_program lm' fuel file duration can_open r path argv)). unfold main_program.
  apply carries_bind; [now apply carries_arguments|]. intros [printed [args|]] _; [|apply carries_refl].
  apply carries_bind; [now apply carries_configure|]. intros [r1 out1] C. apply carries_bind; [|intros [[r2 out2] su] _; apply carries_refl].
  destruct (configure_parts lm _ _ _ _ _ C) as [E _]. unfold run_program. apply carries_bind.
  - apply carries_run_tests; [exact LA|]. unfold fitting. now rewrite E.
  - intros [[r2 out2] su] R. rewrite (named_perform lm lm' file duration LA); [apply carries_refl|]. eapply named_outputs; [|exact R]. unfold short. now rewrite E.
Qed.

(** ** The XML reporter *)
Definition narrow : limits := mklimits 2 1 10 60 5 8 3 32 3 12 false (quote "1.2").
Definition wide : limits := mklimits 2 1 10 60 5 20 3 32 3 12 false (quote "1.2").
Definition in_xml (lm : limits) (file : event -> text) (duration : event -> option text) (t : test_case) : registry :=
  mkregistry [t] [xml_reporter lm file duration] Full false None None false Vacant.
Lemma xml_names_cut :
  exists (lm lm' : limits) (file : event -> text) (duration : event -> option text) (can_open : text -> bool) (t : test_case) (argv : list text)
    (out out' : list output) (code : nat),
  let program := fun lm => mkregistry [t] [xml_reporter lm file duration] Full false None None false Vacant in
  at_least_as_large lm lm' /\ length (full_name_of (id_name (t_id t)) (id_type (t_id t))) <= l_max_test_name_length lm /\
  main_program lm 2 file duration can_open (program lm) (quote "p") argv = Ok (out, code) /\
  main_program lm' 2 file duration can_open (program lm') (quote "p") argv = Ok (out', code) /\ out <> out'.
Proof.
  set (file := fun _ : event => quote "f"). set (duration := fun _ : event => @None text). set (t := mktest (mkid (quote "a&&b") [] [] []) 1 Nil). set (argv := [quote "--reporter"; quote "xml"]).
  set (go := fun lm => main_program lm 2 file duration (fun _ => true) (in_xml lm file duration t) (quote "p") argv).
  set (long := fun o : list output => length (flat_map (fun x => match x with Printed s => s | _ => [] end) o)).
  assert (K : match go narrow, go wide with Ok (o, c), Ok (o', c') => (c =? c') && negb (long o =? long o') | _, _ => false end = true) by (vm_compute; reflexivity).
  exists narrow, wide, file, duration, (fun _ => true), t, argv. destruct (go narrow) as [[o c]|] eqn:A; [|discriminate]. destruct (go wide) as [[o' c']|] eqn:B; [|discriminate].
  apply andb_true_iff in K as [K1 K2]. apply Nat.eqb_eq in K1. subst c'. exists o, o', c. cbv zeta.
  split; [constructor; cbn; (reflexivity || lia)|]. split; [cbn; lia|]. split; [exact A|]. split; [exact B|]. intros ->. rewrite Nat.eqb_refl in K2. discriminate.
Qed.
