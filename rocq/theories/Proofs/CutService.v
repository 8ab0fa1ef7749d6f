(** Service messages with texts of any length (C107). *)
From Coq Require Import NArith.
From Verif.Spec Require Import TextSpec FilterSpec PrintSpec EscapeSpec RunSpec TreeSpec Events NumberSpec SessionSpec ProgramSpec XmlSpec ServiceSpec CutSpec CutServiceSpec CliSpec.
From Verif.Model Require Import Base Vector StringUtil Integer Print Filter Run Cli File Session Reporters Program.
From Verif.Spec Require Import ProgramClaims LinkClaims.
From Verif.Proofs Require Import Lists VectorProofs AppendProofs IntegerProofs PrintProofs EscapeProofs XmlProofs ReportProofs ReportExamples ServiceProofs EndToEndProofs ChoiceProofs WholeProofs ProgramFacts CutProofs.
From Coq Require Import Lia ZifyBool ZifyNat ZifyN.
Local Open Scope list_scope.
Local Open Scope nat_scope.

(** What is printed. *)
Definition got (a : res str) : text := match a with Ok s => s | Err _ => [] end.
Definition tc_field (n : nat) (s : text) : text := got (tc_make_escaped n s).
Definition tc_name (n : nat) (id : test_id) : text := got (tc_full_name n id).
Definition tc_suite (n : nat) (name : text) (filters : list text) : text := got (tc_suite_name n name filters).

Lemma field_made n s : tc_make_escaped n s = Ok (tc_field n s) /\ cut_field teamcity_code n (fit n s) (tc_field n s).
Proof.
  unfold tc_field. destruct (tc_made n s) as (out & t & E & L & T & A & B). rewrite E. cbn [got]. split; [reflexivity|]. exists t. auto.
Qed.
Lemma escape_made ss n w : wf ss -> vcap ss = n -> vcontent ss = w ->
  exists ss' b, tc_escape ss = Ok (ss', b) /\ cut_field teamcity_code n w (vcontent ss').
Proof.
  intros W <- <-. rewrite tc_escape_chain.
  destruct (chain_result teamcity_code ss tc_staged tc_long tc_distinct W) as (ss' & b' & t & E' & W' & C' & K1 & B & K2 & K3).
  exists ss', b'. split; [exact E'|]. exists t. split; [exact K1|]. split; [|auto]. rewrite vcontent_length by auto. unfold wf in W'. lia.
Qed.
Lemma name_made n id : tc_full_name n id = Ok (tc_name n id) /\ cut_field teamcity_code n (firstn n (full_name_of (id_name id) (id_type id))) (tc_name n id).
Proof.
  unfold tc_name, tc_full_name.
  set (parts := match id_type id with [] => [id_name id] | _ => [id_name id; lit " <"; id_type id; lit ">"] end).
  assert (E : List.concat parts = full_name_of (id_name id) (id_type id)).
  { unfold parts, full_name_of. destruct (id_type id); cbn [List.concat]; [apply app_nil_r|]. now rewrite app_nil_r. }
  destruct (append_all_content parts (new_string n) (wf_new n)) as (b & Eb & W & C & K).
  rewrite vcontent_new, vcap_new in *. cbn [app] in *. rewrite E in *. unfold full_name_buffer. fold parts. rewrite Eb. cbn [bind].
  destruct (escape_made b n _ W C K) as (ss' & b' & E' & F). rewrite E'. cbn [bind got]. auto.
Qed.
Lemma fit_more n a b : fit n (fit n a ++ b) = fit n (a ++ b).
Proof.
  unfold fit at 2. destruct (Nat.leb_spec (length a) n) as [L|L]; [reflexivity|].
  unfold fit. rewrite !app_length. destruct (Nat.leb_spec (length a + length b) n); [lia|].
  assert (LT : length (truncated n a) = n) by (unfold truncated, dots; rewrite app_length, firstn_length, repeat_length; lia).
  rewrite LT. destruct (Nat.leb_spec (n + length b) n) as [L2|L2].
  - destruct b; [|cbn in L2; lia]. now rewrite !app_nil_r.
  - unfold truncated. rewrite <- app_assoc, firstn_app_le by (rewrite firstn_length; lia). rewrite firstn_firstn, Nat.min_id. now rewrite firstn_app_le by lia.
Qed.
Lemma filter_loop_made l : forall ss w, wf ss -> vcontent ss = fit (vcap ss) w ->
  exists ss', tc_filter_loop l ss = Ok ss' /\ wf ss' /\ vcap ss' = vcap ss /\ vcontent ss' = fit (vcap ss) (w ++ filter_texts l).
Proof.
  induction l as [|f l IH]; intros ss w W K.
  - exists ss. cbn [filter_texts flat_map]. rewrite app_nil_r. auto.
  - set (p := lit " " ++ dquote).
    change (tc_filter_loop (f :: l) ss) with (do (ss1, _) <- append_or_truncate ss [p; f; dquote] ;; tc_filter_loop l ss1).
    destruct (append_or_truncate_spec ss [p; f; dquote] W) as (ss1 & E1 & W1 & C1 & K1).
    cbn [List.concat] in K1, E1. rewrite app_nil_r in K1, E1. rewrite E1. cbn [bind].
    change (vcontent ss1 = fit (vcap ss) (vcontent ss ++ p ++ f ++ dquote)) in K1. rewrite K, fit_more, <- C1 in K1.
    destruct (IH ss1 _ W1 K1) as (ss' & E' & W' & C' & K'). exists ss'. rewrite E'. split; [auto|]. split; [auto|]. split; [congruence|].
    rewrite K', C1. f_equal. unfold filter_texts. cbn [flat_map]. unfold p. unfold text, str. rewrite <- !app_assoc. reflexivity.
Qed.
Lemma suite_made n name filters : tc_suite_name n name filters = Ok (tc_suite n name filters) /\ cut_field teamcity_code n (fit n (suite_name name filters)) (tc_suite n name filters).
Proof.
  unfold tc_suite, tc_suite_name. destruct (new_truncated n name) as (ss1 & b1 & E1 & W1 & C1 & K1). rewrite E1. cbn [bind].
  rewrite <- C1 in K1. destruct (filter_loop_made filters ss1 name W1 K1) as (ss & E & W & C & K). rewrite E. cbn [bind].
  rewrite C1 in *. destruct (escape_made ss n _ W C K) as (ss' & b' & E' & F). rewrite E'. cbn [bind got]. auto.
Qed.

Section Service.
Variables mm mn : nat.
Variable file : event -> str.
Variable duration : event -> option str.
Notation texts := (service_text mm (tc_field mm) (tc_name mn) (tc_suite mm) file duration decimal).

Lemma print_told l : tells (tc_print mm l) (flat_map (squeezed mm) l).
Proof. destruct (print_exact mm l) as (out & E & C & _). exists out. auto. Qed.
Lemma field_told s f t : tells (f (tc_field mm s)) t -> tells (tc_text (tc_make_escaped mm s) f) t.
Proof. intros H. eapply tells_text; [apply field_made|exact H]. Qed.
Ltac joins := unfold text, str, encoded_feed; cbn [flat_map squeezed app]; rewrite ?app_nil_r, <- ?app_assoc; cbn [app]; rewrite <- ?app_assoc; reflexivity.

Lemma captures_given l : tells (tc_captures mm l) (flat_map (fun c : text => quote "with " ++ tc_field mm c ++ encoded_feed) l).
Proof.
  induction l as [|c l IH]; [apply tells_nothing|]. cbn [tc_captures flat_map]. apply tells_then; [|exact IH].
  apply field_told. eapply tells_eq; [apply print_told|joins].
Qed.
Lemma assertion_given e captures l what :
  tells (tc_print_assertion mm (file e) captures l what) (apostrophe ++ service_details mm (tc_field mm) file decimal e captures l what ++ apostrophe).
Proof.
  unfold tc_print_assertion. eapply tells_eq.
  - apply tells_then; [apply field_told, print_told|]. apply tells_then; [apply captures_given|].
    instantiate (1 := quote "  " ++ service_what (tc_field mm) what ++ apostrophe). destruct what as [m|macro expected actual].
    + apply field_told. eapply tells_eq; [apply print_told|joins].
    + eapply tells_eq; [apply tells_then; [apply field_told, print_told|]|].
      * instantiate (1 := match actual with [] => [] | _ => (if same_line macro expected actual then quote ", got: " else encoded_feed ++ quote "  got: ") ++ tc_field mm actual end ++ apostrophe).
        destruct actual as [|a0 actual]; [eapply tells_eq; [apply print_told|joins]|].
        set (actual' := a0 :: actual) in *. unfold same_line.
        destruct ((64 <? length expected + length macro + 3) || (64 <? length actual' + 5)) eqn:B;
          destruct ((length macro + length expected + 3 <=? 64) && (length actual' + 5 <=? 64)) eqn:B'; unfold text, str in *; try lia; clear B B'; clearbody actual';
          (apply field_told; eapply tells_eq; [apply print_told|joins]).
      * cbn [service_what]. destruct actual; joins.
  - unfold service_details. cbn [flat_map]. rewrite squeezed_number, !squeezed_text. joins.
Qed.

(** What is printed of the values of a message. *)
Definition value_text (e : event) (v : tc_value) : text :=
  match v with TcText s => s | TcAssertion _ captures l what => service_details mm (tc_field mm) file decimal e captures l what end.
Definition value_of_event (e : event) (v : tc_value) : Prop := match v with TcText _ => True | TcAssertion f _ _ _ => f = file e end.
Lemma message_given e name args : Forall (fun a => value_of_event e (snd a)) args ->
  tells (tc_send_message mm name args) (service_line name (map (fun a => (fst a, value_text e (snd a))) args)).
Proof.
  intros H. unfold tc_send_message, service_line. eapply tells_eq.
  - apply tells_then; [apply print_told|]. apply tells_then; [|apply print_told].
    instantiate (1 := flat_map (fun v => quote " " ++ fst v ++ quote "=" ++ [ascii_of_nat 39] ++ snd v ++ [ascii_of_nat 39]) (map (fun a => (fst a, value_text e (snd a))) args)).
    induction H as [|[key v] args V _ IH]; [apply tells_nothing|]. cbn [tc_args map flat_map fst snd] in *.
    eapply tells_eq; [apply tells_then; [apply print_told|apply tells_then; [|exact IH]]|].
    + instantiate (1 := [ascii_of_nat 39] ++ value_text e v ++ [ascii_of_nat 39]). destruct v as [s|f captures l what]; cbn [value_text value_of_event] in *.
      * eapply tells_eq; [apply print_told|joins].
      * subst f. apply assertion_given.
    + joins.
  - joins.
Qed.

Theorem service_given e : tells (tc_report mm mn file duration e) (texts e).
Proof.
  destruct e; cbn [tc_report service_text]; try (apply tells_nothing).
  - eapply tells_text; [apply suite_made|]. eapply tells_eq; [apply (message_given (TestRunStarted name filters)); repeat constructor|reflexivity].
  - eapply tells_text; [apply suite_made|]. eapply tells_eq; [apply (message_given (User 0)); repeat constructor|reflexivity].
  - eapply tells_text; [apply name_made|]. eapply tells_eq; [apply (message_given (User 0)); repeat constructor|reflexivity].
  - eapply tells_text; [apply name_made|]. destruct (duration _) as [d|].
    + destruct (new_truncated 32 d) as (ss & b & E & _ & _ & K). eapply tells_text; [rewrite E; cbn [bind]; reflexivity|]. rewrite K.
      eapply tells_eq; [apply (message_given (User 0)); repeat constructor|reflexivity].
    + eapply tells_eq; [apply (message_given (User 0)); repeat constructor|reflexivity].
  - eapply tells_eq; [apply (message_given (User 0)); repeat constructor|reflexivity].
  - eapply tells_eq; [apply (message_given (User 0)); repeat constructor|reflexivity].
  - set (e := AssertionFailed id sections captures l what expected allowed) in *. eapply tells_text; [apply name_made|].
    destruct (expected || allowed); (eapply tells_eq; [apply (message_given e); repeat constructor|reflexivity]).
  - set (e := AssertionSucceeded id sections captures l what) in *. eapply tells_text; [apply name_made|].
    eapply tells_eq; [apply (message_given e); repeat constructor|reflexivity].
  - set (e := TestCaseSkipped id sections captures l message) in *. eapply tells_text; [apply name_made|].
    eapply tells_eq; [apply (message_given e); repeat constructor|reflexivity].
  - eapply tells_text; [apply name_made|]. eapply tells_eq; [apply print_told|joins].
Qed.
Theorem services_given l : tells (tc_reports mm mn file duration l) (flat_map texts l).
Proof. induction l as [|e l IH]; [apply tells_nothing|]. cbn [tc_reports flat_map]. apply tells_then; [apply service_given|exact IH]. Qed.
End Service.

Theorem service_exact :
  exists (shown : nat -> text) (field : nat -> text -> text) (name_of : nat -> test_id -> text) (suite_of : nat -> text -> list text -> text),
  (forall n, (N.of_nat n < 2 ^ 64)%N -> writes 10 (shown n) (N.of_nat n)) /\
  (forall n s, cut_field teamcity_code n (fit n s) (field n s)) /\
  (forall n id, cut_field teamcity_code n (firstn n (full_name_of (id_name id) (id_type id))) (name_of n id)) /\
  (forall n name filters, cut_field teamcity_code n (fit n (suite_name name filters)) (suite_of n name filters)) /\
  (forall (mm mn : nat) (file : event -> text) (duration : event -> option text) (l : list event),
   exists out, tc_reports mm mn file duration l = Ok out /\
     List.concat out = flat_map (service_text mm (field mm) (name_of mn) (suite_of mm) file duration shown) l) /\
  (forall (lm : Session.limits) (fuel : nat) (file : event -> text) (duration : event -> option text) (can_open : text -> bool)
     (r : registry) (path : text) (argv : list text) (out : list output) (code : nat) (out' : list output) (code' : nat),
   length argv <= l_max_command_line_args lm -> acceptable argv -> asks_run (setting (read argv)) -> g_to_file r = false ->
   reporter_asked (teamcity_reporter lm file duration) r argv ->
   main_program lm fuel file duration can_open r path argv = Ok (out, code) ->
   main lm fuel can_open r path argv = Ok (out', code') ->
   code = code' /\
   report_goes lm r argv out
     (flat_map (service_text (l_max_message_length lm) (field (l_max_message_length lm)) (name_of (l_max_test_name_length lm)) (suite_of (l_max_message_length lm)) file duration shown) (events_of out'))).
Proof.
  exists decimal, tc_field, tc_name, tc_suite. split; [exact decimal_reads|]. split; [apply field_made|]. split; [apply name_made|]. split; [apply suite_made|]. split.
  - intros. apply services_given.
  - intros lm fuel file duration can_open r path argv out code out' code' L ACC AR TF (arg & i & SR & N & F) M M'.
    destruct (main_runs lm fuel file duration can_open r path argv out code L ACC AR TF M)
      as (printed & args & r1 & out1 & fs & pr & events & success & r3 & texts & P & C & RS & RL & -> & MM & -> & G).
    rewrite MM in M'. injection M' as <- <-. split; [reflexivity|].
    rewrite (main_events lm printed out1 r1 events _ _ _ C) in *.
    destruct (chosen_registry lm file duration can_open r path argv printed args r1 out1 arg (teamcity_reporter lm file duration) L P C SR (ex_intro _ i F) N) as (_ & X).
    destruct (X eq_refl) as (i' & R1 & S1). pose proof (teamcity_selected_reports lm file duration _ _ _ _ _ R1 S1 RL) as E.
    destruct (services_given (l_max_message_length lm) (l_max_test_name_length lm) file duration events) as (o & E1 & E2). unfold mm, mn in E. rewrite E in E1. injection E1 as ->. rewrite E2 in G. exact G.
Qed.
