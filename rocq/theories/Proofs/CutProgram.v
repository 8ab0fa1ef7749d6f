(** Whole reports with texts that are too long (C106). *)
From Coq Require Import NArith Lia.
From Verif.Spec Require Import TextSpec FilterSpec PrintSpec NumberSpec EscapeSpec RunSpec TreeSpec Events VerdictSpec SessionSpec ProgramSpec XmlSpec ServiceSpec ConsoleSpec CutSpec CliSpec.
From Verif.Model Require Import Base Vector StringUtil Print Filter Run Cli File Session Reporters Program.
From Verif.Spec Require Import ProgramClaims.
From Verif.Proofs Require Import Lists VectorProofs AppendProofs PrintProofs CliProofs CliFacts SessionProofs SessionFacts ConfigProofs ProgramProofs EndToEndProofs ChoiceProofs XmlProofs ReportExamples ServiceProofs ConsoleProofs WholeProofs ProgramFacts CutProofs WarningProofs.
Local Open Scope string_scope.
Local Open Scope list_scope.
Local Open Scope nat_scope.

(** ** Listings *)
Lemma listing_gives mm mn version with_color file duration counter (tests : list (test_id * nat)) :
  exists counter' out, console_reports mm mn version with_color file duration counter
      (ListTestRunStarted :: map (fun t => TestCaseListed (fst t) (snd t)) tests ++ [ListTestRunEnded]) = Ok (counter', out) /\
    List.concat out = cut_listing mm mn with_color id_name id_type (fun id => full_name_of (id_name id) (id_type id)) id_tags file duration decimal version tests.
Proof.
  set (l := ListTestRunStarted :: map (fun t => TestCaseListed (fst t) (snd t)) tests).
  destruct (events_give mm mn version with_color file duration l counter) as (out & E & C).
  { intros [H|H]; [discriminate|]. apply in_map_iff in H as (t & H & _). discriminate. }
  assert (N : counted counter l = length tests).
  { unfold l, counted. cbn [fold_left].
    assert (G : forall k, fold_left (fun n (e : event) => match e with ListTestRunStarted => 0 | TestCaseListed _ _ => S n | _ => n end)
                 (map (fun t => TestCaseListed (fst t) (snd t)) tests) k = length tests + k).
    { clear. induction tests as [|t tests IH]; intros k; [reflexivity|]. cbn [map fold_left length]. rewrite IH. lia. }
    rewrite G. lia. }
  rewrite N in E.
  assert (A : forall a b c c1 o1 c2 o2, console_reports mm mn version with_color file duration c a = Ok (c1, o1) ->
    console_reports mm mn version with_color file duration c1 b = Ok (c2, o2) -> console_reports mm mn version with_color file duration c (a ++ b) = Ok (c2, o1 ++ o2)).
  { clear. induction a as [|e a IH]; intros b c c1 o1 c2 o2 E1 E2.
    - injection E1 as <- <-. exact E2.
    - cbn [console_reports app] in *. destruct (console_report mm mn version with_color file duration c e) as [[c3 o3]|]; [|discriminate]. cbn [bind] in *.
      destruct (console_reports mm mn version with_color file duration c3 a) as [[c4 o4]|] eqn:E4; [|discriminate]. cbn [bind] in *. injection E1 as -> <-.
      rewrite (IH _ _ _ _ _ _ E4 E2). cbn [bind]. now rewrite app_assoc. }
  assert (P : tells (console_prints mm [[Number (decimal (length tests)); Text (lit " matching test cases" ++ line_feed)]]) (cut_number mm (decimal (length tests)) ++ lit " matching test cases" ++ line_feed)).
  { apply gives_prints. unfold gives. cbn [List.concat app flat_map]. rewrite app_nil_r. reflexivity. }
  destruct P as (o2 & E2 & C2).
  exists (length tests), (out ++ o2). split.
  - change (ListTestRunStarted :: map (fun t => TestCaseListed (fst t) (snd t)) tests ++ [ListTestRunEnded]) with (l ++ [ListTestRunEnded]).
    eapply A; [exact E|]. cbn [console_reports]. unfold console_report. cbn [console_calls bind]. rewrite E2. cbn [bind]. now rewrite app_nil_r.
  - rewrite concat_app, C, C2. unfold cut_listing, l. cbn [flat_map]. rewrite <- !app_assoc. do 2 f_equal.
    clear. induction tests as [|t tests IH]; [reflexivity|]. cbn [map flat_map]. now rewrite IH.
Qed.

Theorem console_exact :
  exists shown : nat -> text, (forall n, (N.of_nat n < 2 ^ 64)%N -> writes 10 (shown n) (N.of_nat n)) /\
  forall (mm mn : nat) (version : text) (colours : bool) (file : event -> text) (duration : event -> option text) (counter : nat),
  let full_name := fun id => full_name_of (id_name id) (id_type id) in
  (forall l : list event, ~ In ListTestRunEnded l ->
   exists counter' out, console_reports mm mn version colours file duration counter l = Ok (counter', out) /\
   List.concat out = flat_map (cut_text mm mn colours id_name id_type full_name id_tags file duration shown version) l) /\
  (forall tests : list (test_id * nat),
   exists counter' out, console_reports mm mn version colours file duration counter
       (ListTestRunStarted :: map (fun t => TestCaseListed (fst t) (snd t)) tests ++ [ListTestRunEnded]) = Ok (counter', out) /\
   List.concat out = cut_listing mm mn colours id_name id_type full_name id_tags file duration shown version tests).
Proof.
  exists decimal. split; [exact decimal_reads|]. intros. split.
  - intros l H. destruct (events_give mm mn version colours file duration l counter H) as (out & E & C). eauto.
  - intros tests. apply listing_gives.
Qed.

(** ** Programs *)
Lemma run_no_listing lm fuel v tests name fs predicate events success :
  run_selected_tests lm fuel v tests name fs predicate = Ok (events, success) -> ~ In ListTestRunEnded events.
Proof.
  intros R. rewrite run_selected_verbosity in R. destruct (run_selected_tests lm fuel Full _ _ _ _) as [[ev su]|] eqn:RF; [|discriminate]. injection R as <- <-.
  intros I. apply filter_In in I as (I & _). apply run_summary in RF as (parts & -> & _ & _ & F). cbv zeta in I.
  apply in_app_or in I as [[I|[]]|I]; [discriminate|]. apply in_app_or in I as [I|[I|[]]]; [|discriminate].
  apply in_concat in I as (part & IP & I). clear - F IP I. induction F as [|t p ts ps (st & body & c & s & _ & _ & -> & B) F IH]; [destruct IP|].
  destruct IP as [<-|IP]; [|auto]. apply in_app_or in I as [[I|[]]|I]; [discriminate|]. apply in_app_or in I as [I|[I|[]]]; [|discriminate].
  rewrite Forall_forall in B. specialize (B _ I). discriminate.
Qed.

Theorem console_program_exact :
  exists shown : nat -> text, (forall n, (N.of_nat n < 2 ^ 64)%N -> writes 10 (shown n) (N.of_nat n)) /\
  forall (lm : Session.limits) (fuel : nat) (file : event -> text) (duration : event -> option text) (can_open : text -> bool)
    (r : registry) (path : text) (argv : list text) (out : list output) (code : nat) (out' : list output) (code' : nat),
  let full_name := fun id => full_name_of (id_name id) (id_type id) in
  length argv <= l_max_command_line_args lm -> acceptable argv -> asks_run (setting (read argv)) -> g_to_file r = false ->
  console_asked lm file duration r argv ->
  main_program lm fuel file duration can_open r path argv = Ok (out, code) ->
  main lm fuel can_open r path argv = Ok (out', code') ->
  code = code' /\
  exists colours : bool, report_colours r argv colours /\
    report_goes lm r argv out
      (flat_map (cut_text (l_max_message_length lm) (l_max_test_name_length lm) colours id_name id_type full_name id_tags file duration shown (l_version lm)) (events_of out')).
Proof.
  exists decimal. split; [exact decimal_reads|]. cbv zeta.
  intros lm fuel file duration can_open r path argv out code out' code' L ACC AR TF CA M M'. destruct (main_runs lm fuel file duration can_open r path argv out code L ACC AR TF M)
    as (printed & args & r1 & out1 & fs & pr & events & success & r3 & texts & P & C & RS & RL & -> & MM & -> & G).
  rewrite MM in M'. injection M' as <- <-. split; [reflexivity|].
  rewrite (main_events lm printed out1 r1 events _ _ _ C).
  destruct (choice lm file duration can_open r path argv printed args r1 out1 L P C) as (_ & _ & CH1 & CH2). cbv zeta in CH1, CH2.
  assert (Q : exists c c', console_reports (l_max_message_length lm) (l_max_test_name_length lm) (l_version lm) (g_with_color r1) file duration c events = Ok (c', texts)).
  { destruct CA as [(N & GR)|(arg & i & SR & N & F)].
    - destruct (CH1 N) as (V & R1 & S1). rewrite GR in R1. destruct (default_reports lm file duration _ _ _ _ R1 RL) as (c & c' & E & _). eauto.
    - destruct (CH2 arg SR) as (_ & K). destruct (K i _ F N) as (K1 & _). destruct (K1 eq_refl) as (V & R1).
      apply configure_prepared in C as (r4 & o4 & o5 & (_ & P2 & _) & S & _). 
      destruct (parsed_options (cli_of lm) _ _ _ _ L P) as [GO _]. specialize (GO (quote "--reporter") ltac:(discriminate)). rewrite SR in GO. change quote with lit in *.
      destruct (get_option args (lit "--reporter")) as [a|]; [|discriminate]. cbn [option_map reporter_step] in *. unfold value_of in S. destruct (a_value a) as [w|]; [|discriminate].
      injection GO as ->. cbn [bind] in S. rewrite <- P2 in F. destruct (console_chosen lm file duration _ _ _ _ _ F N S) as (col & ->).
      edestruct (console_selected_reports lm file duration events) as (c' & E); [| |exact RL|]; [reflexivity|reflexivity|]. eauto. }
  destruct Q as (c & c' & E). exists (g_with_color r1). split; [exact (colours_chosen lm file duration can_open r path argv printed args r1 out1 L P C CA)|].
  destruct (events_give (l_max_message_length lm) (l_max_test_name_length lm) (l_version lm) (g_with_color r1) file duration events c (run_no_listing _ _ _ _ _ _ _ _ _ RS)) as (out & E' & K).
  rewrite E in E'. injection E' as _ <-. rewrite K in G. exact G.
Qed.
