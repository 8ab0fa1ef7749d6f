(** XML reports with texts of any length (C108). *)
From Coq Require Import NArith.
From Verif.Spec Require Import TextSpec FilterSpec PrintSpec EscapeSpec RunSpec TreeSpec Events NumberSpec SessionSpec ProgramSpec XmlSpec ServiceSpec CutSpec CutServiceSpec CutXmlSpec CliSpec.
From Verif.Model Require Import Base Vector StringUtil Integer Print Filter Run Cli File Session Reporters Program.
From Verif.Spec Require Import ProgramClaims LinkClaims.
From Verif.Proofs Require Import Lists VectorProofs AppendProofs IntegerProofs PrintProofs EscapeProofs XmlProofs ReportProofs ReportExamples ServiceProofs EndToEndProofs ChoiceProofs WholeProofs ProgramFacts CutProofs CutService.
From Coq Require Import Lia ZifyBool ZifyNat ZifyN.
Local Open Scope list_scope.
Local Open Scope nat_scope.

Definition xml_field (n : nat) (s : text) : text := got (xml_make_escaped n s).
Definition xml_full (n : nat) (id : test_id) : text := got (xml_make_full_name n id).
Definition xml_filters (n : nat) (filters : list text) : text := got (xml_make_filters n filters).

Lemma xml_field_made n s : xml_make_escaped n s = Ok (xml_field n s) /\ cut_field xml_entities n (fit n s) (xml_field n s).
Proof.
  unfold xml_field. destruct (xml_made n s) as (out & t & E & L & T & A & B). rewrite E. cbn [got]. split; [reflexivity|]. exists t. auto.
Qed.
Lemma xml_escape_made ss n w : wf ss -> vcap ss = n -> vcontent ss = w ->
  exists ss' b, xml_escape ss = Ok (ss', b) /\ cut_field xml_entities n w (vcontent ss').
Proof.
  intros W <- <-. rewrite xml_escape_chain.
  destruct (chain_result xml_entities ss xml_staged xml_long xml_distinct W) as (ss' & b' & t & E' & W' & C' & K1 & B & K2 & K3).
  exists ss', b'. split; [exact E'|]. exists t. split; [exact K1|]. split; [|auto]. rewrite vcontent_length by auto. unfold wf in W'. lia.
Qed.
Lemma xml_name_made n id : xml_make_full_name n id = Ok (xml_full n id) /\ cut_field xml_entities n (firstn n (full_name_of (id_name id) (id_type id))) (xml_full n id).
Proof.
  unfold xml_full, xml_make_full_name.
  set (parts := match id_type id with [] => [id_name id] | _ => [id_name id; lit " <"; id_type id; lit ">"] end).
  assert (E : List.concat parts = full_name_of (id_name id) (id_type id)).
  { unfold parts, full_name_of. destruct (id_type id); cbn [List.concat]; [apply app_nil_r|]. now rewrite app_nil_r. }
  destruct (append_all_content parts (new_string n) (wf_new n)) as (b & Eb & W & C & K).
  rewrite vcontent_new, vcap_new in *. cbn [app] in *. rewrite E in *. unfold full_name_buffer. fold parts. rewrite Eb. cbn [bind].
  destruct (xml_escape_made b n _ W C K) as (ss' & b' & E' & F). rewrite E'. cbn [bind got]. auto.
Qed.
Lemma xml_filter_loop_made l : forall first ss w, wf ss -> vcontent ss = fit (vcap ss) w ->
  exists ss', xml_filter_loop first l ss = Ok ss' /\ wf ss' /\ vcap ss' = vcap ss /\ vcontent ss' = fit (vcap ss) (w ++ filters_from first l).
Proof.
  induction l as [|f l IH]; intros first ss w W K.
  - exists ss. destruct first; cbn [filters_from filters_text flat_map]; rewrite app_nil_r; auto.
  - rewrite filters_from_cons.
    change (xml_filter_loop first (f :: l) ss) with (do (ss1, _) <- append_or_truncate ss [before_filter first; f; dquote] ;; xml_filter_loop false l ss1).
    set (p := before_filter first) in *.
    destruct (append_or_truncate_spec ss [p; f; dquote] W) as (ss1 & E1 & W1 & C1 & K1).
    cbn [List.concat] in K1, E1. rewrite app_nil_r in K1, E1. rewrite E1. cbn [bind].
    change (vcontent ss1 = fit (vcap ss) (vcontent ss ++ p ++ f ++ dquote)) in K1. rewrite K, fit_more, <- C1 in K1.
    destruct (IH false ss1 _ W1 K1) as (ss' & E' & W' & C' & K'). exists ss'. rewrite E'. split; [auto|]. split; [auto|]. split; [congruence|].
    rewrite K', C1. f_equal. unfold text, str. now rewrite <- !app_assoc.
Qed.
Lemma xml_filters_made n filters : xml_make_filters n filters = Ok (xml_filters n filters) /\ cut_field xml_entities n (fit n (filters_text filters)) (xml_filters n filters).
Proof.
  unfold xml_filters, xml_make_filters.
  destruct (xml_filter_loop_made filters true (new_string n) [] (wf_new n)) as (ss & E & W & C & K); [rewrite vcontent_new, vcap_new; unfold fit; now destruct n|].
  rewrite E. cbn [bind]. rewrite vcap_new in *. cbn [app filters_from] in K.
  destruct (xml_escape_made ss n _ W C K) as (ss' & b' & E' & F). rewrite E'. cbn [bind got]. auto.
Qed.
Lemma xml_string_made s : xml_make_string s = Ok (fit 32 s).
Proof. unfold xml_make_string. destruct (new_truncated 32 s) as (ss & b & E & _ & _ & K). rewrite E. cbn [bind]. now rewrite K. Qed.

Lemma drawn_app a b level : drawn level (a ++ b) = (fst (drawn (fst (drawn level a)) b), snd (drawn level a) ++ snd (drawn (fst (drawn level a)) b)).
Proof.
  revert level. induction a as [|l a IH]; intros level; cbn [drawn app fst snd]; [now destruct (drawn level b)|]. rewrite IH. cbn [fst snd]. now rewrite <- app_assoc.
Qed.

Section Xml.
Variables mm mn : nat.
Variable version : str.
Variable file : event -> str.
Variable duration : event -> option str.
Notation lines := (xml_lines (xml_field mm) (xml_full mn) (xml_filters mm) id_tags id_fixture file duration decimal version).

Definition draws (a : xml) (ls : list xml_line) : Prop := forall l l' out, a l = Ok (l', out) -> drawn l ls = (l', List.concat out).

Lemma draws_nothing : draws nothing [].
Proof. intros l l' out [= <- <-]. reflexivity. Qed.
Lemma draws_then a b la lb : draws a la -> draws b lb -> draws (andthen a b) (la ++ lb).
Proof.
  intros A B l l' out. unfold andthen. destruct (a l) as [[l1 o1]|] eqn:E1; cbn [bind]; [|discriminate].
  destruct (b l1) as [[l2 o2]|] eqn:E2; cbn [bind]; [|discriminate]. intros [= <- <-]. rewrite drawn_app, (A _ _ _ E1). cbn [fst snd]. rewrite (B _ _ _ E2).
  cbn [fst snd]. now rewrite concat_app.
Qed.
Lemma draws_cons a b l lb : draws a [l] -> draws b lb -> draws (andthen a b) (l :: lb).
Proof. intros A B. exact (draws_then a b [l] lb A B). Qed.
Lemma draws_one a line : (forall l, emits a l (match line with Start _ _ => S l | _ => l end) (get_indent l ++ line_text line ++ [ascii_of_nat 10])) ->
  (forall n, line <> Stop n) -> draws a [line].
Proof.
  intros H N l l' out E. destruct (H l) as (out' & E' & C). rewrite E in E'. injection E' as -> ->. cbn [drawn fst snd]. rewrite app_nil_r, C.
  destruct line; try reflexivity. now contradiction (N name).
Qed.
Lemma draws_open name args : draws (xml_open mm name args) [Start name args].
Proof. apply draws_one; [|discriminate]. intros l. eapply emits_eq; [apply emits_open|]. cbn [line_text]. unfold attribute_texts, attrs. now rewrite <- !app_assoc. Qed.
Lemma draws_node name args : draws (xml_node mm name args) [Empty name args].
Proof. apply draws_one; [|discriminate]. intros l. eapply emits_eq; [apply emits_node|]. cbn [line_text]. unfold attribute_texts, attrs. now rewrite <- !app_assoc. Qed.
Lemma draws_print s : draws (xml_print mm s) [Contents s].
Proof. apply draws_one; [|discriminate]. intros l. apply emits_print. Qed.
Lemma draws_close name : draws (xml_close mm name) [Stop name].
Proof.
  intros l l' out E. destruct l as [|l]; [discriminate|]. destruct (emits_close mm name l) as (out' & E' & C). rewrite E in E'. injection E' as -> ->.
  cbn [drawn fst snd line_text]. rewrite app_nil_r, C. replace (S l - 1) with l by lia. unfold indented. now rewrite <- !app_assoc.
Qed.
Lemma draws_open_close name s : draws (xml_open_close mm name s) [whole name s].
Proof.
  destruct s as [|c s]; cbn [xml_open_close whole]; [apply draws_node|]. set (s0 := c :: s). apply draws_one; [|discriminate]. intros l.
  eapply emits_eq; [exact (emits_texts mm _ l)|]. cbn [line_text List.concat]. rewrite app_nil_r, <- !app_assoc. reflexivity.
Qed.
Lemma draws_with t s f ls : t = Ok s -> draws (f s) ls -> draws (with_text t f) ls.
Proof. intros -> H l l' out E. exact (H l l' out E). Qed.
Lemma draws_field s f ls : draws (f (xml_field mm s)) ls -> draws (with_text (xml_make_escaped mm s) f) ls.
Proof. apply draws_with, xml_field_made. Qed.
Lemma draws_name id f ls : draws (f (xml_full mn id)) ls -> draws (with_text (xml_make_full_name mn id) f) ls.
Proof. apply draws_with, xml_name_made. Qed.
Lemma draws_string s f ls : draws (f (fit 32 s)) ls -> draws (with_text (xml_make_string s) f) ls.
Proof. apply draws_with, xml_string_made. Qed.
Lemma draws_number n f ls : draws (f (CutXmlSpec.number_of decimal n)) ls -> draws (Reporters.number n f) ls.
Proof. apply draws_string. Qed.
Lemma draws_minus a b c f ls : draws (f (CutXmlSpec.number_of decimal (a - b - c))) ls -> draws (minus2 a b c f) ls.
Proof.
  intros H l l' out. unfold minus2, csub. destruct (b <=? a); cbn [bind]; [|discriminate].
  destruct (c <=? a - b); cbn [bind]; [|discriminate]. apply draws_string. exact H.
Qed.
Lemma draws_duration e f ls : draws (f (time_of duration e)) ls -> draws (duration_attribute duration e f) ls.
Proof. unfold duration_attribute, time_of. destruct (duration e) as [d|]; [|auto].
  intros H. apply (draws_string d (fun s => f [(quote "durationInSeconds", s)])), H. Qed.

Lemma draws_captures captures :
  draws (xml_captures mm captures) (flat_map (fun c => [Start (quote "Info") []; Contents (xml_field mm c); Stop (quote "Info")]) captures).
Proof.
  induction captures as [|c captures IH]; [apply draws_nothing|]. cbn [xml_captures flat_map app].
  apply draws_cons; [apply draws_open|]. apply draws_cons; [apply draws_field, draws_print|]. apply draws_cons; [apply draws_close|exact IH].
Qed.
Lemma draws_assertion e captures l what success :
  draws (xml_report_assertion mm file e captures l what success) (check_lines (xml_field mm) file decimal e captures l what success).
Proof.
  unfold xml_report_assertion, check_lines. apply draws_then; [apply draws_captures|]. destruct what as [m|macro expected actual].
  - cbv zeta. apply draws_cons; [apply draws_field, draws_string; destruct success; apply draws_open|]. apply draws_cons; [apply draws_field, draws_print|].
    destruct success; apply draws_close.
  - apply draws_cons; [apply draws_field, draws_string; destruct success; apply draws_open|]. apply draws_cons; [apply draws_open|].
    apply draws_cons; [apply draws_field, draws_print|]. apply draws_cons; [apply draws_close|]. apply draws_cons; [apply draws_open|].
    apply draws_cons; [destruct actual; apply draws_field, draws_print|]. apply draws_cons; [apply draws_close|]. apply draws_close.
Qed.

Theorem draws_report e : draws (xml_report mm mn version file duration e) (lines e).
Proof.
  destruct e; cbn [xml_report xml_lines].
  - apply draws_cons; [apply draws_print|]. apply draws_field. apply draws_with with (s := xml_filters mm filters); [apply xml_filters_made|]. apply draws_open.
  - apply draws_cons; [apply draws_minus, draws_number, draws_number, draws_number, draws_node|].
    apply draws_cons; [apply draws_minus, draws_number, draws_number, draws_number, draws_node|]. apply draws_close.
  - apply draws_name, draws_field, draws_field, draws_number, draws_open.
  - apply draws_cons; [apply draws_duration; destruct s; apply draws_node|apply draws_close].
  - apply draws_field, draws_field, draws_number, draws_open.
  - apply draws_cons; [apply draws_minus, draws_number, draws_number, draws_duration; destruct skipped; apply draws_node|apply draws_close].
  - apply draws_assertion.
  - apply draws_assertion.
  - apply draws_cons; [apply draws_field, draws_number, draws_open|]. apply draws_cons; [apply draws_print|apply draws_close].
  - apply draws_cons; [apply draws_print|apply draws_open].
  - apply draws_close.
  - repeat (apply draws_cons; [first [apply draws_open | apply draws_close | apply draws_name, draws_open_close | apply draws_field, draws_open_close | apply draws_number, draws_open_close]|]).
    apply draws_close.
  - apply draws_nothing.
Qed.
Theorem draws_reports l : draws (xml_reports mm mn version file duration l) (flat_map lines l).
Proof. induction l as [|e l IH]; [apply draws_nothing|]. cbn [xml_reports flat_map]. apply draws_then; [apply draws_report|exact IH]. Qed.
End Xml.

Theorem xml_exact :
  exists (shown : nat -> text) (field : nat -> text -> text) (name_of : nat -> test_id -> text) (filters_of : nat -> list text -> text),
  (forall n, (N.of_nat n < 2 ^ 64)%N -> writes 10 (shown n) (N.of_nat n)) /\
  (forall n s, cut_field xml_entities n (fit n s) (field n s)) /\
  (forall n id, cut_field xml_entities n (firstn n (full_name_of (id_name id) (id_type id))) (name_of n id)) /\
  (forall n filters, cut_field xml_entities n (fit n (filters_text filters)) (filters_of n filters)) /\
  (forall (mm mn : nat) (version : text) (file : event -> text) (duration : event -> option text) (l : list event) (level level' : nat) (out : list text),
   xml_reports mm mn version file duration l level = Ok (level', out) ->
   drawn level (flat_map (xml_lines (field mm) (name_of mn) (filters_of mm) id_tags id_fixture file duration shown version) l) = (level', List.concat out)) /\
  (forall (lm : Session.limits) (fuel : nat) (file : event -> text) (duration : event -> option text) (can_open : text -> bool)
     (r : registry) (path : text) (argv : list text) (out : list output) (code : nat) (out' : list output) (code' : nat),
   length argv <= l_max_command_line_args lm -> acceptable argv -> asks_run (setting (read argv)) -> g_to_file r = false ->
   reporter_asked (xml_reporter lm file duration) r argv ->
   main_program lm fuel file duration can_open r path argv = Ok (out, code) ->
   main lm fuel can_open r path argv = Ok (out', code') ->
   code = code' /\
   report_goes lm r argv out
     (snd (drawn 0 (flat_map (xml_lines (field (l_max_message_length lm)) (name_of (l_max_test_name_length lm)) (filters_of (l_max_message_length lm))
                                id_tags id_fixture file duration shown (l_version lm)) (events_of out'))))).
Proof.
  exists decimal, xml_field, xml_full, xml_filters. split; [exact decimal_reads|]. split; [apply xml_field_made|]. split; [apply xml_name_made|]. split; [apply xml_filters_made|]. split.
  - intros. now apply draws_reports.
  - intros lm fuel file duration can_open r path argv out code out' code' L ACC AR TF (arg & i & SR & N & F) M M'.
    destruct (main_runs lm fuel file duration can_open r path argv out code L ACC AR TF M)
      as (printed & args & r1 & out1 & fs & pr & events & success & r3 & texts & P & C & RS & RL & -> & MM & -> & G).
    rewrite MM in M'. injection M' as <- <-. split; [reflexivity|].
    rewrite (main_events lm printed out1 r1 events _ _ _ C) in *.
    destruct (chosen_registry lm file duration can_open r path argv printed args r1 out1 arg (xml_reporter lm file duration) L P C SR (ex_intro _ i F) N) as (X & _).
    destruct (X eq_refl) as (i' & R1 & S1). destruct (xml_selected_reports lm file duration _ _ _ _ _ _ R1 S1 RL) as (k & E).
    unfold mm, mn in E. apply draws_reports in E. rewrite E. exact G.
Qed.
