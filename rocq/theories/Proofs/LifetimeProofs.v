(** Reporter objects, and programs that never fail (C64, C66). *)
From Verif.Spec Require Import TextSpec FilterSpec PrintSpec NumberSpec RunSpec TreeSpec Events VerdictSpec SessionSpec ProgramSpec XmlSpec CliSpec.
From Verif.Model Require Import Base Vector StringUtil Print Filter Run Cli File Session Reporters Program.
From Verif.Spec Require Import ProgramClaims.
From Verif.Proofs Require Import Lists VectorProofs AppendProofs ReplaceProofs FilterProofs RunFacts PrintProofs CliProofs CliFacts SessionProofs SessionFacts FileProofs ConfigProofs ReporterProofs ProgramProofs EndToEndProofs ChoiceProofs XmlProofs ReportProofs ServiceProofs ConsoleProofs WholeProofs.
From Coq Require Import Lia.
Local Open Scope list_scope.

(** ** Reporters that never fail *)
Section Lifetime.
Variable lm : limits.
Variable fuel : nat.
Variable file : event -> str.
Variable duration : event -> option str.
Notation main_program := (main_program lm fuel file duration).
Notation run_program := (run_program lm fuel file duration).
Notation report_list := (report_list lm file duration).
Notation perform := (perform lm file duration).

Lemma console_starts : starts (console_reporter lm file duration).
Proof.
  split; [intros m; cbn; eauto|]. intros m memory k v. cbn [r_configure console_reporter]. unfold console_configure.
  destruct (seqb k (lit "color")); [|destruct (seqb k (lit "colour-mode")); [|eauto]].
  - destruct (color_directive_total lm (lit "always") (lit "never") (lit "always|default|never") (m_color m) v) as ([[c b] o] & E). unfold color_option_directive. rewrite E. cbn [bind]. eauto.
  - destruct (color_directive_total lm (lit "ansi") (lit "none") (lit "ansi|default|none") (m_color m) v) as ([[c b] o] & E). unfold colour_mode_directive. rewrite E. cbn [bind]. eauto.
Qed.
Lemma teamcity_starts : starts (teamcity_reporter lm file duration).
Proof. split; intros; cbn; eauto. Qed.
Lemma xml_starts : starts (xml_reporter lm file duration).
Proof. split; intros; cbn; eauto. Qed.
Lemma console_speaks : speaks (console_reporter lm file duration).
Proof.
  intros m c e. cbn [r_report console_reporter].
  destruct (console_fine (mm lm) (mn lm) (l_version lm) (m_color m) file duration [e] c) as (c' & out & E). cbn [console_reports] in E.
  destruct (console_report _ _ _ _ _ _ c e) as [x|]; [eauto|discriminate].
Qed.
Lemma teamcity_speaks : speaks (teamcity_reporter lm file duration).
Proof.
  intros m [] e. cbn [r_report teamcity_reporter]. destruct (service_total (mm lm) (mn lm) file duration [e]) as (out & E). cbn [tc_reports] in E. unfold tc_then in E.
  destruct (tc_report _ _ _ _ e) as [x|]; cbn [bind] in *; [eauto|discriminate].
Qed.

(** ** Reports *)
Definition ready (r : registry) : Prop := g_reporter r = None \/ exists i p memory, g_reporter r = Some i /\ g_storage r = Holds p memory /\ speaks p.
Lemma report_ready r e : ready r -> exists r' t, Program.report lm file duration r e = Ok (r', t) /\ ready r'.
Proof.
  intros [N|(i & p & memory & N & S & SP)]; unfold Program.report; rewrite N.
  - destruct (console_fine (mm lm) (mn lm) (l_version lm) (g_with_color r) file duration [e] (match g_storage r with Default c => c | _ => 0 end)) as (c' & out & E). cbn [console_reports] in E.
    destruct (console_report _ _ _ _ _ _ _ e) as [[c o]|]; [|discriminate]. cbn [bind]. eexists _, _. split; [reflexivity|]. left. exact N.
  - rewrite S. destruct (SP (modes_of r) memory e) as ([memory' t] & ->). cbn [bind]. eexists _, _. split; [reflexivity|]. right. exists i, p, memory'. auto.
Qed.
Lemma report_list_ready l : forall r, ready r -> exists r' t, report_list r l = Ok (r', t) /\ ready r'.
Proof.
  induction l as [|e l IH]; intros r R; cbn [EndToEndProofs.report_list]; [eauto|].
  destruct (report_ready r e R) as (r1 & t1 & -> & R1). destruct (IH r1 R1) as (r2 & t2 & E & R2). cbn [bind]. rewrite E. cbn [bind]. eauto.
Qed.

Definition reportable (r : registry) (l : list event) : Prop := exists r' t, report_list r l = Ok (r', t).
Lemma run_performs r args r2 out s : writable r -> run_tests lm fuel r args = Ok (r2, out, s) -> reportable r (events_of out) ->
  exists r3 out3, perform r out = Ok (r3, out3).
Proof.
  intros W R RE. destruct (run_tests_inv lm fuel _ _ _ _ _ R) as (o & RI & _ & -> & EO). rewrite EO in RE. clear EO.
  destruct (run_impl_shape lm fuel _ _ _ _ RI) as [(l & -> & _)|(l & ->)].
  - rewrite (perform_printed lm file duration), (perform_closing lm file duration r r) by reflexivity. cbn [bind]. eauto.
  - rewrite events_of_reported in RE. destruct RE as (r' & t & RL). rewrite (perform_reported lm file duration) by exact W. rewrite RL. cbn [bind].
    destruct (report_list_storage _ _ _ _ _ _ _ RL) as [->|(x & ->)]; rewrite (perform_closing lm file duration) by reflexivity; cbn [bind]; eauto.
Qed.
Lemma configure_writable can_open r args r1 out1 : g_to_file r = false -> configure lm can_open r args = Ok (r1, out1) -> writable r1.
Proof.
  intros TF C. apply configure_effect in C. unfold writable. destruct (get_option args (lit "--out")).
  - destruct C as (b & f & p' & v & _ & _ & _ & _ & _ & F & T). rewrite F. discriminate.
  - destruct C as (_ & _ & T). congruence.
Qed.

Lemma configure_ready can_open r args r1 out1 : configure lm can_open r args = Ok (r1, out1) -> g_reporter r = None ->
  Forall speaks (g_reporters r) -> ready r1.
Proof.
  intros C N S. apply configure_prepared in C as (r4 & o4 & o5 & (_ & P2 & _ & P4 & _) & ST & _).
  apply reporter_step_effect in ST as (_ & [->|(i & p & m & memory & NP & -> & _)]); [left; congruence|]. right. exists i, p, memory. split; [reflexivity|]. split; [reflexivity|].
  rewrite P2 in NP. rewrite Forall_forall in S. apply S. eapply nth_error_In; eauto.
Qed.

(** *** C64 *)
Theorem always_alive can_open r path argv out' code : g_reporter r = None -> g_to_file r = false -> Forall speaks (g_reporters r) ->
  main lm fuel can_open r path argv = Ok (out', code) -> exists out, main_program can_open r path argv = Ok (out, code).
Proof.
  intros N TF S. unfold main, Program.main_program. destruct (parse_arguments (cli_of lm) path argv) as [[printed [args|]]|]; cbn [bind]; [| |discriminate].
  - destruct (configure lm can_open r args) as [[r1 out1]|] eqn:C; cbn [bind]; [|discriminate].
    unfold Program.run_program. destruct (run_tests lm fuel r1 args) as [[[r2 out2] s]|] eqn:R; cbn [bind]; [|discriminate]. intros [= <- <-].
    destruct (run_performs r1 args r2 out2 s (configure_writable _ _ _ _ _ TF C) R) as (r3 & out3 & ->).
    { destruct (report_list_ready (events_of out2) r1 (configure_ready _ _ _ _ _ C N S)) as (r' & t & E & _). now exists r', t. }
    cbn [bind]. eauto.
  - intros [= <- <-]. eauto.
Qed.

Theorem second_run r args r2 out s i p memory : g_reporter r = Some i -> g_storage r = Holds p memory -> r_typed p = true -> writable r ->
  run_program r args = Ok (r2, out, s) ->
  g_reporter r2 = Some i /\ g_storage r2 = Vacant /\
  forall args' r3 out3 s3, run_tests lm fuel r2 args' = Ok (r3, out3, s3) -> events_of out3 <> [] -> run_program r2 args' = Err Assert.
Proof.
  intros N S T W. unfold Program.run_program at 1. destruct (run_tests lm fuel r args) as [[[r1 out1] s1]|] eqn:R; cbn [bind]; [|discriminate].
  destruct (perform r out1) as [[r' out']|] eqn:PF; cbn [bind]; [|discriminate]. intros H. assert (r' = r2) by congruence. subst r'. clear H.
  assert (E : g_reporter r2 = Some i /\ g_storage r2 = Vacant).
  { destruct (run_tests_inv lm fuel _ _ _ _ _ R) as (o & RI & _ & -> & _).
    assert (FIN : forall x q mem, g_reporter x = Some i -> g_storage x = Holds q mem -> r_typed q = true -> g_reporter (finished x) = Some i /\ g_storage (finished x) = Vacant).
    { intros x q mem X1 X2 X3. unfold finished, finish. rewrite X1, X2, X3. destruct (g_file x); cbn; auto. }
    destruct (run_impl_shape lm fuel _ _ _ _ RI) as [(l & -> & _)|(l & ->)].
    - rewrite (perform_printed lm file duration), (perform_closing lm file duration r r) in PF by reflexivity. cbn [bind] in PF. injection PF as <- <-. eauto.
    - rewrite (perform_reported lm file duration) in PF by exact W. destruct (report_list r l) as [[r3 t]|] eqn:RL; cbn [bind] in PF; [|discriminate].
      assert (HP : g_reporter r3 = Some i /\ g_file r3 = g_file r /\ exists mem, g_storage r3 = Holds p mem).
      { clear - N S RL. revert r memory N S r3 t RL. induction l as [|e l IH]; intros r memory N S r3 t; cbn [EndToEndProofs.report_list].
        - intros [= <- <-]. eauto.
        - unfold Program.report at 1. rewrite N, S. destruct (r_report p _ _ e) as [[m1 o]|]; cbn [bind]; [|discriminate].
          destruct (report_list _ l) as [[r4 t4]|] eqn:RL; cbn [bind]; [|discriminate]. intros [= <- <-]. apply (IH _ m1) in RL; [exact RL|exact N|reflexivity]. }
      destruct HP as (H1 & H2 & mem & H3). rewrite (perform_closing lm file duration r r3) in PF by congruence. cbn [bind] in PF. injection PF as <- <-. eauto. }
  destruct E as [E1 E2]. split; [exact E1|]. split; [exact E2|]. intros args' r3 out3 s3 R3 NE. unfold Program.run_program. rewrite R3. cbn [bind].
  destruct (run_tests_inv lm fuel _ _ _ _ _ R3) as (o & RI & _ & -> & EO). rewrite EO in NE. destruct (run_impl_shape lm fuel _ _ _ _ RI) as [(l & -> & _)|(l & ->)].
  - rewrite events_of_printed in NE. contradiction.
  - rewrite events_of_reported in NE. destruct l as [|e l]; [contradiction|]. cbn [map app Program.perform]. unfold Program.report. rewrite E1, E2. reflexivity.
Qed.

(** ** Options never make [configure] fail *)
Lemma skip_colons s pos : find_from s (lit "::") 2 = Some pos -> 2 <= pos /\ 2 <= length (skipn pos s) /\ length (skipn pos s) < length s.
Proof.
  unfold find_from. destruct (Nat.leb_spec 2 (length s)); [|discriminate]. destruct (Base.find (skipn 2 s) (lit "::")) as [n|] eqn:E; [|discriminate]. intros [= <-].
  destruct (find_some _ _ _ E) as (a & b & X & LA & _). assert (LS : length (skipn 2 s) = length a + 2 + length b) by (rewrite X, !app_length; cbn; lia).
  rewrite skipn_length in LS. rewrite skipn_length. lia.
Qed.
Lemma option_loop_total p i : starts p -> forall n m memory options, length options < n -> 2 <= length options -> exists x, option_loop lm n i p m memory options = Ok x.
Proof.
  intros [_ SC]. induction n as [|n IH]; intros m memory options LN L2; [lia|]. cbn [option_loop].
  set (op := find_from options (lit "::") 2). set (os := match op with Some pos => skipn pos options | None => options end).
  assert (OS : 2 <= length os) by (unfold os, op; destruct (find_from options (lit "::") 2) eqn:F; [apply skip_colons in F; lia|lia]).
  unfold substr_from. destruct (Nat.leb_spec 2 (length os)); [|lia]. cbn [bind].
  assert (A : forall m memory, exists m' memory' rest, match op with Some _ => option_loop lm n i p m memory os | None => Ok (m, memory, []) end = Ok (m', memory', rest)).
  { intros m0 memory0. unfold os, op. destruct (find_from options (lit "::") 2) eqn:F; [|eauto]. apply skip_colons in F.
    destruct (IH m0 memory0 (skipn n0 options)) as ([[m1 me1] o1] & E); [lia|lia|]. eauto. }
  set (opt := match op with Some pos => _ | None => _ end). destruct (Base.find opt (lit "=")) as [[|q]|].
  - match goal with |- context [cli_print ?m ?l] => destruct (cli_print_total m l) as (s & E & _) end. rewrite E. cbn [bind]. destruct (A m memory) as (m' & memory' & rest & ->). cbn [bind]. eauto.
  - destruct (SC m memory (firstn (S q) opt) (skipn (S q + 1) opt)) as ([[[me1 m1] said] known] & ->). cbn [bind].
    destruct known; cbn [bind].
    + destruct (A m1 me1) as (m' & memory' & rest & ->). cbn [bind]. eauto.
    + match goal with |- context [cli_print ?m ?l] => destruct (cli_print_total m l) as (s & E & _) end. rewrite E. cbn [bind]. destruct (A m1 me1) as (m' & memory' & rest & ->). cbn [bind]. eauto.
  - match goal with |- context [cli_print ?m ?l] => destruct (cli_print_total m l) as (s & E & _) end. rewrite E. cbn [bind]. destruct (A m memory) as (m' & memory' & rest & ->). cbn [bind]. eauto.
Qed.
Lemma parse_reporter_total r arg : Forall starts (g_reporters r) -> exists x, parse_reporter lm r arg = Ok x.
Proof.
  intros S. unfold parse_reporter. destruct (match arg with [] => true | c :: _ => aeqb c ":"%char end).
  - match goal with |- context [cli_print ?m ?l] => destruct (cli_print_total m l) as (s & E & _) end. rewrite E. cbn [bind]. eauto.
  - destruct (match Base.find arg (lit "::") with Some _ => _ | None => _ end) as [name options].
    destruct (find_reporter 0 (g_reporters r) name) as [[i p]|] eqn:FR.
    + apply find_reporter_in in FR as (_ & FR & _). apply nth_error_In in FR. rewrite Forall_forall in S. specialize (S p FR).
      destruct (proj1 S (modes_of r)) as ([[memory m] said] & ->). cbn [bind].
      destruct (Base.find options (lit "::")) as [n|] eqn:F; [|cbn [bind]; eauto].
      destruct (option_loop_total p i S (Datatypes.S (length options)) m memory options) as ([[m' me'] o] & E); [lia| |].
      { destruct (find_some _ _ _ F) as (a & b & -> & _). rewrite !app_length. cbn. lia. }
      rewrite E. cbn [bind]. eauto.
    + match goal with |- context [prints ?m ?l] => destruct (prints_total m l) as (o & E) end. rewrite E. cbn [bind]. eauto.
Qed.
End Lifetime.
