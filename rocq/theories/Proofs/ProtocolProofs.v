(** Calls made to reporters by a program (C73). *)
From Coq Require Import Lia.
From Verif.Spec Require Import TextSpec FilterSpec PrintSpec CliSpec Events VerdictSpec SessionSpec.
From Verif.Model Require Import Base Vector StringUtil Filter Run Print Cli File Session.
From Verif.Proofs Require Import SessionProofs SessionFacts ConfigProofs CliProofs CliFacts.

Section Protocol.
Variable lm : limits.
Variable fuel : nat.

Lemma call_printed l : filter call (map (@Printed test_id) l) = [].
Proof. induction l; auto. Qed.
Lemma call_reported r l : filter call (map (@Reported test_id r) l) = map (Reported r) l.
Proof. induction l as [|e l IH]; cbn; [|rewrite IH]; auto. Qed.

Definition configured (i : nat) (options : list (text * text)) : list output := map (fun '(k, v) => Configured i k v) options.

Lemma option_loop_calls p i n : forall m memory options m' memory' out,
  option_loop lm n i p m memory options = Ok (m', memory', out) -> exists l, filter call out = configured i l.
Proof.
  induction n as [|n IH]; intros m memory options m' memory' out; cbn [option_loop]; [discriminate|].
  set (op := find_from options (lit "::") 2). set (os := match op with Some pos => skipn pos options | None => options end).
  destruct (substr_from os 2) as [o2|]; cbn [bind]; [|discriminate]. set (opt := match op with Some pos => firstn pos o2 | None => o2 end).
  assert (A : forall a b a' b' rest, match op with Some _ => option_loop lm n i p a b os | None => Ok (a, b, []) end = Ok (a', b', rest) ->
              exists l, filter call rest = configured i l).
  { intros a b a' b' rest. destruct op; [apply IH|]. intros [= <- <- <-]. exists []. reflexivity. }
  destruct (Base.find opt (lit "=")) as [[|q]|].
  - destruct (cli_print _ _) as [s|]; cbn [bind]; [|discriminate]. match goal with |- bind ?x _ = _ -> _ => destruct x as [[[m1 me1] rest]|] eqn:R end; cbn [bind]; [|discriminate].
    intros [= <- <- <-]. exact (A _ _ _ _ _ R).
  - destruct (r_configure p m memory _ _) as [[[[me1 m1] said] known]|]; cbn [bind]; [|discriminate].
    match goal with |- bind ?x _ = _ -> _ => destruct x as [w|] eqn:W end; cbn [bind]; [|discriminate].
    match goal with |- bind ?x _ = _ -> _ => destruct x as [[[m2 me2] rest]|] eqn:R end; cbn [bind]; [|discriminate].
    intros [= <- <- <-]. destruct (A _ _ _ _ _ R) as [l L].
    cbn [filter call]. rewrite filter_app, call_printed. cbn [app]. rewrite L.
    match goal with |- context [Configured i ?k ?v] => exists ((k, v) :: l) end. reflexivity.
  - destruct (cli_print _ _) as [s|]; cbn [bind]; [|discriminate]. match goal with |- bind ?x _ = _ -> _ => destruct x as [[[m1 me1] rest]|] eqn:R end; cbn [bind]; [|discriminate].
    intros [= <- <- <-]. exact (A _ _ _ _ _ R).
Qed.

(** Either nothing is called and the reporter stays the same, or a reporter is initialized, configured and chosen. *)
Definition chosen (r r' : registry) (out : list output) : Prop :=
  (filter call out = [] /\ g_reporter r' = g_reporter r) \/
  exists i p l, nth_error (g_reporters r) i = Some p /\ filter call out = Initialized i :: configured i l /\ g_reporter r' = Some i.

Lemma parse_reporter_calls r arg r' out : parse_reporter lm r arg = Ok (r', out) -> chosen r r' out.
Proof.
  unfold parse_reporter. destruct (match arg with [] => true | c :: _ => aeqb c ":"%char end).
  - destruct (cli_print _ _) as [s|]; cbn [bind]; [|discriminate]. intros [= <- <-]. left. auto.
  - destruct (match Base.find arg (lit "::") with Some _ => _ | None => _ end) as [name options].
    destruct (find_reporter 0 (g_reporters r) name) as [[i p]|] eqn:FR.
    + destruct (r_initialize p (modes_of r)) as [[[memory m] said]|] eqn:N; cbn [bind]; [|discriminate].
      match goal with |- bind ?x _ = _ -> _ => destruct x as [[[m' memory'] o]|] eqn:E end; cbn [bind]; [|discriminate]. intros [= <- <-].
      apply find_reporter_in in FR as (_ & FR & _). rewrite Nat.sub_0_r in FR.
      right. assert (X : exists l, filter call o = configured i l).
      { destruct (Base.find options (lit "::")); [|injection E as <- <- <-; exists []; reflexivity]. eapply option_loop_calls; eauto. }
      destruct X as [l L]. exists i, p, l. split; [exact FR|]. split; [|reflexivity].
      cbn [filter call]. rewrite filter_app, call_printed, L. reflexivity.
    + destruct (prints _ _) as [o|]; cbn [bind]; [|discriminate]. intros [= <- <-]. left. split; [apply call_printed|reflexivity].
Qed.

Lemma only_printed out : (forall o, In o out -> exists s, o = @Printed test_id s) -> filter call out = [].
Proof.
  induction out as [|o out IH]; intros H; [reflexivity|]. destruct (H o (or_introl eq_refl)) as [s ->]. cbn. apply IH. intros x X. apply H. right. exact X.
Qed.

Lemma colour_step_calls yes no choices o r before r' b out :
  colour_step (parse_color (color_directive lm yes no choices)) o r before = Ok (r', b, out) -> filter call out = [].
Proof.
  destruct o as [a|]; cbn [colour_step]; [|intros [= <- <- <-]; reflexivity].
  destruct (value_of a) as [v|]; cbn [bind]; [|discriminate]. destruct (parse_color _ r v) as [[[r1 b1] o1]|] eqn:E; cbn [bind]; [|discriminate].
  intros [= <- <- <-]. apply parse_color_effect in E as (_ & Q & _). exact (only_printed _ Q).
Qed.

Lemma verbosity_step_calls o r r' out : verbosity_step lm o r = Ok (r', out) -> filter call out = [].
Proof.
  destruct o as [a|]; cbn [verbosity_step]; [|intros [= <- <-]; reflexivity].
  destruct (value_of a) as [v|]; cbn [bind]; [|discriminate].
  destruct (seqb v (lit "quiet")); [intros [= <- <-]; reflexivity|]. destruct (seqb v (lit "normal")); [intros [= <- <-]; reflexivity|].
  destruct (seqb v (lit "high")); [intros [= <- <-]; reflexivity|]. destruct (seqb v (lit "full")); [intros [= <- <-]; reflexivity|].
  destruct (cli_print _ _); cbn [bind]; [|discriminate]. intros [= <- <-]. reflexivity.
Qed.

Lemma configure_calls can_open r args r' out : configure lm can_open r args = Ok (r', out) -> chosen r r' out.
Proof.
  intros H. apply configure_steps in H as (r1 & b1 & o1 & r2 & b2 & o2 & r3 & o3 & r4 & o4 & o5 & S1 & S2 & S3 & S4 & S5 & ->).
  pose proof (colour_step_calls _ _ _ _ _ _ _ _ _ S1) as C1. pose proof (colour_step_calls _ _ _ _ _ _ _ _ _ S2) as C2.
  pose proof (verbosity_step_calls _ _ _ _ S3) as C3.
  apply colour_step_effect in S1 as (_ & c1 & -> & _). apply colour_step_effect in S2 as (_ & c2 & -> & _).
  apply verbosity_step_effect in S3 as (_ & v & ->).
  assert (C4 : filter call o4 = [] /\ g_reporter r4 = g_reporter r /\ g_reporters r4 = g_reporters r).
  { destruct (get_option args (lit "--out")) as [a|]; cbn [file_step] in S4.
    - destruct (value_of a) as [w|]; cbn [bind] in S4; [|discriminate]. destruct (open_file _ _ w) as [path|]; cbn [bind] in S4; [|discriminate].
      injection S4 as <- <-. split; [cbn; destruct (g_file r); reflexivity|]. destruct b2; auto.
    - injection S4 as <- <-. auto. }
  destruct C4 as (C4 & G4 & G4').
  assert (C5 : chosen r4 r' o5).
  { destruct (get_option args (lit "--reporter")) as [a|]; cbn [reporter_step] in S5.
    - destruct (value_of a) as [w|]; cbn [bind] in S5; [|discriminate]. eapply parse_reporter_calls; eauto.
    - injection S5 as <- <-. left. auto. }
  unfold chosen in *. rewrite !filter_app, C1, C2, C3, C4. cbn [app]. rewrite G4, G4' in C5. exact C5.
Qed.

Lemma run_impl_calls r args out s : run_tests_impl lm fuel r args = Ok (out, s) ->
  exists events, filter call out = map (Reported (g_reporter r)) events.
Proof.
  unfold run_tests_impl.
  assert (P : forall l, exists events, filter call (map Printed l) = map (Reported (g_reporter r)) events)
    by (intros l; exists []; apply call_printed).
  assert (Q : forall l, exists events, filter call (map (Reported (g_reporter r)) l) = map (Reported (g_reporter r)) events)
    by (intros l; exists l; apply call_reported).
  destruct (get_option args (lit "--help")).
  { destruct (print_help _ _ _); cbn [bind]; [|discriminate]. intros [= <- <-]. apply P. }
  destruct (get_option args (lit "--list-tests-with-tag")).
  { destruct (value_of _); cbn [bind]; [|discriminate]. destruct (list_events _ _); cbn [bind]; [|discriminate]. intros [= <- <-]. apply Q. }
  destruct (get_option args (lit "--list-tags")).
  { destruct (list_all_tags _ _ _ _); cbn [bind]; [|discriminate]. intros [= <- <-]. apply P. }
  destruct (get_option args (lit "--list-reporters")).
  { destruct (prints _ _); cbn [bind]; [|discriminate]. intros [= <- <-]. apply P. }
  destruct (get_positional_argument args (lit "test regex")).
  - destruct (for_each_positional_argument _ _); cbn [bind]; [|discriminate]. destruct (get_option args (lit "--list-tests")).
    + destruct (list_events _ _); cbn [bind]; [|discriminate]. intros [= <- <-]. apply Q.
    + destruct (run_selected_tests _ _ _ _ _ _ _) as [[l b]|]; cbn [bind]; [|discriminate]. intros [= <- <-]. apply Q.
  - destruct (get_option args (lit "--list-tests")).
    + destruct (list_events _ _); cbn [bind]; [|discriminate]. intros [= <- <-]. apply Q.
    + destruct (run_default _ _ _ _ _) as [[l b]|]; cbn [bind]; [|discriminate]. intros [= <- <-]. apply Q.
Qed.

Lemma protocol can_open r path argv out code : length argv <= l_max_command_line_args lm -> g_reporter r = None ->
  main lm fuel can_open r path argv = Ok (out, code) ->
  (acceptable argv ->
   exists reporter options, (forall i, reporter = Some i -> i < length (g_reporters r)) /\
     filter call out = calls reporter options (events_of out)) /\
  (~ acceptable argv -> filter call out = []).
Proof.
  intros L G. unfold main. destruct (parse_arguments_spec (cli_of lm) path argv L) as (printed & args & P & A & B). rewrite P. cbn [bind].
  destruct args as [args|].
  - destruct (configure lm can_open r args) as [[r1 out1]|] eqn:C; cbn [bind]; [|discriminate].
    destruct (run_tests lm fuel r1 args) as [[[r2 out2] success]|] eqn:R; cbn [bind]; [|discriminate]. intros [= <- <-].
    split; [|intros N; specialize (B N); discriminate]. intros _.
    pose proof (configure_events _ _ _ _ _ _ C) as EV. apply configure_calls in C.
    unfold run_tests in R. destruct (run_tests_impl lm fuel r1 args) as [[o s]|] eqn:I; cbn [bind] in R; [|discriminate].
    injection R as <- <- <-. apply run_impl_calls in I as [events I].
    assert (E2 : events_of o = events).
    { rewrite <- (map_id events). transitivity (events_of (filter call o)).
      - clear. induction o as [|x o IH]; [reflexivity|]. cbn [filter]. destruct x; cbn [call]; auto. cbn. f_equal. exact IH.
      - rewrite I. clear. induction events as [|e l IH]; [reflexivity|]. cbn. f_equal. exact IH. }
    assert (E3 : events_of (map Printed printed ++ out1 ++ o ++ Finished (g_reporter r1) ::
                   (match g_file r1 with Some _ => [ClosedFile] | None => [] end)) = events).
    { change (Finished (g_reporter r1) :: ?x) with ([Finished (g_reporter r1)] ++ x).
      rewrite !events_of_app, events_of_printed, EV, E2. cbn. destruct (g_file r1); cbn; apply app_nil_r. }
    rewrite E3.
    assert (F : filter call (match g_file r1 with Some _ => [@ClosedFile test_id] | None => [] end) = []) by (destruct (g_file r1); reflexivity).
    destruct C as [[C G1]|(i & p & l & N & C & G1)].
    + exists None, []. split; [discriminate|].
      rewrite !filter_app, call_printed, C, I. cbn [filter call app]. rewrite F, G1, G. reflexivity.
    + exists (Some i), l. split; [intros j [= <-]; apply nth_error_Some; congruence|].
      rewrite !filter_app, call_printed, C, I. cbn [filter call app]. rewrite F, G1. reflexivity.
  - intros [= <- <-]. split; [|intros _; apply call_printed]. intros N. destruct (A N) as [? _]. discriminate.
Qed.
End Protocol.
