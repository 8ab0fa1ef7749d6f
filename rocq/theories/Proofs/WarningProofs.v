(** What is printed before the report (C110). *)
From Verif.Spec Require Import TextSpec FilterSpec PrintSpec CliSpec Events SessionSpec ProgramSpec ColourSpec ConsoleSpec HelpSpec WarningSpec.
From Verif.Model Require Import Base Vector StringUtil Print Filter Run Cli File Session Reporters Program.
From Verif.Spec Require Import ProgramClaims.
From Verif.Proofs Require Import Lists CliProofs CliFacts HelpProofs ComplaintProofs ConfigProofs ReporterProofs ColourProofs RequestProofs.
Local Open Scope list_scope.

Section Warned.
Variable lm : limits.
Notation mm := (l_max_message_length lm).

Lemma console_app {ID} (a b : list (SessionSpec.output ID)) : console_text (a ++ b) = console_text a ++ console_text b.
Proof. apply flat_map_app. Qed.

Lemma shown_app n a b c d : shown_up_to n a c -> shown_up_to n b d -> shown_up_to n (a ++ b) (c ++ d).
Proof. apply Forall2_app. Qed.

(** A warning. *)
Lemma warning_said color t s : cli_print mm [warning_prefix color; Text (t ++ newline)] = Ok s -> length (warn_text color t) <= mm -> s = warn_text color t.
Proof.
  assert (W : whole [warning_prefix color; Text (t ++ newline)] = warn_text color t).
  { unfold whole, warn_text. cbn [map List.concat rendered]. rewrite app_nil_r. f_equal. apply rendered_painted. reflexivity. }
  assert (S0 : Forall solid [warning_prefix color; Text (t ++ newline)]) by (repeat constructor; discriminate).
  intros E L. rewrite <- W in *. rewrite (cli_print_fit mm _ S0 L) in E. congruence.
Qed.

(** ** The steps *)
Lemma colour_warns yes no words choices o r before r' b out :
  words = [yes; lit "default"; no] ->
  colour_step (parse_color (color_directive lm yes no choices)) o r before = Ok (r', b, out) ->
  exists said, console_text out = List.concat said /\
    shown_up_to mm (if unknown_word words (option_map a_value o) then [warn_text (g_with_color r) (lit " unknown color directive; please use one of " ++ choices)] else []) said.
Proof.
  intros ->. destruct o as [a|]; cbn [colour_step option_map unknown_word].
  2:{ intros [= <- <- <-]. exists []. split; [reflexivity|constructor]. }
  unfold value_of. destruct (a_value a) as [v|]; cbn [bind]; [|discriminate]. unfold parse_color, color_directive. cbn [existsb].
  rewrite !equal_text_seqb, orb_false_r.
  destruct (seqb v yes); cbn [bind orb negb]. { intros [= <- <- <-]. exists []. split; [reflexivity|constructor]. }
  destruct (seqb v no); cbn [bind orb negb]. { rewrite orb_true_r. intros [= <- <- <-]. exists []. split; [reflexivity|constructor]. }
  destruct (seqb v (lit "default")); cbn [bind orb negb]. { intros [= <- <- <-]. exists []. split; [reflexivity|constructor]. }
  destruct (cli_print _ _) as [s|] eqn:E; cbn [bind]; [|discriminate]. intros [= <- <- <-]. exists [s]. split; [reflexivity|].
  constructor; [|constructor]. rewrite app_assoc in E. now apply warning_said.
Qed.

Lemma verbosity_warns o r r' out : verbosity_step lm o r = Ok (r', out) ->
  exists said, console_text out = List.concat said /\
    shown_up_to mm (if unknown_word [lit "quiet"; lit "normal"; lit "high"; lit "full"] (option_map a_value o)
                    then [warn_text (g_with_color r) (lit " unknown verbosity level; please use one of quiet|normal|high|full")] else []) said.
Proof.
  destruct o as [a|]; cbn [verbosity_step option_map unknown_word].
  2:{ intros [= <- <-]. exists []. split; [reflexivity|constructor]. }
  unfold value_of. destruct (a_value a) as [v|]; cbn [bind]; [|discriminate]. cbn [existsb]. rewrite !equal_text_seqb, orb_false_r.
  destruct (seqb v (lit "quiet")); cbn [orb negb]. { intros [= <- <-]. exists []. split; [reflexivity|constructor]. }
  destruct (seqb v (lit "normal")); cbn [orb negb]. { intros [= <- <-]. exists []. split; [reflexivity|constructor]. }
  destruct (seqb v (lit "high")); cbn [orb negb]. { intros [= <- <-]. exists []. split; [reflexivity|constructor]. }
  destruct (seqb v (lit "full")); cbn [orb negb]. { intros [= <- <-]. exists []. split; [reflexivity|constructor]. }
  destruct (cli_print _ _) as [s|] eqn:E; cbn [bind]; [|discriminate]. intros [= <- <-]. exists [s]. split; [reflexivity|].
  constructor; [|constructor]. now apply warning_said.
Qed.

Lemma file_warns can_open o b r r' out : file_step lm can_open o b r = Ok (r', out) -> console_text out = [].
Proof.
  destruct o as [a|]; cbn [file_step]; [|intros [= <- <-]; reflexivity]. destruct (value_of a); cbn [bind]; [|discriminate].
  destruct (open_file _ _ _); cbn [bind]; [|discriminate]. intros [= <- <-]. destruct (g_file r); reflexivity.
Qed.

(** ** All of them *)
Lemma configure_warned can_open r path argv printed args r1 out1 : length argv <= l_max_command_line_args lm -> acceptable argv ->
  parse_arguments (cli_of lm) path argv = Ok (printed, Some args) -> configure lm can_open r args = Ok (r1, out1) ->
  exists warnings, warned lm r argv warnings /\ List.concat printed ++ console_text out1 = List.concat warnings.
Proof.
  intros L A P C. destruct (parsed lm argv path L A) as (ms & inp & P' & _ & _ & F & G & _). rewrite P in P'. injection P' as <- <-.
  apply configure_steps in C as (ra & b1 & o1 & rb & b2 & o2 & rc & o3 & rd & o4 & o5 & S1 & S2 & S3 & S4 & S5 & ->).
  destruct (colour_warns _ _ [lit "ansi"; lit "default"; lit "none"] _ _ _ _ _ _ _ eq_refl S1) as (w1 & T1 & W1).
  destruct (colour_warns _ _ [lit "always"; lit "default"; lit "never"] _ _ _ _ _ _ _ eq_refl S2) as (w2 & T2 & W2).
  destruct (verbosity_warns _ _ _ _ S3) as (w3 & T3 & W3).
  pose proof (file_warns _ _ _ _ _ _ S4) as T4.
  apply colour_step_exact in S1 as (E1 & _). apply colour_step_exact in S2 as (E2 & _).
  assert (Q : exists w5, console_text o5 = List.concat w5 /\ (silently_chosen r argv -> w5 = [])).
  { destruct (list_eq_dec ascii_dec (console_text o5) []) as [->|N]; [exists []; auto|]. exists [console_text o5]. split; [cbn; now rewrite app_nil_r|]. intros SC. exfalso. apply N.
    assert (GR : g_reporters rd = g_reporters r).
    { assert (g_reporters rc = g_reporters rb) by (apply verbosity_step_effect in S3 as (_ & v & ->); reflexivity).
      assert (g_reporters rd = g_reporters rc).
      { destruct (get_option args (lit "--out")) as [a|]; cbn [file_step] in S4; [|injection S4 as <- _; reflexivity]. destruct (value_of a); cbn [bind] in S4; [|discriminate].
        destruct (open_file _ _ _); cbn [bind] in S4; [|discriminate]. injection S4 as <- _. destruct b2; reflexivity. }
      subst ra rb. cbn [g_reporters set_with_color] in *. congruence. }
    specialize (G (quote "--reporter") ltac:(discriminate)). destruct SC as [E|(i & p & E & (FN1 & FN2) & V)]; rewrite E in G; change quote with lit in *; destruct (get_option args (lit "--reporter")) as [a|]; try discriminate G; cbn [option_map reporter_step] in *.
    - now injection S5 as _ <-.
    - injection G as G. unfold value_of in S5. rewrite G in S5. cbn [bind] in S5. destruct V as (V1 & V2 & V3 & V4). rewrite <- GR in FN1, FN2.
      rewrite (reporter_found_alone lm rd i p FN1 FN2 (conj V1 (conj V2 V3))) in S5. destruct (r_initialize p (modes_of rd)) as [[[memory m] said]|] eqn:I; cbn [bind] in S5; [|discriminate].
      injection S5 as _ <-. apply V4 in I. cbn in I. subst said. reflexivity. }
  destruct Q as (w5 & T5 & W5).
  exists ((printed ++ w1 ++ w2 ++ w3) ++ w5). split.
  - exists (printed ++ w1 ++ w2 ++ w3), w5. split; [reflexivity|]. split; [|exact W5]. apply shown_app.
    + unfold option_warnings. clear - F. induction F; constructor; auto.
    + unfold value_warnings. repeat apply shown_app.
      * rewrite <- (G (quote "--colour-mode")) by discriminate. exact W1.
      * rewrite <- (G (quote "--color")) by discriminate. unfold first_colours, by_colour_mode. rewrite <- (G (quote "--colour-mode")) by discriminate.
        subst ra. exact W2.
      * rewrite <- (G (quote "--verbosity")) by discriminate. unfold second_colours, first_colours, by_colour_mode, by_color.
        rewrite <- (G (quote "--colour-mode")), <- (G (quote "--color")) by discriminate. subst ra rb. exact W3.
  - rewrite !console_app, T1, T2, T3, T4, T5, !concat_app, <- !app_assoc. reflexivity.
Qed.

Lemma goes can_open r path argv printed args r1 out1 out report : length argv <= l_max_command_line_args lm -> acceptable argv ->
  parse_arguments (cli_of lm) path argv = Ok (printed, Some args) -> configure lm can_open r args = Ok (r1, out1) ->
  (if has_file argv then console_text out = List.concat printed ++ console_text out1 /\ file_text out = report
   else console_text out = (List.concat printed ++ console_text out1) ++ report /\ file_text out = []) ->
  report_goes lm r argv out report.
Proof.
  intros L A P C H. destruct (configure_warned can_open r path argv printed args r1 out1 L A P C) as (w & W & E). exists w. split; [exact W|]. now rewrite <- E.
Qed.
End Warned.

Lemma warned_same lm r r' argv w : g_with_color r' = g_with_color r -> g_reporters r' = g_reporters r -> warned lm r argv w -> warned lm r' argv w.
Proof. intros A B. unfold warned, silently_chosen. now rewrite A, B. Qed.
Lemma same_goes lm r r' argv out report : g_with_color r' = g_with_color r -> g_reporters r' = g_reporters r -> report_goes lm r argv out report -> report_goes lm r' argv out report.
Proof. intros A B (w & W & E). exists w. split; [now apply (warned_same lm r)|exact E]. Qed.

(** ** Colours of the report *)
Lemma colours_kept lm can_open r path argv printed args r' out2 : length argv <= l_max_command_line_args lm ->
  parse_arguments (cli_of lm) path argv = Ok (printed, Some args) ->
  (forall r4 r5 o, g_reporters r4 = g_reporters r -> reporter_step lm (get_option args (lit "--reporter")) r4 = Ok (r5, o) -> g_with_color r5 = g_with_color r4) ->
  configure lm can_open r args = Ok (r', out2) -> g_with_color r' = run_colours (setting (read argv)) (g_with_color r).
Proof.
  intros L P K C. destruct (parsed_options (cli_of lm) _ _ _ _ L P) as [G _]. unfold run_colours, by_color, by_colour_mode.
  rewrite <- (G (quote "--out")), <- (G (quote "--color")), <- (G (quote "--colour-mode")) by discriminate. clear G. change quote with lit in *.
  apply configure_steps in C as (r1 & b1 & o1 & r2 & b2 & o2 & r3 & o3 & r4 & o4 & o5 & S1 & S2 & S3 & S4 & S5 & ->).
  apply colour_step_exact in S1 as [-> ->]. apply colour_step_exact in S2 as [-> ->]. apply verbosity_step_effect in S3 as (_ & v & ->).
  revert S4. generalize (asks (lit "always") (lit "never") (option_map a_value (get_option args (lit "--color")))).
  generalize (asks (lit "ansi") (lit "none") (option_map a_value (get_option args (lit "--colour-mode")))).
  intros ac am S4.
  assert (R4 : g_reporters r4 = g_reporters r /\
    g_with_color r4 = match am, ac with Some c, _ => c | None, Some c => c | None, None => match option_map a_value (get_option args (lit "--out")) with Some _ => false | None => g_with_color r end end).
  { destruct (get_option args (lit "--out")) as [a|]; cbn [ConfigProofs.file_step option_map] in *.
    - unfold value_of in S4. destruct (a_value a) as [w|]; cbn [bind] in S4; [|discriminate]. destruct (open_file _ _ w) as [pt|]; cbn [bind] in S4; [|discriminate].
      injection S4 as <- <-. split; destruct ac, am; reflexivity.
    - injection S4 as <- <-. split; destruct ac, am; reflexivity. }
  destruct R4 as (R4 & <-). exact (K _ _ _ R4 S5).
Qed.

Lemma colours_chosen lm file duration can_open r path argv printed args r1 out1 : length argv <= l_max_command_line_args lm ->
  parse_arguments (cli_of lm) path argv = Ok (printed, Some args) -> configure lm can_open r args = Ok (r1, out1) ->
  console_asked lm file duration r argv -> report_colours r argv (g_with_color r1).
Proof.
  intros L P C CA RA. apply (colours_kept lm can_open r path argv printed args r1 out1 L P); [|exact C]. clear C.
  intros r4 r5 o R4 S. destruct (parsed_options (cli_of lm) _ _ _ _ L P) as [G _]. specialize (G (quote "--reporter") ltac:(discriminate)).
  destruct RA as [E|E]; rewrite E in G; change (quote "--reporter") with (lit "--reporter") in G; destruct (get_option args (lit "--reporter")) as [a|]; try discriminate G; cbn [option_map reporter_step] in *.
  - now injection S as <- _.
  - injection G as G. unfold value_of in S. rewrite G in S. cbn [bind] in S. destruct CA as [(N & _)|(arg & i & SR & N & F1 & F2)]; [congruence|]. rewrite <- R4 in F1, F2.
    assert (S' : parse_reporter lm r4 (r_name (console_reporter lm file duration)) = Ok (r5, o)) by exact S. clear S.
    rewrite (reporter_found_alone lm r4 i _ F1 F2) in S'.
    + cbn [r_initialize console_reporter bind] in S'. injection S' as <- _. reflexivity.
    + split; [discriminate|]. split; [discriminate|]. change (r_name (console_reporter lm file duration)) with (lit "console").
      intros (x & y & X). apply (f_equal (fun l => existsb (fun c => if ascii_dec c ":"%char then true else false) l)) in X.
      rewrite !existsb_app in X. cbn in X. rewrite orb_true_r in X. discriminate.
Qed.
