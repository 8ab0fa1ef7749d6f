(** Proofs about the colours used. *)
From Verif.Spec Require Import TextSpec FilterSpec CliSpec SessionSpec ProgramSpec ColourSpec.
From Verif.Model Require Import Base Vector StringUtil Filter Print Cli File Run Session.
From Verif.Proofs Require Import Lists CliFacts CliProofs ConfigProofs ReporterProofs.

Lemma equal_text_seqb a b : equal_text a b = seqb a b.
Proof.
  unfold equal_text. destruct (list_eq_dec ascii_dec a b) as [->|N].
  - symmetry. now apply seqb_eq.
  - symmetry. now apply seqb_neq.
Qed.

Lemma colour_of_asks yes no v before : colour_of yes no v before = match asks yes no v with Some c => c | None => before end.
Proof. destruct v as [[x|]|]; cbn [colour_of asks]; auto. rewrite !equal_text_seqb. destruct (seqb x yes); auto. destruct (seqb x no); auto. Qed.

Theorem message_colours_spec cc path argv : length argv <= c_max_args cc -> acceptable argv ->
  parse_color_options cc path argv = Ok ([], message_colours (setting (read argv)) (c_default_color cc)).
Proof.
  intros L A. rewrite (parse_colors_spec cc path argv L A), !colour_of_asks. unfold message_colours, by_colour_mode, by_color.
  change quote with lit. reflexivity.
Qed.

Lemma colour_step_exact lm yes no choices o r before r' b out :
  colour_step (parse_color (color_directive lm yes no choices)) o r before = Ok (r', b, out) ->
  r' = set_with_color r (match asks yes no (option_map a_value o) with Some c => c | None => g_with_color r end) /\
  b = (match asks yes no (option_map a_value o) with Some _ => true | None => false end) || before.
Proof.
  destruct o as [a|]; cbn [colour_step option_map asks].
  - unfold value_of. destruct (a_value a) as [v|]; cbn [bind]; [|discriminate]. unfold parse_color, color_directive.
    rewrite !equal_text_seqb. destruct (seqb v yes); cbn [bind]. { intros [= <- <- _]. auto. }
    destruct (seqb v no); cbn [bind]. { intros [= <- <- _]. auto. }
    destruct (seqb v (lit "default")); cbn [bind]. { intros [= <- <- _]. auto. }
    destruct (cli_print _ _); cbn [bind]; [|discriminate]. intros [= <- <- _]. auto.
  - intros [= <- <- _]. split; [|reflexivity]. destruct r; reflexivity.
Qed.

Theorem run_colours_spec lm can_open r path argv out1 args r' out2 : length argv <= l_max_command_line_args lm ->
  parse_arguments (cli_of lm) path argv = Ok (out1, Some args) ->
  (setting (read argv) (quote "--reporter") = None \/ forall p, In p (g_reporters r) -> colour_blind p) ->
  configure lm can_open r args = Ok (r', out2) ->
  g_with_color r' = run_colours (setting (read argv)) (g_with_color r).
Proof.
  intros L P BL C.
  destruct (parsed_options (cli_of lm) _ _ _ _ L P) as [G _].
  unfold run_colours, by_color, by_colour_mode.
  rewrite <- (G (quote "--out")), <- (G (quote "--color")), <- (G (quote "--colour-mode")) by discriminate.
  rewrite <- (G (quote "--reporter")) in BL by discriminate. clear G. change quote with lit in *.
  apply configure_steps in C as (r1 & b1 & o1 & r2 & b2 & o2 & r3 & o3 & r4 & o4 & o5 & S1 & S2 & S3 & S4 & S5 & ->).
  apply colour_step_exact in S1 as [-> ->]. apply colour_step_exact in S2 as [-> ->].
  apply verbosity_step_effect in S3 as (_ & v & ->). pose proof (reporter_step_effect _ _ _ _ _ S5) as (_ & R5).
  revert S4. generalize (asks (lit "always") (lit "never") (option_map a_value (get_option args (lit "--color")))).
  generalize (asks (lit "ansi") (lit "none") (option_map a_value (get_option args (lit "--colour-mode")))).
  intros ac am S4.
  assert (R4 : g_reporters r4 = g_reporters r).
  { destruct (get_option args (lit "--out")) as [a|]; cbn [ConfigProofs.file_step] in S4.
    - unfold value_of in S4. destruct (a_value a) as [w|]; cbn [bind] in S4; [|discriminate]. destruct (open_file _ _ w) as [pt|]; cbn [bind] in S4; [|discriminate].
      injection S4 as <- <-. match goal with |- context [if ?b then _ else _] => destruct b end; reflexivity.
    - injection S4 as <- <-. reflexivity. }
  transitivity (g_with_color r4).
  { destruct R5 as [->|(i & p & m & memory & Np & -> & K)]; [reflexivity|]. cbn [g_with_color set_reporter].
    destruct BL as [BL|BL].
    - destruct (get_option args (lit "--reporter")) as [a|]; [discriminate|]. cbn [reporter_step] in S5. apply (f_equal (fun x => match x with Ok (a, _) => g_with_color a | Err _ => false end)) in S5. symmetry. exact S5.
    - apply nth_error_In in Np. rewrite R4 in Np. destruct (BL p Np) as [B1 B2]. apply (K (fun m _ => m_color m = g_with_color r4)).
      + intros memory0 m1 said X. rewrite (B1 _ _ _ _ X). reflexivity.
      + intros m0 memory0 k w memory1 m1 said known X <-. exact (B2 _ _ _ _ _ _ _ _ X). }
  cbn [g_with_color set_with_color] in *.
  destruct (get_option args (lit "--out")) as [a|]; cbn [ConfigProofs.file_step option_map] in *.
  - unfold value_of in S4. destruct (a_value a) as [w|]; cbn [bind] in S4; [|discriminate]. destruct (open_file _ _ w) as [pt|]; cbn [bind] in S4; [|discriminate].
    injection S4 as <- <-. destruct ac, am; reflexivity.
  - injection S4 as <- <-. destruct ac, am; reflexivity.
Qed.

(** The two agree exactly when these conditions hold. *)
Lemma colours_agree_iff setting_of before :
  run_colours setting_of before = message_colours setting_of before <->
  match by_color setting_of, by_colour_mode setting_of with
  | Some c, Some d => c = d
  | None, None => setting_of (quote "--out") = None \/ before = false
  | _, _ => True
  end.
Proof.
  unfold run_colours, message_colours. destruct (by_color setting_of) as [[|]|], (by_colour_mode setting_of) as [[|]|], (setting_of (quote "--out")), before; intuition congruence.
Qed.
