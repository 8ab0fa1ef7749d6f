(** Programs that are asked for the help, the tags or the reporters, and command lines that cannot be used (C111). *)
From Coq Require Import Sorting.Sorted.
From Verif.Spec Require Import TextSpec FilterSpec PrintSpec Events SessionSpec ProgramSpec ColourSpec ConsoleSpec HelpSpec WarningSpec CliSpec ActionSpec.
From Verif.Model Require Import Base Vector StringUtil Print Filter Run Cli File Session Reporters Program.
From Verif.Spec Require Import ProgramClaims.
From Verif.Proofs Require Import Lists FilterProofs CliProofs CliFacts HelpProofs ComplaintProofs ShortcutProofs PrintProofs SessionProofs SessionFacts ChoiceProofs ReporterProofs ColourProofs ConfigProofs ProgramProofs EndToEndProofs WholeProofs WarningProofs.
Local Open Scope list_scope.

(** ** The colours of messages about command lines that cannot be used *)
Lemma colour_spelling a long v : lookup options a = Some (long, v) -> is_colour long = true -> a = long.
Proof.
  unfold options. cbn [lookup].
  repeat match goal with |- (if existsb ?f ?l then _ else _) = _ -> _ => destruct (existsb f l) eqn:?E; [intros [= <- <-] IC; try (vm_compute in IC; discriminate IC)|clear E] end; [..|discriminate].
  all: cbn [existsb] in E; rewrite orb_false_r in E; now apply same_text_eq in E.
Qed.
Lemma unfinished_colour argv a : In (NoValue a) (gread out_find out_swallow argv) -> is_colour a = true.
Proof.
  induction argv as [argv IH] using short_induction. destruct argv as [|b rest]; [intros []|]. cbn [gread].
  assert (I1 : In (NoValue a) (gread out_find out_swallow rest) -> is_colour a = true) by (apply IH; cbn [length]; lia).
  assert (I2 : forall v rest', rest = v :: rest' -> In (NoValue a) (gread out_find out_swallow rest') -> is_colour a = true) by (intros v rest' ->; apply IH; cbn [length]; lia).
  destruct (dashed b).
  - pose proof (aligned_all b) as AL. unfold aligned in AL. destruct (out_find b) as [[long [called|]]|] eqn:OF.
    + destruct rest as [|v rest]; [|intros [H|H]; [discriminate|eapply I2; eauto]]. intros [[= <-]|[]].
      destruct (lookup options b) as [[l [c|]]|] eqn:L; try discriminate AL. destruct (is_colour l) eqn:IC; [|discriminate AL]. now rewrite (colour_spelling _ _ _ L IC).
    + intros [H|H]; [discriminate|auto].
    + destruct (out_swallow b); [|intros [H|H]; [discriminate|auto]]. destruct rest as [|v rest]; [intros [H|[]]; discriminate|]. intros [H|H]; [discriminate|eapply I2; eauto].
  - intros [H|H]; [discriminate|auto].
Qed.
Lemma colours_told cc path argv : length argv <= c_max_args cc -> clear_colours argv ->
  parse_color_options cc path argv = Ok ([], message_colours (setting (read argv)) (c_default_color cc)).
Proof.
  intros L CC. transitivity (Ok (@nil str, colour_of (lit "ansi") (lit "none") (setting (read argv) (lit "--colour-mode"))
            (colour_of (lit "always") (lit "never") (setting (read argv) (lit "--color")) (c_default_color cc)))).
  2:{ rewrite !colour_of_asks. unfold message_colours, by_colour_mode, by_color.
      change quote with lit. reflexivity. }
  unfold parse_color_options.
  destruct (parse_good cc output_args (mksettings true true true) path argv) as (out & r & E & S0 & G & _); [vm_compute; reflexivity..|exact L|].
  rewrite out_items in G. destruct (out_reads argv) as (R1 & R2 & R3).
  assert (IC : forall n, is_colour n = true -> In n [quote "--color"; quote "--colour-mode"]).
  { intros n H. unfold is_colour in H. apply orb_true_iff in H as [H|H]; apply seqb_eq in H; subst; [left|right; left]; reflexivity. }
  assert (ACC : accepted [] (gread out_find out_swallow argv) = true).
  { apply (accepted_spec _ [] (NoDup_nil _)). split; [intros a H; destruct (CC a (IC _ (unfinished_colour _ _ H))) as [X _]; apply X; auto|].
    rewrite app_nil_r. apply NoDup_rev. rewrite R2. apply (NoDup_count_occ (list_eq_dec Ascii.ascii_dec)). intros n.
    destruct (is_colour n) eqn:IN.
    - destruct (CC n (IC n IN)) as [_ X]. etransitivity; [|exact X]. clear. induction (given (read argv)) as [|x l IH]; [constructor|]. cbn [filter count_occ].
      destruct (is_colour x); cbn [count_occ]; destruct (list_eq_dec Ascii.ascii_dec x n); lia.
    - replace (count_occ _ _ _) with 0; [lia|]. symmetry. apply count_occ_not_In. intros H. apply filter_In in H as [_ H]. congruence. }
  destruct (G ACC) as (_ & G2). rewrite E, (S0 eq_refl), (G2 (or_introl eq_refl)). cbn [bind]. f_equal. f_equal.
  rewrite <- (R1 (lit "--colour-mode")), <- (R1 (lit "--color")) by reflexivity.
  rewrite <- !(recorded_get_any (positional_name output_args)) by discriminate.
  unfold get_option. cbn [arguments]. unfold value_is.
  destruct (List.find (fun a => seqb (a_name a) (lit "--color")) _) as [a1|]; destruct (List.find (fun a => seqb (a_name a) (lit "--colour-mode")) _) as [a2|];
    cbn [option_map colour_of]; try (destruct (a_value a1)); try (destruct (a_value a2)); reflexivity.
Qed.

Section Actions.
Variable lm : Session.limits.
Variable fuel : nat.
Variable file : event -> text.
Variable duration : event -> option text.
Notation main_program := (main_program lm fuel file duration).
Notation only_prints := (only_prints lm).

Lemma first_cases setting_of n : first_asked setting_of n ->
  (n = quote "--help" /\ setting_of (quote "--help") <> None) \/
  (n = quote "--list-tests-with-tag" /\ setting_of (quote "--help") = None /\ setting_of n <> None) \/
  (n = quote "--list-tags" /\ setting_of (quote "--help") = None /\ setting_of (quote "--list-tests-with-tag") = None /\ setting_of n <> None) \/
  (n = quote "--list-reporters" /\ setting_of (quote "--help") = None /\ setting_of (quote "--list-tests-with-tag") = None /\ setting_of (quote "--list-tags") = None /\ setting_of n <> None).
Proof.
  intros (l & l' & E & S & F). unfold actions in E. revert E. generalize (quote "--help") (quote "--list-tests-with-tag") (quote "--list-tags") (quote "--list-reporters").
  intros x1 x2 x3 x4 E.
  destruct l as [|a [|b [|c [|d [|e l]]]]]; cbn [app] in E; try discriminate E; injection E; intros; subst;
    repeat match goal with H : Forall _ (_ :: _) |- _ => inversion H; clear H; subst end; intuition.
Qed.

(** What the program does apart from the warnings. *)
Lemma acts can_open r path argv out code l : length argv <= l_max_command_line_args lm -> acceptable argv ->
  (forall printed args r1 out1, parse_arguments (cli_of lm) path argv = Ok (printed, Some args) -> configure lm can_open r args = Ok (r1, out1) ->
     exists o, run_tests_impl lm fuel r1 args = Ok (map Printed o, true) /\ List.concat o = l) ->
  main_program can_open r path argv = Ok (out, code) -> only_prints r argv out l /\ code = 0.
Proof.
  intros L ACC H M. destruct (main_program_inv lm fuel file duration can_open r path argv out code L ACC M)
    as (printed & args & r1 & out1 & r2 & out2 & r3 & out3 & success & P & C & R & PF & -> & -> & _).
  destruct (H _ _ _ _ P C) as (o & E & CO). destruct (run_tests_inv lm fuel _ _ _ _ _ R) as (o' & RI & _ & -> & _). rewrite E in RI. injection RI as <- <-.
  rewrite (perform_printed lm file duration), (perform_closing lm file duration r1 r1) in PF by reflexivity. cbn [bind] in PF. injection PF as _ <-.
  split; [|reflexivity]. destruct (configure_warned lm can_open r path argv printed args r1 out1 L ACC P C) as (w & W & E').
  destruct (closing_text r1) as [K1 K2]. exists w. split; [exact W|].
  rewrite !console_text_app, !file_text_app, !console_text_printed, !file_text_printed, K1, K2, (configure_file_text _ _ _ _ _ _ C), !app_nil_r, <- E', CO, app_assoc. auto.
Qed.
Lemma asked path argv printed args n v : length argv <= l_max_command_line_args lm -> n <> [] ->
  parse_arguments (cli_of lm) path argv = Ok (printed, Some args) -> setting (read argv) n = v -> option_map a_value (get_option args n) = v.
Proof. intros L N P S. destruct (parsed_options (cli_of lm) _ _ _ _ L P) as [G _]. rewrite (G n N). exact S. Qed.
Lemma absent path argv printed args n : length argv <= l_max_command_line_args lm ->
  parse_arguments (cli_of lm) path argv = Ok (printed, Some args) -> setting (read argv) n = None -> n <> [] -> get_option args n = None.
Proof. intros L P S N. pose proof (asked path argv printed args n None L N P S) as X. destruct (get_option args n); [discriminate X|reflexivity]. Qed.
Lemma present path argv printed args n : length argv <= l_max_command_line_args lm ->
  parse_arguments (cli_of lm) path argv = Ok (printed, Some args) -> setting (read argv) n <> None -> n <> [] -> exists a, get_option args n = Some a.
Proof. intros L P S N. pose proof (asked path argv printed args n _ L N P eq_refl) as X. destruct (get_option args n); [eauto|]. now rewrite <- X in S. Qed.

Theorem reporters_listed can_open r path argv out code :
  length argv <= l_max_command_line_args lm -> acceptable argv -> first_asked (setting (read argv)) (quote "--list-reporters") ->
  main_program can_open r path argv = Ok (out, code) ->
  only_prints r argv out (flat_map (fun p => fit (l_max_message_length lm) (r_name p ++ feed)) (g_reporters r)) /\ code = 0.
Proof.
  intros L ACC F M. apply first_cases in F as [(X & _)|[(X & _)|[(X & _)|(_ & F1 & F2 & F3 & F4)]]]; try discriminate X.
  revert M. apply acts; [exact L|exact ACC|]. intros printed args r1 out1 P C.
  pose proof (absent _ _ _ _ _ L P F1 ltac:(discriminate)) as G1. pose proof (absent _ _ _ _ _ L P F2 ltac:(discriminate)) as G2. pose proof (absent _ _ _ _ _ L P F3 ltac:(discriminate)) as G3.
  destruct (present _ _ _ _ _ L P F4 ltac:(discriminate)) as (a & G4). change quote with lit in *. unfold run_tests_impl. rewrite G1, G2, G3, G4.
  destruct (choice lm file duration _ _ _ _ _ _ _ _ L P C) as (_ & -> & _).
  exists (map (fun p => fit (l_max_message_length lm) (r_name p ++ feed)) (g_reporters r)). split; [|symmetry; apply flat_map_concat_map].
  replace (map (fun p => [Text (r_name p); Text newline]) (g_reporters r)) with (map (map Text) (map (fun p => [r_name p; newline]) (g_reporters r))) by (rewrite map_map; reflexivity).
  rewrite prints_texts. cbn [bind]. rewrite !map_map. do 3 f_equal.
Qed.

Theorem tags_listed can_open r path argv out code tags :
  length argv <= l_max_command_line_args lm -> acceptable argv -> first_asked (setting (read argv)) (quote "--list-tags") ->
  Forall2 (fun t l => id_tags (t_id t) = tag_string l) (g_tests r) tags -> Forall (well_formed (l_max_tag_length lm)) tags -> after_plain (List.concat tags) ->
  main_program can_open r path argv = Ok (out, code) ->
  exists l, StronglySorted before l /\ (forall x, In x l <-> exists t, In t tags /\ In x (tags_of t)) /\
    only_prints r argv out (flat_map (fun t => fit (l_max_message_length lm) (bracketed t ++ feed)) l) /\ code = 0.
Proof.
  intros L ACC F T W A M. apply first_cases in F as [(X & _)|[(X & _)|[(_ & F1 & F2 & F3)|(X & _)]]]; try discriminate X.
  assert (T' : Forall2 (fun id t => id_tags id = tag_string t) (map t_id (g_tests r)) tags) by (clear - T; induction T; constructor; auto).
  destruct (list_after_plain (l_max_message_length lm) (l_max_tag_length lm) (l_max_unique_tags lm) _ _ T' W A) as (l & S & I & E).
  exists l. split; [exact S|]. split; [exact I|].
  destruct (length l <=? l_max_unique_tags lm) eqn:LE.
  - revert M. apply acts; [exact L|exact ACC|]. intros printed args r1 out1 P C.
    pose proof (absent _ _ _ _ _ L P F1 ltac:(discriminate)) as G1. pose proof (absent _ _ _ _ _ L P F2 ltac:(discriminate)) as G2.
    destruct (present _ _ _ _ _ L P F3 ltac:(discriminate)) as (a & G3). change quote with lit in *. unfold run_tests_impl. rewrite G1, G2, G3.
    destruct (choice lm file duration _ _ _ _ _ _ _ _ L P C) as (-> & _).
    match goal with |- context [list_all_tags ?a ?b ?c ?d] => change (list_all_tags a b c d) with (list_all_tags (l_max_message_length lm) (l_max_tag_length lm) (l_max_unique_tags lm) d) end. rewrite E. cbn [bind]. eexists. split; [reflexivity|].
    rewrite flat_map_concat_map. f_equal. apply map_ext. intros t. unfold bracketed. f_equal. rewrite <- ?app_assoc. reflexivity.
  - exfalso. destruct (main_program_inv lm fuel file duration can_open r path argv out code L ACC M)
      as (printed & args & r1 & out1 & r2 & out2 & r3 & out3 & success & P & C & R & _).
    destruct (run_tests_inv lm fuel _ _ _ _ _ R) as (o' & RI & _). revert RI.
    pose proof (absent _ _ _ _ _ L P F1 ltac:(discriminate)) as G1. pose proof (absent _ _ _ _ _ L P F2 ltac:(discriminate)) as G2.
    destruct (present _ _ _ _ _ L P F3 ltac:(discriminate)) as (a & G3). change quote with lit in *. unfold run_tests_impl. rewrite G1, G2, G3.
    destruct (choice lm file duration _ _ _ _ _ _ _ _ L P C) as (-> & _).
    match goal with |- context [list_all_tags ?a ?b ?c ?d] => change (list_all_tags a b c d) with (list_all_tags (l_max_message_length lm) (l_max_tag_length lm) (l_max_unique_tags lm) d) end. rewrite E. discriminate.
Qed.

Theorem help_printed can_open r path argv out code :
  length argv <= l_max_command_line_args lm -> acceptable argv -> first_asked (setting (read argv)) (quote "--help") ->
  main_program can_open r path argv = Ok (out, code) ->
  exists colours file_name program, file_of path file_name /\ stem_of file_name program /\
    (setting (read argv) (quote "--reporter") = None -> colours = run_colours (setting (read argv)) (g_with_color r)) /\ code = 0 /\
    (Forall (fun line => length line <= l_max_message_length lm) (help_lines (painted colours) program (l_version lm)) ->
     only_prints r argv out (List.concat (help_lines (painted colours) program (l_version lm)))).
Proof.
  intros L ACC F M. apply first_cases in F as [(_ & F)|[(X & _)|[(X & _)|(X & _)]]]; try discriminate X.
  destruct (main_program_inv lm fuel file duration can_open r path argv out code L ACC M)
      as (printed & args & r1 & out1 & r2 & out2 & r3 & out3 & success & P & C & _).
  destruct (extract_executable_spec path) as (f & F1 & F2). exists (g_with_color r1), f, (extract_executable path). split; [exact F1|]. split; [exact F2|]. split.
  { intros N. refine (run_colours_spec lm can_open r path argv printed args r1 out1 L P _ C). now left. }
  destruct (print_help_total (cli_of lm) (extract_executable path) (g_with_color r1)) as (h & H).
  assert (G : only_prints r argv out (List.concat h) /\ code = 0).
  { revert M. apply acts; [exact L|exact ACC|]. intros printed' args' r1' out1' P' C'. rewrite P in P'. injection P' as <- <-. rewrite C in C'. injection C' as <- <-.
    destruct (present _ _ _ _ _ L P F ltac:(discriminate)) as (a & G). change quote with lit in *. unfold run_tests_impl. rewrite G.
    destruct (parse_arguments_spec (cli_of lm) path argv L) as (out' & r' & E' & A & _). rewrite P in E'. injection E' as <- <-. destruct (A ACC) as [[= ->] _].
    cbn [executable]. rewrite H. cbn [bind]. eauto. }
  split; [apply G|]. intros FIT. destruct (print_help_text (cli_of lm) (extract_executable path) (g_with_color r1) FIT) as (h' & H' & E).
  rewrite H in H'. injection H' as <-. change (c_version (cli_of lm)) with (l_version lm) in E. rewrite E in G. apply G.
Qed.

Theorem refused can_open r path argv :
  length argv <= l_max_command_line_args lm -> ~ acceptable argv ->
  exists colours out, main_program can_open r path argv = Ok (out, 1) /\ file_text out = [] /\
    (clear_colours argv -> colours = message_colours (setting (read argv)) (l_default_with_color lm)) /\
    (1 <= l_max_message_length lm ->
     Forall (fun line => length line <= l_max_message_length lm) (help_lines (painted colours) path (l_version lm)) ->
     Forall (fun c => length (spoken (painted colours) c) <= l_max_message_length lm) (complaints [] argv) ->
     console_text out = flat_map (spoken (painted colours)) (complaints [] argv) ++ feed ++ List.concat (help_lines (painted colours) path (l_version lm))).
Proof.
  intros L N. destruct (parse_complains (cli_of lm) path argv L) as (colours & messages & result & PC & M & [(A & _)|(_ & help & blank & H & B & P)]); [contradiction|].
  exists colours, (map Printed (messages ++ blank :: help)). unfold Program.main_program. rewrite P. cbn [bind]. split; [reflexivity|]. split; [apply file_text_printed|].
  split; [intros CC; rewrite (colours_told (cli_of lm) path argv L CC) in PC; now injection PC|].
  intros ONE FIT FC. rewrite console_text_printed, concat_app. cbn [List.concat]. rewrite (B ONE). f_equal; [|f_equal].
  - clear - M FC. induction M as [|c m cs ms E M IH]; [reflexivity|]. inversion FC as [|? ? F1 F2]; subst. cbn [List.concat flat_map]. now rewrite IH, (E F1).
  - destruct (print_help_text (cli_of lm) path colours FIT) as (h' & H' & E). rewrite H in H'. injection H' as <-. exact E.
Qed.
End Actions.
