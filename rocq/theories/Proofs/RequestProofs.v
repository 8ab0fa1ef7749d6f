(** Proofs of C89: command lines that ask for the same thing. *)
From Coq Require Import Permutation.
From Verif.Spec Require Import TextSpec FilterSpec PrintSpec CliSpec Events SessionSpec ColourSpec HelpSpec ConsoleSpec RequestSpec.
From Verif.Model Require Import Base Vector StringUtil Print Filter Run Cli File Session Reporters Program.
From Verif.Proofs Require Import CliProofs CliFacts ColourProofs ComplaintProofs.

Lemma positional_found inp fs : for_each_positional_argument inp (lit "test regex") = Ok fs ->
  (get_positional_argument inp (lit "test regex") = None <-> fs = []).
Proof.
  unfold for_each_positional_argument, get_positional_argument. generalize (arguments inp). clear inp. intros l. revert fs. generalize (lit "test regex"). intros n.
  induction l as [|a l IH]; intros fs; cbn [positional_values List.find].
  - intros [= <-]. split; auto.
  - destruct (negb (is_option_argument a) && value_name_is a n); [|apply IH].
    destruct (a_value a); [|discriminate]. destruct (positional_values n l); cbn [bind]; [|discriminate]. intros [= <-]. split; discriminate.
Qed.

Definition same_value (i i' : input) (n : text) : Prop := option_map a_value (get_option i n) = option_map a_value (get_option i' n).

Section Request.
Variable lm : limits.
Variable fuel : nat.
Variable file : event -> text.
Variable duration : event -> option text.

Definition run_names : list text :=
  [lit "--help"; lit "--list-tests-with-tag"; lit "--list-tags"; lit "--list-reporters"; lit "--list-tests"].

Lemma run_tests_alike r i i' fs : executable i = executable i' ->
  for_each_positional_argument i (lit "test regex") = Ok fs -> for_each_positional_argument i' (lit "test regex") = Ok fs ->
  Forall (same_value i i') run_names -> run_tests lm fuel r i = run_tests lm fuel r i'.
Proof.
  intros X F F' V. unfold run_tests. f_equal. unfold run_tests_impl. rewrite X.
  assert (V1 : same_value i i' (lit "--help")) by (apply (proj1 (Forall_forall _ _) V); left; reflexivity).
  assert (V2 : same_value i i' (lit "--list-tests-with-tag")) by (apply (proj1 (Forall_forall _ _) V); right; left; reflexivity).
  assert (V3 : same_value i i' (lit "--list-tags")) by (apply (proj1 (Forall_forall _ _) V); do 2 right; left; reflexivity).
  assert (V4 : same_value i i' (lit "--list-reporters")) by (apply (proj1 (Forall_forall _ _) V); do 3 right; left; reflexivity).
  assert (V5 : same_value i i' (lit "--list-tests")) by (apply (proj1 (Forall_forall _ _) V); do 4 right; left; reflexivity).
  clear V. unfold same_value in *.
  destruct (get_option i (lit "--help")), (get_option i' (lit "--help")); try discriminate; [reflexivity|].
  destruct (get_option i (lit "--list-tests-with-tag")) as [a|], (get_option i' (lit "--list-tests-with-tag")) as [a'|]; try discriminate.
  { unfold value_of. match goal with H : option_map a_value (Some a) = _ |- _ => injection H as -> end. reflexivity. }
  destruct (get_option i (lit "--list-tags")), (get_option i' (lit "--list-tags")); try discriminate; [reflexivity|].
  destruct (get_option i (lit "--list-reporters")), (get_option i' (lit "--list-reporters")); try discriminate; [reflexivity|].
  pose proof (positional_found i fs F) as P. pose proof (positional_found i' fs F') as P'. rewrite F, F'.
  destruct (get_positional_argument i (lit "test regex")), (get_positional_argument i' (lit "test regex"));
    [|exfalso; pose proof (proj2 P (proj1 P' eq_refl)); discriminate|exfalso; pose proof (proj2 P' (proj1 P eq_refl)); discriminate|];
    destruct (get_option i (lit "--list-tests")), (get_option i' (lit "--list-tests")); try discriminate; reflexivity.
Qed.

Lemma value_alike {A} i i' n (f : text -> res A) (d : res A) : same_value i i' n ->
  match get_option i n with Some o => do v <- value_of o ;; f v | None => d end =
  match get_option i' n with Some o => do v <- value_of o ;; f v | None => d end.
Proof.
  unfold same_value, value_of. destruct (get_option i n) as [a|], (get_option i' n) as [a'|]; try discriminate; [|reflexivity].
  cbn [option_map]. intros [= ->]. reflexivity.
Qed.

(** The two halves of [configure]. *)
Definition colour_part (r : registry) (args : input) : res (registry * bool * list output * list output) :=
  do (r1, override1, out1) <-
    (match get_option args (lit "--colour-mode") with
     | Some opt => do v <- value_of opt ;; parse_colour_mode_option lm r v
     | None => Ok (r, false, [])
     end) ;;
  do (r2, override2, out2) <-
    (match get_option args (lit "--color") with
     | Some opt =>
       do v <- value_of opt ;;
       do (r', b, out) <- parse_color_option lm r1 v ;;
       Ok (r', b || override1, out)
     | None => Ok (r1, override1, [])
     end) ;;
  Ok (r2, override2, out1, out2).

Lemma configure_alike can_open r i i' : colour_part r i = colour_part r i' ->
  same_value i i' (lit "--verbosity") -> same_value i i' (lit "--out") -> same_value i i' (lit "--reporter") ->
  configure lm can_open r i = configure lm can_open r i'.
Proof.
  intros C V O R.
  assert (G : forall j, configure lm can_open r j =
    do (r2, override2, out1, out2) <- colour_part r j ;;
    do (r3, out3) <-
      (match get_option j (lit "--verbosity") with
       | Some opt =>
         do v <- value_of opt ;;
         if seqb v (lit "quiet") then Ok (set_verbose r2 Quiet, [])
         else if seqb v (lit "normal") then Ok (set_verbose r2 Normal, [])
         else if seqb v (lit "high") then Ok (set_verbose r2 High, [])
         else if seqb v (lit "full") then Ok (set_verbose r2 Full, [])
         else
           do s <- cli_print (mm lm) [warning_prefix (g_with_color r2);
                                 Text (lit " unknown verbosity level; please use one of quiet|normal|high|full" ++ newline)] ;;
           Ok (r2, [Printed s])
       | None => Ok (r2, [])
       end) ;;
    do (r4, out4) <-
      (match get_option j (lit "--out") with
       | Some opt =>
         do v <- value_of opt ;;
         do path <- open_file (l_max_path_length lm) can_open v ;;
         let r' := set_to_file (set_file r3 (Some path)) in
         Ok (if override2 : bool then r' else set_with_color r' false,
             OpenedFile path :: (match g_file r3 with Some _ => [ClosedFile] | None => [] end))
       | None => Ok (r3, [])
       end) ;;
    do (r5, out5) <-
      (match get_option j (lit "--reporter") with
       | Some opt => do v <- value_of opt ;; parse_reporter lm r4 v
       | None => Ok (r4, [])
       end) ;;
    Ok (r5, out1 ++ out2 ++ out3 ++ out4 ++ out5)).
  { intros j. unfold configure, colour_part.
    match goal with |- context [match get_option j (lit "--colour-mode") with Some _ => _ | None => _ end] => idtac end.
    destruct (match get_option j (lit "--colour-mode") with Some opt => do v <- value_of opt;; parse_colour_mode_option lm r v | None => Ok (r, false, []) end) as [[[r1 o1] out1]|]; [|reflexivity].
    cbn [bind].
    destruct (match get_option j (lit "--color") with Some opt => do v <- value_of opt;; (do (r', b, out) <- parse_color_option lm r1 v;; Ok (r', b || o1, out)) | None => Ok (r1, o1, []) end) as [[[r2 o2] out2]|]; reflexivity. }
  rewrite !G, C. destruct (colour_part r i') as [[[[r2 o2] out1] out2]|]; [|reflexivity]. cbn [bind].
  rewrite (value_alike i i' (lit "--verbosity") _ _ V). 
  match goal with |- bind ?x _ = bind ?x _ => destruct x as [[r3 out3]|]; [|reflexivity] end. cbn [bind].
  rewrite (value_alike i i' (lit "--out") _ _ O).
  match goal with |- bind ?x _ = bind ?x _ => destruct x as [[r4 out4]|]; [|reflexivity] end. cbn [bind].
  rewrite (value_alike i i' (lit "--reporter") _ _ R). reflexivity.
Qed.

Lemma colour_part_alike r i i' : same_value i i' (lit "--colour-mode") -> same_value i i' (lit "--color") -> colour_part r i = colour_part r i'.
Proof.
  intros M C. unfold colour_part. rewrite (value_alike i i' _ _ _ M).
  match goal with |- bind ?x _ = bind ?x _ => destruct x as [[[r1 o1] out1]|]; [|reflexivity] end. cbn [bind].
  rewrite (value_alike i i' _ _ _ C). reflexivity.
Qed.

Lemma registry_eta r : set_with_color r (g_with_color r) = r.
Proof. destruct r; reflexivity. Qed.

Lemma colour_part_word r i (w : option text) (w' : option text) :
  option_map a_value (get_option i (lit "--color")) = option_map Some w ->
  option_map a_value (get_option i (lit "--colour-mode")) = option_map Some w' ->
  colour_part r i =
    do (r1, override1, out1) <- (match w' with Some v => parse_colour_mode_option lm r v | None => Ok (r, false, []) end) ;;
    do (r2, override2, out2) <-
      (match w with
       | Some v => do (r', b, out) <- parse_color_option lm r1 v ;; Ok (r', b || override1, out)
       | None => Ok (r1, override1, [])
       end) ;;
    Ok (r2, override2, out1, out2).
Proof.
  intros C M. unfold colour_part, value_of.
  destruct (get_option i (lit "--color")) as [a|], w as [w|]; try discriminate;
    destruct (get_option i (lit "--colour-mode")) as [b|], w' as [w'|]; try discriminate;
    cbn [option_map] in C, M; repeat match goal with H : Some _ = Some _ |- _ => injection H as -> end; reflexivity.
Qed.

Lemma colour_part_translated r i i' w w' : In (w, w') colour_words ->
  option_map a_value (get_option i (lit "--color")) = Some (Some w) -> option_map a_value (get_option i (lit "--colour-mode")) = None ->
  option_map a_value (get_option i' (lit "--color")) = None -> option_map a_value (get_option i' (lit "--colour-mode")) = Some (Some w') ->
  colour_part r i = colour_part r i'.
Proof.
  intros I A B A' B'. rewrite (colour_part_word r i (Some w) None A B), (colour_part_word r i' None (Some w') A' B').
  destruct I as [[= <- <-]|[[= <- <-]|[[= <- <-]|[]]]]; cbn; reflexivity.
Qed.

(** ** Command lines *)
Lemma parsed argv path : length argv <= l_max_command_line_args lm -> acceptable argv ->
  exists messages inp, parse_arguments (cli_of lm) path argv = Ok (messages, Some inp) /\
    executable inp = extract_executable path /\
    Forall2 (fun arg message => cli_print (l_max_message_length lm)
       [make_colored (quote "warning:") (message_colours (setting (read argv)) (l_default_with_color lm)) color_warning;
        Text (quote " unknown command line argument '"); Text arg; Text (quote "'" ++ [ascii_of_nat 10])] = Ok message) (unknown (read argv)) messages /\
    Forall2 (fun arg message => 
       length (spoken (painted (message_colours (setting (read argv)) (l_default_with_color lm))) (UnknownOption arg)) <= l_max_message_length lm ->
       message = spoken (painted (message_colours (setting (read argv)) (l_default_with_color lm))) (UnknownOption arg)) (unknown (read argv)) messages /\
    (forall name, name <> [] -> option_map a_value (get_option inp name) = setting (read argv) name) /\
    for_each_positional_argument inp (quote "test regex") = Ok (filters (read argv)).
Proof.
  intros L A. destruct (parse_arguments_spec (cli_of lm) path argv L) as (out & r & E & S & _). destruct (S A) as (-> & color & EC & F).
  pose proof (message_colours_spec (cli_of lm) path argv L A) as M. rewrite M in EC. injection EC as <-.
  destruct (parsed_options (cli_of lm) path argv out _ L E) as [P1 P2].
  exists out. eexists. split; [exact E|]. split; [reflexivity|]. split; [exact F|]. split; [|split; [exact P1|exact P2]].
  destruct (parse_complains (cli_of lm) path argv L) as (c & ms & res & Ec & F2 & R). rewrite M in Ec. injection Ec as <-.
  destruct R as [(_ & E')|(N & _)]; [|contradiction]. rewrite E in E'. injection E' as <- _.
  rewrite (proj1 (complaints_acceptable argv) A) in F2. clear - F2. revert out F2. induction (unknown (read argv)) as [|a l IH]; intros out F; inversion F; subst; constructor; auto.
Qed.

Lemma messages_same color l a b :
  Forall2 (fun arg message => cli_print (l_max_message_length lm)
    [make_colored (quote "warning:") color color_warning; Text (quote " unknown command line argument '"); Text arg; Text (quote "'" ++ [ascii_of_nat 10])] = Ok message) l a ->
  Forall2 (fun arg message => cli_print (l_max_message_length lm)
    [make_colored (quote "warning:") color color_warning; Text (quote " unknown command line argument '"); Text arg; Text (quote "'" ++ [ascii_of_nat 10])] = Ok message) l b ->
  a = b.
Proof.
  intros F. revert b. induction F as [|x m l a E F IH]; intros b G; inversion G; subst; [reflexivity|].
  match goal with H : cli_print _ _ = Ok ?y |- _ = ?y :: _ => rewrite E in H; injection H as <- end. f_equal. now apply IH.
Qed.

Definition after (can_open : text -> bool) (r : registry) (inp : input) : res (list output * nat) :=
  do (r1, out1) <- configure lm can_open r inp ;;
  do (_, out2, success) <- run_program lm fuel file duration r1 inp ;;
  Ok (out1 ++ out2, if success : bool then 0 else 1).

Lemma main_after can_open r path argv messages inp : parse_arguments (cli_of lm) path argv = Ok (messages, Some inp) ->
  main_program lm fuel file duration can_open r path argv =
    match after can_open r inp with Ok (rest, code) => Ok (map Printed messages ++ rest, code) | Err e => Err e end.
Proof.
  intros E. unfold main_program, after. rewrite E. cbn [bind]. destruct (configure lm can_open r inp) as [[r1 out1]|]; [|reflexivity]. cbn [bind].
  destruct (run_program lm fuel file duration r1 inp) as [[[r2 out2] s]|]; reflexivity.
Qed.

Lemma after_alike can_open r i i' fs : executable i = executable i' ->
  for_each_positional_argument i (lit "test regex") = Ok fs -> for_each_positional_argument i' (lit "test regex") = Ok fs ->
  Forall (same_value i i') run_names -> configure lm can_open r i = configure lm can_open r i' -> after can_open r i = after can_open r i'.
Proof.
  intros X F F' V C. unfold after. rewrite C. destruct (configure lm can_open r i') as [[r1 out1]|]; [|reflexivity]. cbn [bind].
  unfold run_program. rewrite (run_tests_alike r1 i i' fs X F F' V). reflexivity.
Qed.

Lemma requests can_open r path argv argv' :
  length argv <= l_max_command_line_args lm -> length argv' <= l_max_command_line_args lm -> acceptable argv -> acceptable argv' ->
  same_request argv argv' ->
  exists messages messages' rest,
    let color := message_colours (setting (read argv)) (l_default_with_color lm) in
    let warns arg message := length (spoken (painted color) (UnknownOption arg)) <= l_max_message_length lm -> message = spoken (painted color) (UnknownOption arg) in
    Forall2 warns (unknown (read argv)) messages /\ Forall2 warns (unknown (read argv')) messages' /\
    (unknown (read argv) = unknown (read argv') -> messages = messages') /\
    main_program lm fuel file duration can_open r path argv =
      match rest with Ok (l, code) => Ok (map Printed messages ++ l, code) | Err e => Err e end /\
    main_program lm fuel file duration can_open r path argv' =
      match rest with Ok (l, code) => Ok (map Printed messages' ++ l, code) | Err e => Err e end.
Proof.
  intros L L' A A' [S F].
  destruct (parsed argv path L A) as (m & i & E & X & F1 & W & P1 & P2). destruct (parsed argv' path L' A') as (m' & i' & E' & X' & F1' & W' & P1' & P2').
  assert (EC : message_colours (setting (read argv')) (l_default_with_color lm) = message_colours (setting (read argv)) (l_default_with_color lm)).
  { unfold message_colours, by_color, by_colour_mode. now rewrite !S. }
  rewrite EC in *. exists m, m', (after can_open r i). cbn zeta. split; [exact W|]. split; [exact W'|].
  assert (V : forall n, n <> [] -> same_value i i' n) by (intros n N; unfold same_value; rewrite P1, P1' by exact N; apply S).
  split; [intros EU; rewrite <- EU in F1'; now apply (messages_same _ _ _ _ F1)|].
  split; [now apply main_after|]. rewrite (main_after can_open r path argv' m' i' E').
  rewrite (after_alike can_open r i i' (filters (read argv))); auto.
  - now rewrite X.
  - now rewrite F.
  - repeat constructor; apply V; discriminate.
  - apply configure_alike; [apply colour_part_alike|..]; apply V; discriminate.
Qed.

Lemma same_requests can_open r path argv argv' :
  length argv <= l_max_command_line_args lm -> length argv' <= l_max_command_line_args lm -> acceptable argv -> acceptable argv' ->
  same_request argv argv' -> unknown (read argv) = unknown (read argv') ->
  main_program lm fuel file duration can_open r path argv = main_program lm fuel file duration can_open r path argv'.
Proof.
  intros L L' A A' S U. destruct (requests can_open r path argv argv' L L' A A' S) as (m & m' & rest & _ & _ & EM & -> & ->). now rewrite EM.
Qed.

Lemma translated_requests can_open r path argv argv' :
  length argv <= l_max_command_line_args lm -> length argv' <= l_max_command_line_args lm -> acceptable argv -> acceptable argv' ->
  translated argv argv' -> unknown (read argv) = unknown (read argv') ->
  main_program lm fuel file duration can_open r path argv = main_program lm fuel file duration can_open r path argv'.
Proof.
  intros L L' A A' (S & F & w & w' & I & C1 & C2 & C1' & C2') U.
  destruct (parsed argv path L A) as (m & i & E & X & F1 & W & P1 & P2). destruct (parsed argv' path L' A') as (m' & i' & E' & X' & F1' & W' & P1' & P2').
  assert (EC : message_colours (setting (read argv')) (l_default_with_color lm) = message_colours (setting (read argv)) (l_default_with_color lm)).
  { unfold message_colours, by_color, by_colour_mode. rewrite C1, C2, C1', C2'. destruct I as [[= <- <-]|[[= <- <-]|[[= <- <-]|[]]]]; reflexivity. }
  rewrite EC, <- U in *.
  assert (V : forall n, n <> [] -> n <> quote "--color" -> n <> quote "--colour-mode" -> same_value i i' n) by (intros n N N1 N2; unfold same_value; rewrite P1, P1' by exact N; now apply S).
  rewrite (main_after can_open r path argv m i E), (main_after can_open r path argv' m' i' E'), (messages_same _ _ _ _ F1 F1').
  rewrite (after_alike can_open r i i' (filters (read argv))); auto.
  - now rewrite X.
  - now rewrite F.
  - repeat constructor; apply V; discriminate.
  - apply configure_alike; [|apply V; discriminate..]. apply (colour_part_translated r i i' w w' I); [rewrite P1|rewrite P1|rewrite P1'|rewrite P1']; try discriminate; assumption.
Qed.
End Request.

(** ** Items in another order *)
Lemma setting_some l long v : setting l long = Some v -> exists w, In (Given long w) l /\ v = option_map fst w.
Proof.
  induction l as [|i l IH]; [discriminate|]. destruct i as [long' w|a|a|a]; cbn [setting];
    try (intros H; destruct (IH H) as (w & I & E); exists w; split; [now right|exact E]).
  destruct (same_text long long') eqn:E.
  - intros [= <-]. apply same_text_eq in E. subst. exists w. split; [now left|reflexivity].
  - intros H. destruct (IH H) as (w' & I & E'). exists w'. split; [now right|exact E'].
Qed.

Lemma setting_in l long w : NoDup (given l) -> In (Given long w) l -> setting l long = Some (option_map fst w).
Proof.
  induction l as [|i l IH]; intros D I; [destruct I|]. destruct i as [long' w'|a|a|a]; cbn [setting];
    try (destruct I as [I|I]; [discriminate|]; now apply IH).
  change (given (Given long' w' :: l)) with (long' :: given l) in D. apply NoDup_cons_iff in D as [N D]. destruct I as [[= -> ->]|I].
  - now rewrite same_text_refl.
  - destruct (same_text long long') eqn:E; [|now apply IH]. apply same_text_eq in E. subst. destruct N. apply in_flat_map. exists (Given long' w). split; [exact I|now left].
Qed.

Lemma reordered argv argv' : acceptable argv -> Permutation (read argv) (read argv') -> filters (read argv) = filters (read argv') ->
  acceptable argv' /\ same_request argv argv'.
Proof.
  intros [A1 A2] P F.
  assert (D' : NoDup (given (read argv'))) by (eapply Permutation_NoDup; [|exact A2]; now apply Permutation_flat_map).
  split; [split; [|exact D']|split; [|exact F]].
  - intros arg I. apply (A1 arg). eapply Permutation_in; [apply Permutation_sym; exact P|exact I].
  - intros long. destruct (setting (read argv) long) as [v|] eqn:E.
    + apply setting_some in E as (w & I & ->). symmetry. apply setting_in; auto. eapply Permutation_in; eauto.
    + destruct (setting (read argv') long) as [v|] eqn:E'; [|reflexivity]. apply setting_some in E' as (w & I & ->).
      rewrite (setting_in (read argv) long w) in E; [discriminate|exact A2|]. eapply Permutation_in; [apply Permutation_sym; exact P|exact I].
Qed.
