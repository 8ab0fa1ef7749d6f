(** Exit status, colours, reporters, output file (C34, C35, C50, C54, C55, C57). *)
From Verif.Spec Require Import TextSpec FilterSpec PrintSpec Events VerdictSpec SessionSpec CliSpec.
From Verif.Model Require Import Base Vector StringUtil Print Filter Run Cli File Session.
From Verif.Proofs Require Import Lists VectorProofs AppendProofs ReplaceProofs FilterProofs RunProofs ScopeProofs RunFacts PrintProofs CliProofs CliFacts SessionProofs SessionFacts.

(** ** C55 *)
Lemma worst_failed a b : worst a b = Failed <-> a = Failed \/ b = Failed.
Proof. destruct a, b; cbn; intuition congruence. Qed.
Lemma verdict_failed {ID} (l : list (Events.event ID)) : VerdictSpec.verdict l = Failed <-> Exists (fun e => says e = Failed) l.
Proof.
  induction l as [|e l IH]; [split; [discriminate|inversion 1]|]. rewrite verdict_cons, worst_failed, Exists_cons, IH. reflexivity.
Qed.
Lemma exists_visible v (l : list event) : Exists (fun e => says e = Failed) (filter (Events.visible v) l) <-> Exists (fun e => says e = Failed) l.
Proof.
  induction l as [|e l IH]; [reflexivity|]. cbn [filter]. rewrite (Exists_cons _ e l). destruct (Events.visible v e) eqn:V.
  - rewrite Exists_cons, IH. reflexivity.
  - rewrite IH. split; [auto|]. intros [H|H]; auto. exfalso. destruct e; cbn in H; try discriminate. 
Qed.

Section Config.
Variable lm : limits.
Variable fuel : nat.

Lemma in_state_app {ID} s (a b : list (ID * counts * case_state)) : in_state s (a ++ b) = in_state s a + in_state s b.
Proof. unfold in_state. now rewrite filter_app, app_length. Qed.

Lemma cases_failed l : Forall (fun x => run (config_of lm Full) fuel (fst x) [] = Ok (snd x)) l ->
  let all := concat (map (fun x => trace (snd x)) l) in
  ((in_state Failed (ended all) =? 0) = false <-> Exists (fun e => says e = Failed) all).
Proof.
  intros F. cbv zeta. rewrite Nat.eqb_neq. induction F as [|[t st] l R F IH]; [split; [cbn; lia|inversion 1]|]. cbn [fst snd] in R.
  destruct (run_alone lm fuel t st R) as (body & c & s & T & I0 & _ & _ & V). cbn [map concat snd]. rewrite T.
  destruct (case_events t body c s I0) as [E _]. rewrite ended_app, E, in_state_app, Exists_app. rewrite <- IH.
  rewrite Exists_cons, Exists_app. cbn [says]. rewrite <- verdict_failed, <- V.
  assert (X : Exists (fun e : event => says e = Failed) [TestCaseEnded (t_id t) (t_line t) c s] <-> False) by (rewrite Exists_cons; cbn [says]; split; [intros [H|H]; [discriminate|inversion H]|tauto]).
  rewrite X. unfold in_state at 1. cbn [filter snd]. destruct s; cbn [same_state severity Nat.eqb length]; split; intros H; try lia; intuition (try discriminate; lia).
Qed.

Lemma run_selected_failed v tests name fs p events success : run_selected_tests lm fuel v tests name fs p = Ok (events, success) ->
  (success = false <-> Exists (fun e => says e = Failed) events).
Proof.
  rewrite run_selected. destruct (cases lm fuel p tests) as [l|] eqn:C; [|discriminate]. cbv zeta. intros [= <- <-].
  destruct (cases_select _ _ _ _ _ C) as (_ & F & _). rewrite (cases_failed l F).
  rewrite !Exists_app, exists_visible.
  assert (R : forall e : event, says e <> Failed -> (Exists (fun e => says e = Failed) (report_at v e) <-> False)).
  { intros e N. unfold report_at. destruct (_ <=? _); [|split; [inversion 1|tauto]]. rewrite Exists_cons. split; [intros [H|H]; [tauto|inversion H]|tauto]. }
  rewrite !R by discriminate. tauto.
Qed.

Lemma list_events_fine tests p l : list_events tests p = Ok l -> ~ Exists (fun e => says e = Failed) l.
Proof.
  intros H. destruct (list_events_select _ _ _ H) as (-> & _). rewrite !Exists_app, Exists_cons, Exists_nil. cbn [says]. intros [[X|[]]|[X|X]]; [discriminate| |].
  - apply Exists_exists in X as (e & He & X). apply in_map_iff in He as (t & <- & _). discriminate.
  - rewrite Exists_cons, Exists_nil in X. destruct X as [X|[]]. discriminate.
Qed.

Lemma run_tests_failed r args r' out success : run_tests lm fuel r args = Ok (r', out, success) -> (success = false <-> failure out).
Proof.
  intros R. apply run_tests_inv in R as (o & R & _ & _ & EO). unfold failure. rewrite EO. clear EO. unfold run_tests_impl in R.
  assert (PE : forall l, ~ Exists (fun e : event => says e = Failed) (events_of (map Printed l))) by (intros l; rewrite events_of_printed; inversion 1).
  assert (LE : forall p l, list_events (g_tests r) p = Ok l -> ~ Exists (fun e => says e = Failed) (events_of (map (Reported (g_reporter r)) l))).
  { intros p l H. rewrite events_of_reported. eapply list_events_fine; eauto. }
  assert (Y : forall P, ~ P -> (true = false <-> P)) by (intros P H; split; [discriminate|tauto]).
  destruct (get_option args (lit "--help")); [|destruct (get_option args (lit "--list-tests-with-tag")) as [o2|];
    [|destruct (get_option args (lit "--list-tags")); [|destruct (get_option args (lit "--list-reporters"))]]].
  - destruct (print_help _ _ _); cbn [bind] in R; [|discriminate]. injection R as <- <-. auto.
  - destruct (value_of o2); cbn [bind] in R; [|discriminate]. destruct (list_events _ _) eqn:L; cbn [bind] in R; [|discriminate]. injection R as <- <-. eauto.
  - destruct (list_all_tags _ _ _ _); cbn [bind] in R; [|discriminate]. injection R as <- <-. auto.
  - destruct (prints _ _); cbn [bind] in R; [|discriminate]. injection R as <- <-. auto.
  - destruct (get_positional_argument _ _).
    + destruct (for_each_positional_argument _ _); cbn [bind] in R; [|discriminate]. destruct (get_option _ _).
      * destruct (list_events _ _) eqn:L; cbn [bind] in R; [|discriminate]. injection R as <- <-. eauto.
      * destruct (run_selected_tests _ _ _ _ _ _ _) as [[ev su]|] eqn:E; cbn [bind] in R; [|discriminate]. injection R as <- <-. rewrite events_of_reported. eapply run_selected_failed; eauto.
    + destruct (get_option _ _).
      * destruct (list_events _ _) eqn:L; cbn [bind] in R; [|discriminate]. injection R as <- <-. eauto.
      * unfold run_default in R. destruct (run_selected_tests _ _ _ _ _ _ _) as [[ev su]|] eqn:E; cbn [bind] in R; [|discriminate]. injection R as <- <-. rewrite events_of_reported. eapply run_selected_failed; eauto.
Qed.

(** *** Configuration: each step *)
Definition colour_step (parse : registry -> str -> res (registry * bool * list output)) (o : option argument) (r : registry) (before : bool)
  : res (registry * bool * list output) :=
  match o with
  | Some opt => do v <- value_of opt ;; do (r', b, out) <- parse r v ;; Ok (r', b || before, out)
  | None => Ok (r, before, [])
  end.
Definition verbosity_step (o : option argument) (r : registry) : res (registry * list output) :=
  match o with
  | Some opt =>
    do v <- value_of opt ;;
    if seqb v (lit "quiet") then Ok (set_verbose r Quiet, [])
    else if seqb v (lit "normal") then Ok (set_verbose r Normal, [])
    else if seqb v (lit "high") then Ok (set_verbose r High, [])
    else if seqb v (lit "full") then Ok (set_verbose r Full, [])
    else
      do s <- cli_print (mm lm) [warning_prefix (g_with_color r); Text (lit " unknown verbosity level; please use one of quiet|normal|high|full" ++ newline)] ;;
      Ok (r, [Printed s])
  | None => Ok (r, [])
  end.
Definition file_step (can_open : str -> bool) (o : option argument) (override : bool) (r : registry) : res (registry * list output) :=
  match o with
  | Some opt =>
    do v <- value_of opt ;;
    do path <- open_file (l_max_path_length lm) can_open v ;;
    let r' := set_to_file (set_file r (Some path)) in
    Ok (if override : bool then r' else set_with_color r' false, OpenedFile path :: (match g_file r with Some _ => [ClosedFile] | None => [] end))
  | None => Ok (r, [])
  end.
Definition reporter_step (o : option argument) (r : registry) : res (registry * list output) :=
  match o with Some opt => do v <- value_of opt ;; parse_reporter lm r v | None => Ok (r, []) end.

Lemma configure_steps can_open r args r' out : configure lm can_open r args = Ok (r', out) ->
  exists r1 b1 o1 r2 b2 o2 r3 o3 r4 o4 o5,
    colour_step (parse_colour_mode_option lm) (get_option args (lit "--colour-mode")) r false = Ok (r1, b1, o1) /\
    colour_step (parse_color_option lm) (get_option args (lit "--color")) r1 b1 = Ok (r2, b2, o2) /\
    verbosity_step (get_option args (lit "--verbosity")) r2 = Ok (r3, o3) /\
    file_step can_open (get_option args (lit "--out")) b2 r3 = Ok (r4, o4) /\
    reporter_step (get_option args (lit "--reporter")) r4 = Ok (r', o5) /\
    out = o1 ++ o2 ++ o3 ++ o4 ++ o5.
Proof.
  unfold configure. intros H.
  assert (C1 : colour_step (parse_colour_mode_option lm) (get_option args (lit "--colour-mode")) r false =
    match get_option args (lit "--colour-mode") with Some opt => do v <- value_of opt ;; parse_colour_mode_option lm r v | None => Ok (r, false, []) end).
  { destruct (get_option _ _) as [o|]; [|reflexivity]. cbn [colour_step]. destruct (value_of o) as [w|]; cbn [bind]; [|reflexivity].
    destruct (parse_colour_mode_option lm r w) as [[[a b] c]|]; cbn [bind]; [|reflexivity]. now rewrite orb_false_r. }
  rewrite <- C1 in H. destruct (colour_step _ _ r false) as [[[r1 b1] o1]|] eqn:E1; cbn [bind] in H; [|discriminate].
  fold (colour_step (parse_color_option lm) (get_option args (lit "--color")) r1 b1) in H.
  destruct (colour_step _ _ r1 b1) as [[[r2 b2] o2]|] eqn:E2; cbn [bind] in H; [|discriminate].
  fold (verbosity_step (get_option args (lit "--verbosity")) r2) in H. destruct (verbosity_step _ _) as [[r3 o3]|] eqn:E3; cbn [bind] in H; [|discriminate].
  fold (file_step can_open (get_option args (lit "--out")) b2 r3) in H. destruct (file_step _ _ _ _) as [[r4 o4]|] eqn:E4; cbn [bind] in H; [|discriminate].
  fold (reporter_step (get_option args (lit "--reporter")) r4) in H. destruct (reporter_step _ _) as [[r5 o5]|] eqn:E5; cbn [bind] in H; [|discriminate].
  injection H as <- <-. exists r1, b1, o1, r2, b2, o2, r3, o3, r4, o4, o5. repeat split; assumption.
Qed.

Ltac binds H := repeat match type of H with
  | bind ?a _ = Ok _ => let E := fresh "E" in destruct a eqn:E; cbn [bind] in H; [|discriminate H]
  end.

Lemma color_directive_effect yes no choices c v c' b out : color_directive lm yes no choices c v = Ok (c', b, out) ->
  (b = true -> seqb v yes || seqb v no = true) /\ c' = if seqb v yes then true else if seqb v no then false else c.
Proof.
  unfold color_directive. intros H. destruct (seqb v yes); [injection H as <- <- <-; auto|].
  destruct (seqb v no); [injection H as <- <- <-; auto|].
  destruct (seqb v (lit "default")); [injection H as <- <- <-; split; [discriminate|auto]|].
  destruct (cli_print _ _) as [s|]; cbn [bind] in H; [|discriminate]. injection H as <- <- <-. split; [discriminate|auto].
Qed.
Lemma color_directive_total yes no choices c v : exists out, color_directive lm yes no choices c v = Ok out.
Proof.
  unfold color_directive. destruct (seqb v yes); [eauto|]. destruct (seqb v no); [eauto|]. destruct (seqb v (lit "default")); [eauto|].
  match goal with |- context [cli_print ?m ?l] => destruct (cli_print_total m l) as (s & E & _) end. rewrite E. cbn [bind]. eauto.
Qed.
Lemma parse_color_effect yes no choices r v r' b out : parse_color (color_directive lm yes no choices) r v = Ok (r', b, out) ->
  events_of out = [] /\ (forall o, In o out -> exists s, o = Printed s) /\
  (b = true -> seqb v yes || seqb v no = true) /\ r' = set_with_color r (if seqb v yes then true else if seqb v no then false else g_with_color r).
Proof.
  unfold parse_color. intros H. destruct (color_directive _ _ _ _ _ v) as [[[c b1] o]|] eqn:E; cbn [bind] in H; [|discriminate].
  injection H as <- <- <-. apply color_directive_effect in E as [E1 ->]. split; [apply events_of_printed|]. split; [|auto].
  intros x X. apply in_map_iff in X as (s & <- & _). eauto.
Qed.

Definition quiet_out (out : list output) : Prop :=
  Forall (fun o => match o with Reported _ _ | OpenedFile _ | ClosedFile | Finished _ | WroteFile _ => False | _ => True end) out.
Lemma quiet_events out : quiet_out out -> events_of out = [].
Proof. induction 1 as [|o out H _ IH]; [reflexivity|]. destruct o; cbn in *; try contradiction; auto. Qed.
Lemma quiet_app a b : quiet_out a -> quiet_out b -> quiet_out (a ++ b).
Proof. intros. apply Forall_app. auto. Qed.
Lemma quiet_printed l : quiet_out (map Printed l).
Proof. apply Forall_map, Forall_forall. auto. Qed.

Lemma colour_step_effect yes no choices o r before r' b out : colour_step (parse_color (color_directive lm yes no choices)) o r before = Ok (r', b, out) ->
  quiet_out out /\
  exists c, r' = set_with_color r c /\
    match o with
    | None => c = g_with_color r
    | Some a => exists v, a_value a = Some v /\ c = if seqb v yes then true else if seqb v no then false else g_with_color r
    end.
Proof.
  destruct o as [a|]; cbn [colour_step].
  - unfold value_of. destruct (a_value a) as [v|]; cbn [bind]; [|discriminate]. destruct (parse_color (color_directive lm yes no choices) r v) as [[[r1 b1] o1]|] eqn:E; cbn [bind]; [|discriminate].
    intros [= <- <- <-]. destruct (parse_color_effect _ _ _ _ _ _ _ _ E) as (_ & Q & _ & ->). split; [|eauto].
    apply Forall_forall. intros o Ho. destruct (Q o Ho) as (s & ->). exact I.
  - intros [= <- <- <-]. split; [constructor|]. exists (g_with_color r). destruct r; auto.
Qed.

Lemma option_loop_quiet p i n : forall m memory options m' memory' out, option_loop lm n i p m memory options = Ok (m', memory', out) -> quiet_out out.
Proof.
  induction n as [|n IH]; intros m memory options m' memory' out; cbn [option_loop]; [discriminate|].
  set (op := find_from options (lit "::") 2). set (os := match op with Some pos => skipn pos options | None => options end).
  destruct (substr_from os 2) as [o2|]; cbn [bind]; [|discriminate]. set (opt := match op with Some pos => firstn pos o2 | None => o2 end).
  assert (A : forall a b a' b' rest, match op with Some _ => option_loop lm n i p a b os | None => Ok (a, b, []) end = Ok (a', b', rest) -> quiet_out rest).
  { intros a b a' b' rest. destruct op; [apply IH|]. intros [= <- <- <-]. constructor. }
  destruct (Base.find opt (lit "=")) as [[|q]|].
  - destruct (cli_print _ _) as [s|]; cbn [bind]; [|discriminate]. match goal with |- bind ?x _ = _ -> _ => destruct x as [[[m1 me1] rest]|] eqn:R end; cbn [bind]; [|discriminate].
    intros [= <- <- <-]. constructor; [exact I|exact (A _ _ _ _ _ R)].
  - destruct (r_configure p m memory _ _) as [[[[me1 m1] said] known]|]; cbn [bind]; [|discriminate].
    match goal with |- bind ?x _ = _ -> _ => destruct x as [w|] eqn:W end; cbn [bind]; [|discriminate].
    match goal with |- bind ?x _ = _ -> _ => destruct x as [[[m2 me2] rest]|] eqn:R end; cbn [bind]; [|discriminate].
    intros [= <- <- <-]. constructor; [exact I|]. apply quiet_app; [apply quiet_printed|exact (A _ _ _ _ _ R)].
  - destruct (cli_print _ _) as [s|]; cbn [bind]; [|discriminate]. match goal with |- bind ?x _ = _ -> _ => destruct x as [[[m1 me1] rest]|] eqn:R end; cbn [bind]; [|discriminate].
    intros [= <- <- <-]. constructor; [exact I|exact (A _ _ _ _ _ R)].
Qed.

(** A property of the modes kept by [configure] is kept by the options. *)
Lemma option_loop_keeps p (P : modes -> r_memory p -> Prop) i n :
  (forall m0 memory0 k v memory1 m1 said known, r_configure p m0 memory0 k v = Ok (memory1, m1, said, known) -> P m0 memory0 -> P m1 memory1) -> forall m memory options m' memory' out,
  option_loop lm n i p m memory options = Ok (m', memory', out) -> P m memory -> P m' memory'.
Proof.
  intros K. induction n as [|n IH]; intros m memory options m' memory' out; cbn [option_loop]; [discriminate|].
  set (op := find_from options (lit "::") 2). set (os := match op with Some pos => skipn pos options | None => options end).
  destruct (substr_from os 2) as [o2|]; cbn [bind]; [|discriminate]. set (opt := match op with Some pos => firstn pos o2 | None => o2 end).
  assert (A : forall a b a' b' rest, match op with Some _ => option_loop lm n i p a b os | None => Ok (a, b, []) end = Ok (a', b', rest) -> P a b -> P a' b').
  { intros a b a' b' rest. destruct op; [apply IH|]. intros [= <- <- <-]. auto. }
  destruct (Base.find opt (lit "=")) as [[|q]|].
  - destruct (cli_print _ _) as [s|]; cbn [bind]; [|discriminate]. match goal with |- bind ?x _ = _ -> _ => destruct x as [[[m1 me1] rest]|] eqn:R end; cbn [bind]; [|discriminate].
    intros [= <- <- <-]. exact (A _ _ _ _ _ R).
  - destruct (r_configure p m memory _ _) as [[[[me1 m1] said] known]|] eqn:C; cbn [bind]; [|discriminate].
    match goal with |- bind ?x _ = _ -> _ => destruct x as [w|] eqn:W end; cbn [bind]; [|discriminate].
    match goal with |- bind ?x _ = _ -> _ => destruct x as [[[m2 me2] rest]|] eqn:R end; cbn [bind]; [|discriminate].
    intros [= <- <- <-] H. exact (A _ _ _ _ _ R (K _ _ _ _ _ _ _ _ C H)).
  - destruct (cli_print _ _) as [s|]; cbn [bind]; [|discriminate]. match goal with |- bind ?x _ = _ -> _ => destruct x as [[[m1 me1] rest]|] eqn:R end; cbn [bind]; [|discriminate].
    intros [= <- <- <-]. exact (A _ _ _ _ _ R).
Qed.

Lemma find_reporter_in l name : forall k i p, find_reporter k l name = Some (i, p) -> k <= i /\ nth_error l (i - k) = Some p /\ r_name p = name.
Proof.
  induction l as [|q l IH]; intros k i p; cbn [find_reporter]; [discriminate|]. destruct (seqb (r_name q) name) eqn:E.
  - intros [= <- <-]. rewrite Nat.sub_diag. apply seqb_eq in E. auto.
  - intros F. apply IH in F as (L & N & X). split; [lia|]. split; [|exact X]. replace (i - k) with (S (i - S k)) by lia. exact N.
Qed.

Lemma parse_reporter_quiet r arg r' out : parse_reporter lm r arg = Ok (r', out) -> quiet_out out /\
  (r' = r \/ exists i p m memory, nth_error (g_reporters r) i = Some p /\ r' = set_reporter r i m (Holds p memory) /\
     forall P : modes -> r_memory p -> Prop, (forall memory1 m1 said, r_initialize p (modes_of r) = Ok (memory1, m1, said) -> P m1 memory1) ->
       (forall m0 memory0 k v memory1 m1 said known, r_configure p m0 memory0 k v = Ok (memory1, m1, said, known) -> P m0 memory0 -> P m1 memory1) -> P m memory).
Proof.
  unfold parse_reporter. destruct (match arg with [] => true | c :: _ => aeqb c ":"%char end).
  - destruct (cli_print _ _) as [s|]; cbn [bind]; [|discriminate]. intros [= <- <-]. split; auto. constructor; [exact I|constructor].
  - destruct (match Base.find arg (lit "::") with Some _ => _ | None => _ end) as [name options].
    destruct (find_reporter 0 (g_reporters r) name) as [[i p]|] eqn:FR.
    + destruct (r_initialize p (modes_of r)) as [[[memory m] said]|] eqn:N; cbn [bind]; [|discriminate].
      match goal with |- bind ?x _ = _ -> _ => destruct x as [[[m' memory'] o]|] eqn:E end; cbn [bind]; [|discriminate]. intros [= <- <-].
      apply find_reporter_in in FR as (_ & FR & _). rewrite Nat.sub_0_r in FR. split.
      * constructor; [exact I|]. apply quiet_app; [apply quiet_printed|]. destruct (Base.find options (lit "::")); [|injection E as <- <- <-; constructor]. eapply option_loop_quiet; eauto.
      * right. exists i, p, m', memory'. split; [exact FR|]. split; [reflexivity|]. intros P P1 P2. specialize (P1 _ _ _ N).
        destruct (Base.find options (lit "::")); [|injection E as <- <- <-; exact P1].
        exact (option_loop_keeps p P _ _ P2 _ _ _ _ _ _ E P1).
    + destruct (prints _ _) as [o|]; cbn [bind]; [|discriminate]. intros [= <- <-]. split; auto. apply quiet_printed.
Qed.

Lemma verbosity_step_effect o r r' out : verbosity_step o r = Ok (r', out) -> quiet_out out /\ exists v, r' = set_verbose r v.
Proof.
  destruct o as [a|]; cbn [verbosity_step].
  - destruct (value_of a) as [v|]; cbn [bind]; [|discriminate].
    destruct (seqb v (lit "quiet")); [intros [= <- <-]; split; [constructor|eauto]|]. destruct (seqb v (lit "normal")); [intros [= <- <-]; split; [constructor|eauto]|].
    destruct (seqb v (lit "high")); [intros [= <- <-]; split; [constructor|eauto]|]. destruct (seqb v (lit "full")); [intros [= <- <-]; split; [constructor|eauto]|].
    destruct (cli_print _ _); cbn [bind]; [|discriminate]. intros [= <- <-]. split; [constructor; [exact I|constructor]|]. exists (g_verbose r). destruct r; reflexivity.
  - intros [= <- <-]. split; [constructor|]. exists (g_verbose r). destruct r; reflexivity.
Qed.

Lemma reporter_step_effect o r r' out : reporter_step o r = Ok (r', out) -> quiet_out out /\
  (r' = r \/ exists i p m memory, nth_error (g_reporters r) i = Some p /\ r' = set_reporter r i m (Holds p memory) /\
     forall P : modes -> r_memory p -> Prop, (forall memory1 m1 said, r_initialize p (modes_of r) = Ok (memory1, m1, said) -> P m1 memory1) ->
       (forall m0 memory0 k v memory1 m1 said known, r_configure p m0 memory0 k v = Ok (memory1, m1, said, known) -> P m0 memory0 -> P m1 memory1) -> P m memory).
Proof.
  destruct o as [a|]; cbn [reporter_step].
  - destruct (value_of a) as [v|]; cbn [bind]; [|discriminate]. apply parse_reporter_quiet.
  - intros [= <- <-]. split; [constructor|auto].
Qed.

(** Effects of the configuration as a whole. *)
Lemma configure_effect can_open r args r' out : configure lm can_open r args = Ok (r', out) ->
  match get_option args (lit "--out") with
  | None => quiet_out out /\ g_file r' = g_file r /\ g_to_file r' = g_to_file r
  | Some a => exists before after path v, a_value a = Some v /\ open_file (l_max_path_length lm) can_open v = Ok path /\
      out = before ++ OpenedFile path :: (match g_file r with Some _ => [ClosedFile] | None => [] end) ++ after /\
      quiet_out before /\ quiet_out after /\ g_file r' = Some path /\ g_to_file r' = true
  end.
Proof.
  intros H. apply configure_steps in H as (r1 & b1 & o1 & r2 & b2 & o2 & r3 & o3 & r4 & o4 & o5 & S1 & S2 & S3 & S4 & S5 & ->).
  apply colour_step_effect in S1 as (Q1 & c1 & -> & _). apply colour_step_effect in S2 as (Q2 & c2 & -> & _).
  apply verbosity_step_effect in S3 as (Q3 & v & ->). apply reporter_step_effect in S5 as (Q5 & R5).
  destruct (get_option args (lit "--out")) as [a|]; cbn [file_step] in S4.
  - unfold value_of in S4. destruct (a_value a) as [w|]; cbn [bind] in S4; [|discriminate]. destruct (open_file _ _ w) as [path|] eqn:O; cbn [bind] in S4; [|discriminate].
    injection S4 as <- <-. exists (o1 ++ o2 ++ o3), o5, path, w. split; [reflexivity|]. split; [exact O|]. split; [rewrite <- !app_assoc; reflexivity|].
    split; [repeat apply quiet_app; auto|]. split; [exact Q5|]. destruct R5 as [->|(i & p & m & memory & _ & -> & _)]; destruct b2; split; reflexivity.
  - injection S4 as <- <-. split; [repeat apply quiet_app; auto; constructor|]. destruct R5 as [->|(i & p & m & memory & _ & -> & _)]; split; reflexivity.
Qed.

Lemma configure_events can_open r args r' out : configure lm can_open r args = Ok (r', out) -> events_of out = [].
Proof.
  intros H. apply configure_effect in H. destruct (get_option args (lit "--out")) as [a|].
  - destruct H as (b & f & path & v & _ & _ & -> & Q1 & Q2 & _). change (OpenedFile path :: ?x) with ([OpenedFile path] ++ x).
    rewrite !events_of_app, (quiet_events _ Q1), (quiet_events _ Q2). destruct (g_file r); reflexivity.
  - destruct H as (Q & _). now apply quiet_events.
Qed.

Lemma exit_status can_open r path argv out code : length argv <= l_max_command_line_args lm ->
  main lm fuel can_open r path argv = Ok (out, code) ->
  (code = 0 \/ code = 1) /\ (code = 1 <-> ~ acceptable argv \/ failure out).
Proof.
  intros L. unfold main. destruct (parse_arguments_spec (cli_of lm) path argv L) as (printed & args & P & A & B). rewrite P. cbn [bind].
  destruct args as [args|].
  - assert (ACC : ~ ~ acceptable argv) by (intros N; specialize (B N); discriminate).
    destruct (configure lm can_open r args) as [[r1 out1]|] eqn:C; cbn [bind]; [|discriminate].
    destruct (run_tests lm fuel r1 args) as [[[r2 out2] success]|] eqn:R; cbn [bind]; [|discriminate]. intros [= <- <-].
    apply run_tests_failed in R. unfold failure in *. rewrite !events_of_app, events_of_printed, (configure_events _ _ _ _ _ C). cbn [app].
    destruct success; split; auto; split; try discriminate; intuition (try discriminate; auto).
  - intros [= <- <-]. split; auto. split; auto. intros _. left. intros N. destruct (A N) as [? _]. discriminate.
Qed.

(** ** C57 *)
Notation file_output := (@SessionSpec.file_output test_id).
Lemma quiet_files out : quiet_out out -> filter file_output out = [].
Proof. induction 1 as [|o out H _ IH]; [reflexivity|]. destruct o; cbn in *; try contradiction; auto. Qed.
Lemma reported_files r l : filter file_output (map (Reported r) l) = [].
Proof. induction l; auto. Qed.
Lemma printed_files l : filter file_output (map Printed l) = [].
Proof. induction l; auto. Qed.

Lemma run_impl_files r args out s : run_tests_impl lm fuel r args = Ok (out, s) -> filter file_output out = [].
Proof.
  unfold run_tests_impl. intros R.
  destruct (get_option args (lit "--help")); [|destruct (get_option args (lit "--list-tests-with-tag")) as [o2|];
    [|destruct (get_option args (lit "--list-tags")); [|destruct (get_option args (lit "--list-reporters"))]]].
  - destruct (print_help _ _ _); cbn [bind] in R; [|discriminate]. injection R as <- <-. apply printed_files.
  - destruct (value_of o2); cbn [bind] in R; [|discriminate]. destruct (list_events _ _) eqn:E; cbn [bind] in R; [|discriminate]. injection R as <- <-. apply reported_files.
  - destruct (list_all_tags _ _ _ _); cbn [bind] in R; [|discriminate]. injection R as <- <-. apply printed_files.
  - destruct (prints _ _); cbn [bind] in R; [|discriminate]. injection R as <- <-. apply printed_files.
  - destruct (get_positional_argument _ _).
    + destruct (for_each_positional_argument _ _); cbn [bind] in R; [|discriminate]. destruct (get_option _ _).
      * destruct (list_events _ _); cbn [bind] in R; [|discriminate]. injection R as <- <-. apply reported_files.
      * destruct (run_selected_tests _ _ _ _ _ _ _) as [[ev su]|]; cbn [bind] in R; [|discriminate]. injection R as <- <-. apply reported_files.
    + destruct (get_option _ _).
      * destruct (list_events _ _); cbn [bind] in R; [|discriminate]. injection R as <- <-. apply reported_files.
      * destruct (run_default _ _ _ _ _) as [[ev su]|]; cbn [bind] in R; [|discriminate]. injection R as <- <-. apply reported_files.
Qed.

Lemma output_file can_open r path argv out code : length argv <= l_max_command_line_args lm -> g_file r = None ->
  main lm fuel can_open r path argv = Ok (out, code) ->
  match setting (read argv) (quote "--out") with
  | Some (Some v) => acceptable argv -> exists p before between,
      open_file (l_max_path_length lm) can_open v = Ok p /\
      out = before ++ [OpenedFile p] ++ between ++ [ClosedFile] /\
      events_of before = [] /\ filter file_output (before ++ between) = []
  | _ => filter file_output out = []
  end.
Proof.
  intros L GF. unfold main. destruct (parse_arguments_spec (cli_of lm) path argv L) as (printed & args & P & A & B). rewrite P. cbn [bind].
  destruct args as [args|].
  - destruct (parsed_options (cli_of lm) _ _ _ _ L P) as [G _]. specialize (G (quote "--out") ltac:(discriminate)).
    destruct (configure lm can_open r args) as [[r1 out1]|] eqn:C; cbn [bind]; [|discriminate].
    destruct (run_tests lm fuel r1 args) as [[[r2 out2] success]|] eqn:R; cbn [bind]; [|discriminate]. intros [= <- <-].
    apply run_tests_inv in R as (o & R & _ & -> & _). apply run_impl_files in R. apply configure_effect in C. change (quote "--out") with (lit "--out") in *.
    destruct (get_option args (lit "--out")) as [a|].
    + destruct C as (b & f & p & v & V & O & -> & Q1 & Q2 & F & _). rewrite <- G. cbn [option_map]. rewrite V, GF. intros _. cbn [app].
      exists p, (map Printed printed ++ b), (f ++ o ++ [Finished (g_reporter r1)]). split; [exact O|]. split.
      { unfold closing. rewrite F. repeat (rewrite <- app_assoc || cbn [app]). reflexivity. }
      split; [rewrite events_of_app, events_of_printed, (quiet_events _ Q1); reflexivity|].
      rewrite !filter_app, printed_files, (quiet_files _ Q1), (quiet_files _ Q2), R. reflexivity.
    + destruct C as (Q & F & _). rewrite <- G. cbn [option_map]. rewrite !filter_app, printed_files, (quiet_files _ Q), R. unfold closing. rewrite F, GF. reflexivity.
  - intros [= <- <-]. rewrite printed_files. destruct (setting _ _) as [[v|]|]; auto. intros N. destruct (A N) as [? _]. discriminate.
Qed.

(** ** Files (C50) *)
Lemma find_if_skip {A} (f : A -> bool) a b : (forall x, In x a -> f x = false) -> find_if f (a ++ b) = option_map (Nat.add (length a)) (find_if f b).
Proof.
  induction a as [|x a IH]; intros H; cbn [app length].
  - destruct (find_if f b); reflexivity.
  - cbn [find_if]. rewrite H by (now left). rewrite IH by (intros; apply H; now right). destruct (find_if f b); reflexivity.
Qed.
Lemma open_file_spec mp can_open path : ~ In zero path ->
  open_file mp can_open path =
    if length path <=? mp then (if can_open path then Ok path else Err Assert)
    else if length path =? S mp then Err UB else Err Assert.
Proof.
  intros NZ. unfold open_file. destruct (append_spec (new_string (mp + 1)) path (AppendProofs.wf_new (mp + 1))) as (ss & E & W & C & K & Sz & B). rewrite E. cbn [bind].
  assert (C0 : vcap (new_string (mp + 1)) = mp + 1) by (unfold new_string; cbn; now rewrite ?repeat_length). assert (S0 : vsize (new_string (mp + 1)) = 0) by reflexivity.
  assert (V0 : vcontent (new_string (mp + 1)) = []) by reflexivity. assert (B0 : vbuf (new_string (mp + 1)) = repeat zero (mp + 1)) by reflexivity.
  rewrite C0, S0, V0, B0 in *. rewrite Nat.sub_0_r in *. cbn [app] in K.
  destruct (Nat.leb_spec (length path) (mp + 1)) as [LE|GT].
  2:{ destruct (Nat.leb_spec (length path) mp); [lia|]. destruct (Nat.eqb_spec (length path) (S mp)); [lia|]. reflexivity. }
  rewrite firstn_all2 in K by lia. rewrite K in B. rewrite Sz in B. unfold c_string. rewrite B.
  assert (NF : forall x, In x path -> aeqb zero x = false).
  { intros x Hx. destruct (aeqb zero x) eqn:X; auto. apply aeqb_eq in X. subst. contradiction. }
  rewrite (find_if_skip (aeqb zero) path _ NF).
  destruct (Nat.leb_spec (length path) mp) as [L1|L1].
  - replace (skipn (0 + Nat.min (length path) (mp + 1)) (repeat zero (mp + 1))) with (zero :: repeat zero (mp - length path)).
    2:{ replace (0 + Nat.min (length path) (mp + 1)) with (length path) by lia. replace (mp + 1) with (length path + S (mp - length path)) by lia.
        rewrite repeat_app, skipn_app, repeat_length, skipn_all2, Nat.sub_diag by (rewrite repeat_length; lia). reflexivity. }
    cbn [find_if aeqb]. replace (aeqb zero zero) with true by reflexivity. cbn [option_map]. rewrite Nat.add_0_r, firstn_app_le by lia. rewrite firstn_all. reflexivity.
  - replace (length path =? S mp) with true by (symmetry; apply Nat.eqb_eq; lia).
    replace (skipn (0 + Nat.min (length path) (mp + 1)) (repeat zero (mp + 1))) with (@nil ascii).
    2:{ symmetry. apply skipn_all2. rewrite repeat_length. lia. }
    reflexivity.
Qed.
End Config.
