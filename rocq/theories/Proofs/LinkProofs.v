(** The order in which tests are registered (C103). *)
From Coq Require Import Permutation Sorting.Sorted Lia.
From Verif.Spec Require Import TextSpec FilterSpec PrintSpec CliSpec Events VerdictSpec SessionSpec ProgramSpec.
From Verif.Model Require Import Base Vector StringUtil Print Filter Run Cli File Session.
From Verif.Spec Require Import LinkClaims.
From Verif.Proofs Require Import Lists FilterProofs RunProofs ScopeProofs RunFacts SessionProofs SessionFacts ConfigProofs CliProofs CliFacts ProgramProofs ShardProofs ShortcutProofs.
Local Open Scope list_scope.

Definition with_tests (l : list test_case) (r : registry) : registry :=
  mkregistry l (g_reporters r) (g_verbose r) (g_with_color r) (g_reporter r) (g_file r) (g_to_file r) (g_storage r).

Lemma relinked_with r r' : relinked r r' -> r' = with_tests (g_tests r') r.
Proof. destruct r, r'. intros (_ & E). unfold same_but_tests in E. cbn in E. unfold with_tests. cbn. destruct E as (-> & -> & -> & -> & -> & -> & ->). reflexivity. Qed.

(** ** Options *)
Section Options.
Variable lm : Session.limits.
Variable l : list test_case.

Definition lift {A} (x : res (registry * A)) : res (registry * A) := match x with Ok (r, a) => Ok (with_tests l r, a) | Err e => Err e end.
Definition lift2 {A B} (x : res (registry * A * B)) : res (registry * A * B) := match x with Ok (r, a, b) => Ok (with_tests l r, a, b) | Err e => Err e end.

Lemma lift_bind {A B} (x : res (registry * A)) (f : registry -> A -> res (registry * B)) :
  (forall r a, f (with_tests l r) a = lift (f r a)) ->
  (do (r, a) <- lift x ;; f r a) = lift (do (r, a) <- x ;; f r a).
Proof. intros H. destruct x as [[r a]|]; [apply H|reflexivity]. Qed.
Lemma lift2_bind {A B C} (x : res (registry * A * B)) (f : registry -> A -> B -> res (registry * C)) :
  (forall r a b, f (with_tests l r) a b = lift (f r a b)) ->
  (do (r, a, b) <- lift2 x ;; f r a b) = lift (do (r, a, b) <- x ;; f r a b).
Proof. intros H. destruct x as [[[r a] b]|]; [apply H|reflexivity]. Qed.

Lemma parse_color_with d r v : parse_color d (with_tests l r) v = lift2 (parse_color d r v).
Proof. unfold parse_color. cbn [g_with_color with_tests]. destruct (d (g_with_color r) v) as [[[c o] out]|]; reflexivity. Qed.

Lemma parse_reporter_with r v : parse_reporter lm (with_tests l r) v = lift (parse_reporter lm r v).
Proof.
  unfold parse_reporter. cbn [g_with_color with_tests g_reporters]. destruct (match v with [] => true | c :: _ => _ end).
  - destruct (cli_print _ _); reflexivity.
  - destruct (match Base.find v _ with Some p => _ | None => _ end) as [name options]. destruct (find_reporter 0 (g_reporters r) name) as [[i p]|].
    + change (modes_of (with_tests l r)) with (modes_of r). destruct (r_initialize p (modes_of r)) as [[[m md] said]|]; cbn [bind]; [|reflexivity].
      destruct (match Base.find options _ with None => _ | Some _ => _ end) as [[[m' me] out]|]; reflexivity.
    + destruct (prints _ _); reflexivity.
Qed.

Lemma configure_with can_open r args : configure lm can_open (with_tests l r) args = lift (configure lm can_open r args).
Proof.
  unfold configure.
  assert (S1 : (match get_option args (lit "--colour-mode") with Some opt => do v <- value_of opt ;; parse_colour_mode_option lm (with_tests l r) v | None => Ok (with_tests l r, false, []) end) =
               lift2 (match get_option args (lit "--colour-mode") with Some opt => do v <- value_of opt ;; parse_colour_mode_option lm r v | None => Ok (r, false, []) end)).
  { destruct (get_option _ _); [|reflexivity]. destruct (value_of _); cbn [bind]; [|reflexivity]. apply parse_color_with. }
  rewrite S1. apply lift2_bind. clear S1 r. intros r b o1.
  assert (S2 : (match get_option args (lit "--color") with
     | Some opt => do v <- value_of opt ;; do (r', b0, out) <- parse_color_option lm (with_tests l r) v ;; Ok (r', b0 || b, out)
     | None => Ok (with_tests l r, b, []) end) =
     lift2 (match get_option args (lit "--color") with
     | Some opt => do v <- value_of opt ;; do (r', b0, out) <- parse_color_option lm r v ;; Ok (r', b0 || b, out)
     | None => Ok (r, b, []) end)).
  { destruct (get_option _ _); [|reflexivity]. destruct (value_of _); cbn [bind]; [|reflexivity]. unfold parse_color_option. rewrite parse_color_with.
    destruct (parse_color _ r _) as [[[? ?] ?]|]; reflexivity. }
  rewrite S2. apply lift2_bind. clear S2 r b. intros r b o2.
  match goal with |- bind ?x _ = lift (bind ?y _) => assert (S3 : x = lift y) end.
  { destruct (get_option _ _); [|reflexivity]. destruct (value_of _); cbn [bind]; [|reflexivity]. repeat (destruct (seqb _ _); [reflexivity|]).
    cbn [g_with_color with_tests]. destruct (cli_print _ _); reflexivity. }
  rewrite S3. apply lift_bind. clear S3 r. intros r o3.
  match goal with |- bind ?x _ = lift (bind ?y _) => assert (S4 : x = lift y) end.
  { destruct (get_option _ _); [|reflexivity]. destruct (value_of _); cbn [bind]; [|reflexivity]. destruct (open_file _ _ _); cbn [bind]; [|reflexivity].
    destruct b; reflexivity. }
  rewrite S4. apply lift_bind. clear S4 r b. intros r o4.
  match goal with |- bind ?x _ = lift (bind ?y _) => assert (S5 : x = lift y) end.
  { destruct (get_option _ _); [|reflexivity]. destruct (value_of _); cbn [bind]; [|reflexivity]. apply parse_reporter_with. }
  rewrite S5. apply lift_bind. reflexivity.
Qed.
End Options.

(** ** Runs *)
Section Runs.
Variable lm : Session.limits.
Variable fuel : nat.

Lemma cases_perm p tests tests' : Permutation tests tests' -> forall l, cases lm fuel p tests = Ok l ->
  exists l', cases lm fuel p tests' = Ok l' /\ Permutation l l'.
Proof.
  induction 1 as [|t a b P IH|t u a|a b c P1 IH1 P2 IH2]; intros l.
  - intros E. exists l. split; [exact E|apply Permutation_refl].
  - cbn [cases]. destruct (p (t_id t)) as [x|]; cbn [bind]; [|discriminate]. destruct x; [|apply IH].
    destruct (run _ fuel t []) as [st|]; cbn [bind]; [|discriminate]. destruct (cases lm fuel p a) as [la|]; cbn [bind]; [|discriminate].
    intros [= <-]. destruct (IH _ eq_refl) as (lb & -> & Q). cbn [bind]. eexists. split; [reflexivity|]. now constructor.
  - cbn [cases]. destruct (p (t_id u)) as [x|]; cbn [bind]; [|discriminate].
    destruct x.
    + destruct (run _ fuel u []) as [su|]; cbn [bind]; [|discriminate]. destruct (p (t_id t)) as [y|]; cbn [bind]; [|discriminate]. destruct y.
      * destruct (run _ fuel t []) as [st|]; cbn [bind]; [|discriminate]. destruct (cases lm fuel p a) as [la|]; cbn [bind]; [|discriminate].
        intros [= <-]. eexists. split; [reflexivity|]. constructor.
      * destruct (cases lm fuel p a) as [la|]; cbn [bind]; [|discriminate]. intros [= <-]. eexists. split; [reflexivity|]. apply Permutation_refl.
    + destruct (p (t_id t)) as [y|]; cbn [bind]; [|discriminate]. destruct y.
      * destruct (run _ fuel t []) as [st|]; cbn [bind]; [|discriminate]. destruct (cases lm fuel p a) as [la|]; cbn [bind]; [|discriminate].
        intros [= <-]. eexists. split; [reflexivity|]. apply Permutation_refl.
      * intros E. rewrite E. eexists. split; [reflexivity|]. apply Permutation_refl.
  - intros E. destruct (IH1 _ E) as (lb & Eb & Q1). destruct (IH2 _ Eb) as (lc & Ec & Q2). exists lc. split; [exact Ec|]. now transitivity lb.
Qed.

Lemma concat_perm {A} (a b : list (list A)) : Permutation a b -> Permutation (List.concat a) (List.concat b).
Proof.
  induction 1 as [|x a b P IH|x y a|a b c P1 IH1 P2 IH2]; cbn [List.concat]; [constructor|now apply Permutation_app_head| |now transitivity (List.concat b)].
  rewrite !app_assoc. apply Permutation_app_tail, Permutation_app_comm.
Qed.
Lemma ended_perm {ID} (a b : list (Events.event ID)) : Permutation a b -> Permutation (ended a) (ended b).
Proof. intros P. unfold ended. now apply Permutation_flat_map. Qed.
Lemma sum_perm (a b : list nat) : Permutation a b -> list_sum a = list_sum b.
Proof. unfold list_sum. induction 1; cbn [fold_right] in *; lia. Qed.
Lemma summary_perm {ID} name fs (a b : list (ID * counts * case_state)) : Permutation a b -> summary_of name fs a = summary_of name fs b.
Proof.
  intros P. unfold summary_of. rewrite (Permutation_length P), !(in_state_perm _ _ _ P). unfold total.
  rewrite !(sum_perm _ _ (Permutation_map (fun x : ID * counts * case_state => _ (snd (fst x))) P)). reflexivity.
Qed.

Lemma selected_perm v p tests tests' name fs events success : Permutation tests tests' ->
  run_selected_tests lm fuel v tests name fs p = Ok (events, success) ->
  exists events', run_selected_tests lm fuel v tests' name fs p = Ok (events', success) /\ same_but_order events events'.
Proof.
  intros P. rewrite (run_selected_verbosity lm fuel p v tests), (run_selected_verbosity lm fuel p v tests'), !run_selected.
  destruct (cases lm fuel p tests) as [l|] eqn:C; [|discriminate]. cbv zeta. intros [= <- <-].
  destruct (cases_perm _ _ _ P _ C) as (l' & -> & Q).
  set (parts := map (fun x => trace (snd x)) l). set (parts' := map (fun x => trace (snd x)) l').
  assert (QP : Permutation parts parts') by now apply Permutation_map.
  assert (E : Permutation (ended (List.concat parts)) (ended (List.concat parts'))) by now apply ended_perm, concat_perm.
  eexists. split; [rewrite <- (in_state_perm _ _ _ E), <- (summary_perm _ _ _ _ E); reflexivity|].
  exists v, (TestRunStarted name fs), (summary_of name fs (ended (List.concat parts))), parts, parts'.
  split; [|split; [exact QP|split; rewrite visible_full; reflexivity]].
  destruct (cases_select _ _ _ _ _ C) as (_ & F & _). unfold parts. clear - F. induction F as [|[t st] l R F IH]; constructor; auto.
  cbn [fst snd] in *. destruct (run_alone lm fuel t st R) as (body & c & s & T & I & _). exists (t_id t), (t_line t). right. exists body, c, s. auto.
Qed.

Lemma list_perm p tests tests' events : Permutation tests tests' -> list_events tests p = Ok events ->
  exists events', list_events tests' p = Ok events' /\ same_but_order events events'.
Proof.
  intros P. unfold list_events. destruct (list_loop p tests) as [l|] eqn:E; [|discriminate]. intros [= <-].
  pose proof (list_loop_ok _ _ _ E) as F. assert (F' : Forall (fun t => exists b, p (t_id t) = Ok b) tests').
  { rewrite Forall_forall in *. intros t I. apply F. now apply (Permutation_in t (Permutation_sym P)). }
  rewrite (list_loop_select p tests F) in E. injection E as <-. rewrite (list_loop_select p tests' F'). cbn [bind]. eexists. split; [reflexivity|].
  set (parts := fun l => map (fun t => [TestCaseListed (t_id t) (t_line t)]) (select p l)).
  exists Full, ListTestRunStarted, ListTestRunEnded, (parts tests), (parts tests').
  assert (CC : forall l, List.concat (parts l) = map (fun t => TestCaseListed (t_id t) (t_line t)) (select p l)).
  { intros l. unfold parts. induction (select p l) as [|t s IH]; [reflexivity|]. cbn [map List.concat app]. now rewrite IH. }
  split; [apply Forall_forall; intros x I; apply in_map_iff in I as (t & <- & _); exists (t_id t), (t_line t); now left|].
  split; [|rewrite !visible_full, !CC; split; reflexivity].
  apply Permutation_map. unfold select. clear - P. induction P as [|x a b P IH|x y a|a b c P1 IH1 P2 IH2]; cbn [filter]; auto.
  - destruct (match p (t_id x) with Ok b => b | Err _ => false end); auto.
  - destruct (match p (t_id x) with Ok b => b | Err _ => false end), (match p (t_id y) with Ok b => b | Err _ => false end); auto. constructor.
  - now transitivity (filter (fun t => match p (t_id t) with Ok b => b | Err _ => false end) b).
Qed.

Definition alike_outputs (out out' : list output) : Prop :=
  out = out' \/ exists k events events', same_but_order events events' /\ out = map (Reported k) events /\ out' = map (Reported k) events'.

Lemma impl_perm r args tests' out s : Permutation (g_tests r) tests' ->
  (get_option args (lit "--list-tags") <> None -> get_option args (lit "--help") <> None \/ get_option args (lit "--list-tests-with-tag") <> None) ->
  run_tests_impl lm fuel r args = Ok (out, s) ->
  exists out', run_tests_impl lm fuel (with_tests tests' r) args = Ok (out', s) /\ alike_outputs out out'.
Proof.
  intros P NT. unfold run_tests_impl. cbn [g_tests with_tests g_reporter g_verbose g_with_color g_reporters].
  destruct (get_option args (lit "--help")); [intros E; exists out; split; [exact E|now left]|].
  destruct (get_option args (lit "--list-tests-with-tag")) as [opt|].
  - destruct (value_of opt); cbn [bind]; [|discriminate]. destruct (list_events (g_tests r) _) as [ev|] eqn:E; cbn [bind]; [|discriminate]. intros [= <- <-].
    destruct (list_perm _ _ _ _ P E) as (ev' & -> & B). cbn [bind]. eexists. split; [reflexivity|]. right. exists (g_reporter r), ev, ev'. auto.
  - destruct (get_option args (lit "--list-tags")); [destruct NT as [N|N]; [discriminate|now destruct N|now destruct N]|].
    destruct (get_option args (lit "--list-reporters")); [intros E; exists out; split; [exact E|now left]|].
    destruct (get_positional_argument args (lit "test regex")).
    + destruct (for_each_positional_argument args _) as [fs|]; cbn [bind]; [|discriminate]. destruct (get_option args (lit "--list-tests")).
      * destruct (list_events (g_tests r) _) as [ev|] eqn:E; cbn [bind]; [|discriminate]. intros [= <- <-].
        destruct (list_perm _ _ _ _ P E) as (ev' & -> & B). cbn [bind]. eexists. split; [reflexivity|]. right. exists (g_reporter r), ev, ev'. auto.
      * destruct (run_selected_tests _ _ _ (g_tests r) _ _ _) as [[ev su]|] eqn:E; cbn [bind]; [|discriminate]. intros [= <- <-].
        destruct (selected_perm _ _ _ _ _ _ _ _ P E) as (ev' & -> & B). cbn [bind]. eexists. split; [reflexivity|]. right. exists (g_reporter r), ev, ev'. auto.
    + destruct (get_option args (lit "--list-tests")).
      * destruct (list_events (g_tests r) _) as [ev|] eqn:E; cbn [bind]; [|discriminate]. intros [= <- <-].
        destruct (list_perm _ _ _ _ P E) as (ev' & -> & B). cbn [bind]. eexists. split; [reflexivity|]. right. exists (g_reporter r), ev, ev'. auto.
      * unfold run_default. destruct (run_selected_tests _ _ _ (g_tests r) _ _ _) as [[ev su]|] eqn:E; cbn [bind]; [|discriminate]. intros [= <- <-].
        destruct (selected_perm _ _ _ _ _ _ _ _ P E) as (ev' & -> & B). cbn [bind]. eexists. split; [reflexivity|]. right. exists (g_reporter r), ev, ev'. auto.
Qed.
End Runs.

Lemma main_perm lm fuel can_open r r' path argv out code : relinked r r' -> length argv <= l_max_command_line_args lm ->
  setting (read argv) (quote "--list-tags") = None ->
  main lm fuel can_open r path argv = Ok (out, code) ->
  exists (before after : list output) (k : option nat) (events events' : list event) (out' : list output),
    main lm fuel can_open r' path argv = Ok (out', code) /\
    out = before ++ map (Reported k) events ++ after /\ out' = before ++ map (Reported k) events' ++ after /\
    (events = events' \/ same_but_order events events').
Proof.
  intros RL L N M. rewrite (relinked_with _ _ RL). destruct RL as (P & _). unfold main in *. destruct (parse_arguments (cli_of lm) path argv) as [[printed [args|]]|] eqn:PA; cbn [bind] in *; [| |discriminate].
  - rewrite configure_with. destruct (configure lm can_open r args) as [[r1 out1]|] eqn:C; cbn [bind lift] in *; [|discriminate].
    destruct (parsed_options (cli_of lm) _ _ _ _ L PA) as [GO _]. specialize (GO (quote "--list-tags") ltac:(discriminate)). rewrite N in GO. change quote with lit in GO.
    assert (T : g_tests r1 = g_tests r).
    { pose proof (configure_with lm (g_tests r) can_open r args) as E. rewrite C in E. cbn [lift] in E. assert (W : with_tests (g_tests r) r = r) by now destruct r.
      rewrite W, C in E. injection E as E. rewrite E. reflexivity. }
    rewrite <- T in P. rewrite run_tests_impl_eq in M. destruct (run_tests_impl lm fuel r1 args) as [[o s]|] eqn:R; cbn [bind] in M; [|discriminate]. injection M as <- <-.
    destruct (impl_perm lm fuel r1 args _ o s P) with (2 := R) as (o' & R' & A); [intros K; destruct (get_option args (lit "--list-tags")); [discriminate GO|contradiction]|].
    rewrite run_tests_impl_eq, R'. cbn [bind]. change (closing (with_tests (g_tests r') r1)) with (closing r1).
    destruct A as [<-|(k & ev & ev' & B & -> & ->)].
    + exists (map Printed printed ++ out1 ++ o), (closing r1), None, [], []. eexists. split; [reflexivity|]. cbn [map app]. rewrite <- !app_assoc. auto.
    + exists (map Printed printed ++ out1), (closing r1), k, ev, ev'. eexists. split; [reflexivity|]. rewrite <- !app_assoc. auto.
  - injection M as <- <-. exists (map Printed printed), [], None, [], []. eexists. split; [reflexivity|]. cbn [map app]. rewrite app_nil_r. auto.
Qed.
