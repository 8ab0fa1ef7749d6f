(** The theorems of Properties/Session.v: options, listings, exit status, reporters, output file. *)
From Coq Require Import Permutation.
From Verif.Spec Require Import TextSpec FilterSpec PrintSpec Events VerdictSpec SessionSpec CliSpec.
From Verif.Model Require Import Base Vector StringUtil Print Filter Run Cli File Session.
From Verif.Proofs Require Import Lists FilterProofs RunProofs ScopeProofs RunFacts PrintProofs CliProofs CliFacts SessionProofs.
Notation limits := Session.limits.

(** ** Looking up options *)
Lemma same_text_sym a b : same_text a b = seqb a b.
Proof.
  rewrite same_text_seqb. destruct (seqb a b) eqn:E; [apply seqb_eq in E; subst; apply seqb_refl|].
  apply seqb_neq in E. apply seqb_neq. congruence.
Qed.
Lemma get_option_name args n a : get_option args n = Some a -> a_name a = n.
Proof. intros H. apply List.find_some in H as [_ H]. now apply seqb_eq in H. Qed.
Lemma get_option_single exe a n : get_option (mkinput exe [a]) n = if seqb (a_name a) n then Some a else None.
Proof. unfold get_option. cbn [arguments List.find]. reflexivity. Qed.

Lemma events_of_app {ID} (a b : list (SessionSpec.output ID)) : events_of (a ++ b) = events_of a ++ events_of b.
Proof. unfold events_of. apply flat_map_app. Qed.
Lemma events_of_reported {ID} r (l : list (Events.event ID)) : events_of (map (Reported r) l) = l.
Proof. induction l as [|e l IH]; [reflexivity|]. cbn. now f_equal. Qed.
Lemma events_of_printed {ID} l : events_of (map (@Printed ID) l) = [].
Proof. induction l as [|e l IH]; [reflexivity|]. exact IH. Qed.

Section Facts.
Variable lm : limits.
Variable fuel : nat.

Definition closing (r : registry) : list output :=
  Finished (g_reporter r) :: (match g_file r with Some _ => [ClosedFile] | None => [] end).
Lemma events_closing r : events_of (closing r) = [].
Proof. unfold closing. destruct (g_file r); reflexivity. Qed.
Lemma run_tests_impl_eq r args : run_tests lm fuel r args =
  match run_tests_impl lm fuel r args with
  | Ok (out, success) => Ok (set_file r None, out ++ closing r, success)
  | Err e => Err e
  end.
Proof. unfold run_tests. destruct (run_tests_impl lm fuel r args) as [[out s]|]; reflexivity. Qed.
Lemma run_tests_inv r args r' out s : run_tests lm fuel r args = Ok (r', out, s) ->
  exists out', run_tests_impl lm fuel r args = Ok (out', s) /\ r' = set_file r None /\ out = out' ++ closing r /\ events_of out = events_of out'.
Proof.
  rewrite run_tests_impl_eq. destruct (run_tests_impl lm fuel r args) as [[out' s']|]; [|discriminate]. intros [= <- <- <-].
  exists out'. repeat split; auto. now rewrite events_of_app, events_closing, app_nil_r.
Qed.

(** ** C17 *)
Notation actions := SessionSpec.actions.

Lemma no_action r args : (forall n, In n actions -> get_option args n = None) ->
  run_tests_impl lm fuel r args =
  match get_positional_argument args (lit "test regex") with
  | Some _ =>
    do filter_strings <- for_each_positional_argument args (lit "test regex") ;;
    match get_option args (lit "--list-tests") with
    | Some _ => do l <- list_events (g_tests r) (cli_selects (l_max_tag_length lm) (l_max_test_name_length lm) filter_strings) ;;
                Ok (map (Reported (g_reporter r)) l, true)
    | None =>
      do (l, success) <- run_selected_tests lm fuel (g_verbose r) (g_tests r) (executable args) filter_strings
                           (cli_selects (l_max_tag_length lm) (l_max_test_name_length lm) filter_strings) ;;
      Ok (map (Reported (g_reporter r)) l, success)
    end
  | None =>
    match get_option args (lit "--list-tests") with
    | Some _ => do l <- list_events (g_tests r) (fun _ => Ok true) ;; Ok (map (Reported (g_reporter r)) l, true)
    | None => do (l, success) <- run_default lm fuel (g_verbose r) (g_tests r) (executable args) ;; Ok (map (Reported (g_reporter r)) l, success)
    end
  end.
Proof.
  intros H. unfold run_tests_impl. rewrite (H (lit "--help")), (H (lit "--list-tests-with-tag")), (H (lit "--list-tags")), (H (lit "--list-reporters"))
    by (cbn [In actions]; tauto). reflexivity.
Qed.

Definition without (name : text) (l : list argument) : list argument := filter (fun a => negb (same_text (a_name a) name)) l.

Lemma without_option exe name l n : n <> name -> get_option (mkinput exe (without name l)) n = get_option (mkinput exe l) n.
Proof.
  intros NE. unfold get_option, without. cbn [arguments]. induction l as [|a l IH]; [reflexivity|]. cbn [filter List.find].
  rewrite same_text_sym. destruct (seqb (a_name a) name) eqn:E; cbn [negb].
  - apply seqb_eq in E. rewrite IH. destruct (seqb (a_name a) n) eqn:E'; [|reflexivity]. apply seqb_eq in E'. congruence.
  - cbn [List.find]. now rewrite IH.
Qed.
Lemma without_gone exe name l : get_option (mkinput exe (without name l)) name = None.
Proof.
  unfold get_option, without. cbn [arguments]. induction l as [|a l IH]; [reflexivity|]. cbn [filter].
  rewrite same_text_sym. destruct (seqb (a_name a) name) eqn:E; cbn [negb]; [exact IH|]. cbn [List.find]. now rewrite E.
Qed.
Lemma option_argument a name : a_name a = name -> name <> [] -> is_option_argument a = true.
Proof. intros <- H. unfold is_option_argument. destruct (a_name a); [contradiction|reflexivity]. Qed.
Lemma without_positional exe name l p : name <> [] ->
  get_positional_argument (mkinput exe (without name l)) p = get_positional_argument (mkinput exe l) p /\
  for_each_positional_argument (mkinput exe (without name l)) p = for_each_positional_argument (mkinput exe l) p.
Proof.
  intros NE. unfold get_positional_argument, for_each_positional_argument, without. cbn [arguments]. induction l as [|a l [I1 I2]]; [split; reflexivity|].
  cbn [filter List.find positional_values]. rewrite same_text_sym. destruct (seqb (a_name a) name) eqn:E; cbn [negb].
  - apply seqb_eq in E. rewrite (option_argument a name E NE). cbn [negb andb]. auto.
  - cbn [List.find positional_values]. rewrite I1, I2. split; reflexivity.
Qed.

Lemma visible_started v (l : list event) : vlevel High <= vlevel v -> started (filter (Events.visible v) l) = started l.
Proof.
  intros H. induction l as [|e l IH]; [reflexivity|]. cbn [filter]. destruct (Events.visible v e) eqn:E.
  - change (started ([e] ++ filter (Events.visible v) l) = started ([e] ++ l)). now rewrite !started_app, IH.
  - change (started (filter (Events.visible v) l) = started ([e] ++ l)). rewrite started_app, IH. destruct e; try reflexivity. exfalso. unfold Events.visible in E. cbn [min_verbosity] in E.
    apply Nat.leb_gt in E. lia.
Qed.

Lemma run_started v tests name fs p events success : vlevel High <= vlevel v ->
  run_selected_tests lm fuel v tests name fs p = Ok (events, success) ->
  started events = map (fun t => (t_id t, t_line t)) (select p tests) /\ Forall (fun t => exists b, p (t_id t) = Ok b) tests.
Proof.
  intros H. rewrite run_selected. destruct (cases lm fuel p tests) as [l|] eqn:C; [|discriminate]. cbv zeta. intros [= <- _].
  destruct (cases_select _ _ _ _ _ C) as (E & F & P). split; [|exact P].
  rewrite !started_app, visible_started by exact H. destruct (cases_started lm fuel l F) as [-> _]. rewrite E.
  unfold report_at. destruct (_ <=? _); cbn; now rewrite ?app_nil_r.
Qed.

Lemma listing_agrees r args r1 out1 s1 :
  (forall n, In n actions -> get_option args n = None) -> get_option args (lit "--list-tests") <> None ->
  get_positional_argument args (lit "test regex") <> None -> vlevel High <= vlevel (g_verbose r) ->
  run_tests lm fuel r (mkinput (executable args) (without (lit "--list-tests") (arguments args))) = Ok (r1, out1, s1) ->
  exists r2 out2, run_tests lm fuel r args = Ok (r2, out2, true) /\ listed (events_of out2) = started (events_of out1).
Proof.
  destruct args as [exe l]. cbn [executable arguments]. intros N L F V R.
  apply run_tests_inv in R as (o1 & R & _ & _ & ->). rewrite no_action in R.
  2:{ intros n Hn. rewrite without_option; [auto|]. intros ->. vm_compute in Hn. intuition discriminate. }
  rewrite without_gone in R. destruct (without_positional exe (lit "--list-tests") l (lit "test regex")) as [P1 P2]; [discriminate|]. rewrite P1, P2 in R.
  rewrite run_tests_impl_eq, no_action by exact N. destruct (get_positional_argument _ _); [|contradiction].
  destruct (for_each_positional_argument _ _) as [fs|]; cbn [bind] in *; [|discriminate].
  destruct (get_option _ (lit "--list-tests")); [|contradiction].
  destruct (run_selected_tests _ _ _ _ _ _ _) as [[ev su]|] eqn:RS; cbn [bind] in R; [|discriminate]. injection R as <- <-.
  cbn [g_verbose set_verbose] in *. apply (run_started _ _ _ _ _ _ _ V) in RS as [ST PR].
  unfold list_events. rewrite (list_loop_select _ _ PR). cbn [bind]. eexists _, _. split; [reflexivity|].
  rewrite events_of_app, events_closing, app_nil_r, !events_of_reported, ST.
  change (listed (ListTestRunStarted :: ?x)) with (listed x). cbn [listed flat_map]. fold (@listed test_id). rewrite listed_app, listed_map. cbn. now rewrite app_nil_r.
Qed.

Lemma pick {A} (P : A -> Prop) (f : A -> res bool) l : (forall x, In x l -> exists b, f x = Ok b /\ (b = true <-> P x)) ->
  exists keep, (forall x, In x l -> (keep x = true <-> P x)) /\
    filter (fun x => match f x with Ok b => b | Err _ => false end) l = filter keep l /\ Forall (fun x => exists b, f x = Ok b) l.
Proof.
  intros H. exists (fun x => match f x with Ok b => b | Err _ => false end). split; [|split; [reflexivity|]].
  - intros x Hx. destruct (H x Hx) as (b & -> & E). exact E.
  - apply Forall_forall. intros x Hx. destruct (H x Hx) as (b & E & _). eauto.
Qed.

Lemma listing_selected r args fs (tagged_tests : list (test_case * list text)) :
  (forall n, In n actions -> get_option args n = None) -> get_option args (lit "--list-tests") <> None ->
  for_each_positional_argument args (lit "test regex") = Ok fs -> fs <> [] ->
  g_tests r = map fst tagged_tests ->
  Forall (fun x => id_tags (t_id (fst x)) = tag_string (snd x) /\ well_formed (l_max_tag_length lm) (snd x) /\
                   length (full_name_of (id_name (t_id (fst x))) (id_type (t_id (fst x)))) <= l_max_test_name_length lm) tagged_tests ->
  exists out keep,
    run_tests lm fuel r args = Ok (set_file r None, out, true) /\
    events_of out = [ListTestRunStarted] ++ map (fun x => TestCaseListed (t_id (fst x)) (t_line (fst x))) (filter keep tagged_tests) ++ [ListTestRunEnded] /\
    (forall x, In x tagged_tests ->
      (keep x = true <-> selected (full_name_of (id_name (t_id (fst x))) (id_type (t_id (fst x)))) (snd x) fs)).
Proof.
  intros N L F NE G W. rewrite run_tests_impl_eq, no_action, F by exact N. cbn [bind].
  destruct (get_positional_argument args (lit "test regex")) as [a|] eqn:P.
  2:{ exfalso. apply NE. unfold get_positional_argument, for_each_positional_argument in *. clear - F P. revert fs F P.
      induction (arguments args) as [|a l IH]; cbn [positional_values List.find]; intros fs F P; [injection F as <-; reflexivity|].
      destruct (_ && _); [discriminate|]. eauto. }
  destruct (get_option args (lit "--list-tests")); [|contradiction].
  set (p := cli_selects _ _ _).
  destruct (pick (fun x => selected (full_name_of (id_name (t_id (fst x))) (id_type (t_id (fst x)))) (snd x) fs) (fun x => p (t_id (fst x))) tagged_tests)
    as (keep & K1 & K2 & K3).
  { intros x Hx. rewrite Forall_forall in W. destruct (W x Hx) as (T & WF & LE). destruct (cli_selects_spec (l_max_tag_length lm) (l_max_test_name_length lm) fs (t_id (fst x)) (snd x) T WF NE LE) as (b & E & I).
    exists b. split; auto. }
  assert (PR : Forall (fun t => exists b, p (t_id t) = Ok b) (g_tests r)).
  { rewrite G. apply Forall_map. exact K3. }
  unfold list_events. rewrite (list_loop_select p _ PR). cbn [bind]. eexists _, keep. split; [reflexivity|].
  rewrite events_of_app, events_closing, app_nil_r, events_of_reported. split; [|exact K1].
  cbn [app]. do 2 f_equal. rewrite <- K2, G. unfold select. clear. induction tagged_tests as [|x l IH]; [reflexivity|]. cbn [map filter].
  destruct (p (t_id (fst x))) as [[|]|]; cbn [map]; now rewrite IH.
Qed.

Lemma listing_all r args :
  (forall n, In n actions -> get_option args n = None) -> get_option args (lit "--list-tests") <> None ->
  get_positional_argument args (lit "test regex") = None ->
  exists out, run_tests lm fuel r args = Ok (set_file r None, out, true) /\
    events_of out = [ListTestRunStarted] ++ map (fun t => TestCaseListed (t_id t) (t_line t)) (g_tests r) ++ [ListTestRunEnded].
Proof.
  intros N L P. rewrite run_tests_impl_eq, no_action, P by exact N. destruct (get_option args (lit "--list-tests")); [|contradiction].
  unfold list_events. rewrite (list_loop_select (fun _ => Ok true)) by (apply Forall_forall; eauto). cbn [bind].
  eexists. split; [reflexivity|]. rewrite events_of_app, events_closing, app_nil_r, events_of_reported. cbn [app]. do 3 f_equal.
  unfold select. induction (g_tests r) as [|t l IH]; [reflexivity|]. cbn [filter]. now rewrite IH.
Qed.

(** ** C33 *)
Lemma priority r args :
  (forall a, get_option args (lit "--help") = Some a -> run_tests lm fuel r args = run_tests lm fuel r (mkinput (executable args) [a])) /\
  (get_option args (lit "--help") = None ->
   (forall a, get_option args (lit "--list-tests-with-tag") = Some a -> run_tests lm fuel r args = run_tests lm fuel r (mkinput (executable args) [a])) /\
   (get_option args (lit "--list-tests-with-tag") = None ->
    (forall a, get_option args (lit "--list-tags") = Some a -> run_tests lm fuel r args = run_tests lm fuel r (mkinput (executable args) [a])) /\
    (get_option args (lit "--list-tags") = None ->
     forall a, get_option args (lit "--list-reporters") = Some a -> run_tests lm fuel r args = run_tests lm fuel r (mkinput (executable args) [a])))).
Proof.
  rewrite run_tests_impl_eq. unfold run_tests_impl.
  split; [|intros ->; split; [|intros ->; split; [|intros ->]]].
  all: intros a E; rewrite run_tests_impl_eq; unfold run_tests_impl; rewrite E, !get_option_single, (get_option_name _ _ _ E);
    cbn [executable]; repeat (match goal with |- context [seqb (lit ?a) (lit ?b)] => let v := eval vm_compute in (seqb (lit a) (lit b)) in change (seqb (lit a) (lit b)) with v end);
    cbv iota; exact eq_refl.
Qed.

Lemma alone_help r exe a : a_name a = lit "--help" ->
  exists help, print_help (cli_of lm) exe (g_with_color r) = Ok help /\
    run_tests lm fuel r (mkinput exe [a]) = Ok (set_file r None, map Printed help ++ closing r, true).
Proof.
  intros E. rewrite run_tests_impl_eq. unfold run_tests_impl. rewrite get_option_single, E. cbn [executable].
  replace (seqb _ _) with true by reflexivity. destruct (print_help_total (cli_of lm) exe (g_with_color r)) as (h & H). exists h. rewrite H. split; reflexivity.
Qed.

Lemma alone_with_tag r exe a tag (tagged_tests : list (test_case * list text)) :
  a_name a = lit "--list-tests-with-tag" -> a_value a = Some tag -> g_tests r = map fst tagged_tests ->
  Forall (fun x => id_tags (t_id (fst x)) = tag_string (snd x) /\ well_formed (l_max_tag_length lm) (snd x)) tagged_tests ->
  exists keep, (forall x, In x tagged_tests -> (keep x = true <-> tags_hold (snd x) tag)) /\
    run_tests lm fuel r (mkinput exe [a]) =
      Ok (set_file r None,
          map (Reported (g_reporter r)) ([ListTestRunStarted] ++ map (fun x => TestCaseListed (t_id (fst x)) (t_line (fst x))) (filter keep tagged_tests) ++ [ListTestRunEnded])
          ++ closing r, true).
Proof.
  intros E V G W. rewrite run_tests_impl_eq. unfold run_tests_impl. rewrite !get_option_single, E.
  replace (seqb _ (lit "--help")) with false by reflexivity. replace (seqb _ _) with true by reflexivity. unfold value_of. rewrite V. cbn [bind].
  set (p := fun id => do m <- is_filter_match_tags (mt lm) (id_tags id) tag ;; Ok (included m)).
  destruct (pick (fun x => tags_hold (snd x) tag) (fun x => p (t_id (fst x))) tagged_tests) as (keep & K1 & K2 & K3).
  { intros x Hx. rewrite Forall_forall in W. destruct (W x Hx) as (T & WF).
    destruct (tags_filter_spec (l_max_tag_length lm) (snd x) tag WF) as (m & M & I & _). exists (included m). split; [|exact I].
    unfold p. rewrite T. unfold mt. rewrite M. reflexivity. }
  exists keep. split; [exact K1|].
  assert (PR : Forall (fun t => exists b, p (t_id t) = Ok b) (g_tests r)) by (rewrite G; apply Forall_map; exact K3).
  unfold list_events. rewrite (list_loop_select p _ PR). cbn [bind]. do 5 f_equal. cbn [app]. do 2 f_equal. rewrite <- K2, G. unfold select.
  clear. induction tagged_tests as [|x l IH]; [reflexivity|]. cbn [map filter]. destruct (p (t_id (fst x))) as [[|]|]; cbn [map]; now rewrite IH.
Qed.

Lemma alone_tags r exe a : a_name a = lit "--list-tags" ->
  run_tests lm fuel r (mkinput exe [a]) =
    match list_all_tags (l_max_message_length lm) (l_max_tag_length lm) (l_max_unique_tags lm) (map t_id (g_tests r)) with
    | Ok out => Ok (set_file r None, map Printed out ++ closing r, true)
    | Err e => Err e
    end.
Proof.
  intros E. rewrite run_tests_impl_eq. unfold run_tests_impl. rewrite !get_option_single, E.
  replace (seqb _ (lit "--help")) with false by reflexivity. replace (seqb _ (lit "--list-tests-with-tag")) with false by reflexivity. replace (seqb _ _) with true by reflexivity.
  fold (mm lm) (mt lm). destruct (list_all_tags _ _ _ _); reflexivity.
Qed.

Lemma alone_reporters r exe a : a_name a = lit "--list-reporters" ->
  run_tests lm fuel r (mkinput exe [a]) =
    Ok (set_file r None, map (fun p => Printed (fit (l_max_message_length lm) (r_name p ++ newline))) (g_reporters r) ++ closing r, true).
Proof.
  intros E. rewrite run_tests_impl_eq. unfold run_tests_impl. rewrite !get_option_single, E.
  replace (seqb _ (lit "--help")) with false by reflexivity. replace (seqb _ (lit "--list-tests-with-tag")) with false by reflexivity.
  replace (seqb _ (lit "--list-tags")) with false by reflexivity. replace (seqb _ _) with true by reflexivity.
  replace (map (fun p => [Text (r_name p); Text newline]) (g_reporters r)) with (map (map Text) (map (fun p => [r_name p; newline]) (g_reporters r))).
  2:{ rewrite map_map. reflexivity. }
  rewrite prints_texts. cbn [bind]. rewrite !map_map. do 4 f_equal; apply map_ext; intros p; cbn [concat app]; now rewrite app_nil_r.
Qed.

Lemma action_runs_nothing r args r' out s n : In n actions -> get_option args n <> None ->
  run_tests lm fuel r args = Ok (r', out, s) -> ~ runs_tests out /\ s = true.
Proof.
  intros Hn G R. apply run_tests_inv in R as (o & R & _ & _ & EO). unfold runs_tests. rewrite EO. clear EO. unfold run_tests_impl in R.
  assert (LE : forall p l, list_events (g_tests r) p = Ok l -> ~ Exists (fun e => match e with ListTestRunStarted | ListTestRunEnded | TestCaseListed _ _ => False | _ => True end) (events_of (map (Reported (g_reporter r)) l))).
  { intros p l H. destruct (list_events_select _ _ _ H) as (-> & _). rewrite events_of_reported. intros X. rewrite !Exists_app in X. destruct X as [X|[X|X]].
    - apply Exists_cons in X as [X|X]; [exact X|inversion X].
    - apply Exists_exists in X as (e & He & X). apply in_map_iff in He as (t & <- & _). exact X.
    - apply Exists_cons in X as [X|X]; [exact X|inversion X]. }
  assert (PE : forall l, ~ Exists (fun e : event => match e with ListTestRunStarted | ListTestRunEnded | TestCaseListed _ _ => False | _ => True end) (events_of (map Printed l)))
    by (intros l; rewrite events_of_printed; inversion 1).
  destruct (get_option args (lit "--help")) eqn:E1; [|destruct (get_option args (lit "--list-tests-with-tag")) as [o2|] eqn:E2;
    [|destruct (get_option args (lit "--list-tags")) eqn:E3; [|destruct (get_option args (lit "--list-reporters")) eqn:E4]]].
  - destruct (print_help _ _ _); cbn [bind] in R; [|discriminate]. injection R as <- <-. auto.
  - destruct (value_of o2); cbn [bind] in R; [|discriminate]. destruct (list_events _ _) eqn:L; cbn [bind] in R; [|discriminate]. injection R as <- <-. eauto.
  - destruct (list_all_tags _ _ _ _); cbn [bind] in R; [|discriminate]. injection R as <- <-. auto.
  - destruct (prints _ _); cbn [bind] in R; [|discriminate]. injection R as <- <-. auto.
  - exfalso. apply G. cbn [In actions] in Hn. change quote with lit in Hn. intuition congruence.
Qed.

(** Positions do not matter. *)
Lemma get_option_perm exe l l' n : Permutation l l' -> NoDup (map a_name (filter is_option_argument l)) -> n <> [] ->
  get_option (mkinput exe l) n = get_option (mkinput exe l') n.
Proof.
  intros P D NE. unfold get_option. cbn [arguments].
  assert (G : forall l, NoDup (map a_name (filter is_option_argument l)) -> forall a, List.find (fun a => seqb (a_name a) n) l = Some a <-> In a l /\ a_name a = n).
  { clear - NE. intros l D a. split.
    - intros H. apply List.find_some in H as [H1 H2]. apply seqb_eq in H2. auto.
    - intros [H1 H2]. revert D H1. induction l as [|b l IH]; intros D H1; [destruct H1|]. cbn [List.find].
      destruct (seqb (a_name b) n) eqn:E.
      + apply seqb_eq in E. destruct H1 as [<-|H1]; [reflexivity|]. exfalso. cbn [filter] in D. rewrite (option_argument b n E NE) in D. cbn [map] in D.
        apply NoDup_cons_iff in D as [N _]. apply N. rewrite E, <- H2. apply in_map. apply filter_In. split; auto. apply (option_argument a (a_name a) eq_refl). rewrite H2. exact NE.
      + destruct H1 as [->|H1]; [rewrite <- H2, seqb_refl in E; discriminate|]. apply IH; auto. cbn [filter] in D. destruct (is_option_argument b); [inversion D; auto|auto]. }
  assert (D' : NoDup (map a_name (filter is_option_argument l'))).
  { eapply Permutation_NoDup; [|exact D]. apply Permutation_map. clear - P. induction P; cbn [filter]; auto.
    - destruct (is_option_argument x); auto.
    - destruct (is_option_argument x), (is_option_argument y); auto using perm_swap.
    - eapply perm_trans; eauto. }
  destruct (List.find (fun a => seqb (a_name a) n) l) as [a|] eqn:E.
  - symmetry. apply (G _ D'). apply (G _ D) in E as [H1 H2]. split; auto. eapply Permutation_in; eauto.
  - destruct (List.find (fun a => seqb (a_name a) n) l') as [a|] eqn:E'; [|reflexivity]. apply (G _ D') in E' as [H1 H2].
    assert (X : List.find (fun a => seqb (a_name a) n) l = Some a) by (apply (G _ D); split; auto; eapply Permutation_in; [apply Permutation_sym|]; eauto). congruence.
Qed.

Lemma positional_filter exe l p :
  get_positional_argument (mkinput exe l) p = get_positional_argument (mkinput exe (filter (fun a => negb (is_option_argument a)) l)) p /\
  for_each_positional_argument (mkinput exe l) p = for_each_positional_argument (mkinput exe (filter (fun a => negb (is_option_argument a)) l)) p.
Proof.
  unfold get_positional_argument, for_each_positional_argument. cbn [arguments]. induction l as [|a l [I1 I2]]; [split; reflexivity|].
  cbn [filter List.find positional_values]. destruct (is_option_argument a) eqn:E; cbn [negb andb]; [auto|].
  cbn [List.find positional_values]. rewrite E. cbn [negb andb]. rewrite I1, I2. split; reflexivity.
Qed.

Lemma position_irrelevant can_open r exe l l' : Permutation l l' -> NoDup (map a_name (filter is_option_argument l)) ->
  filter (fun a => negb (is_option_argument a)) l = filter (fun a => negb (is_option_argument a)) l' ->
  run_tests lm fuel r (mkinput exe l) = run_tests lm fuel r (mkinput exe l') /\
  configure lm can_open r (mkinput exe l) = configure lm can_open r (mkinput exe l').
Proof.
  intros P D F.
  assert (G : forall n, n <> [] -> get_option (mkinput exe l) n = get_option (mkinput exe l') n) by (intros; now apply get_option_perm).
  assert (G1 : forall p, get_positional_argument (mkinput exe l) p = get_positional_argument (mkinput exe l') p).
  { intros p. rewrite (proj1 (positional_filter exe l p)), (proj1 (positional_filter exe l' p)), F. reflexivity. }
  assert (G2 : forall p, for_each_positional_argument (mkinput exe l) p = for_each_positional_argument (mkinput exe l') p).
  { intros p. rewrite (proj2 (positional_filter exe l p)), (proj2 (positional_filter exe l' p)), F. reflexivity. }
  split.
  - unfold run_tests, run_tests_impl. rewrite !G, G1, G2 by discriminate. reflexivity.
  - unfold configure. rewrite !G by discriminate. reflexivity.
Qed.
End Facts.
