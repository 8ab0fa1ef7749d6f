(** Larger limits change nothing for programs that work (C101). *)
From Verif.Spec Require Import TextSpec FilterSpec PrintSpec CliSpec Events SessionSpec CapacitySpec.
From Verif.Model Require Import Base Vector StringUtil Print Filter Run Cli File Session Program.
From Verif.Spec Require Import LimitClaims.
From Verif.Proofs Require Import Lists VectorProofs AppendProofs FilterProofs LimitProofs ConfigProofs CapacityProofs HistoryProofs.
From Coq Require Import Lia.
Local Open Scope list_scope.

Definition carries {A} (r r' : res A) : Prop := forall x, r = Ok x -> r' = Ok x.
Lemma carries_refl {A} (r : res A) : carries r r.
Proof. intros x H. exact H. Qed.
Lemma carries_bind {A B} (r r' : res A) (f f' : A -> res B) : carries r r' -> (forall x, r = Ok x -> carries (f x) (f' x)) -> carries (bind r f) (bind r' f').
Proof. intros H F y. destruct r as [x|]; cbn [bind]; [|discriminate]. rewrite (H x eq_refl). cbn [bind]. now apply F. Qed.

Lemma bind_ext {A B} (r : res A) (f f' : A -> res B) : (forall x, f x = f' x) -> bind r f = bind r f'.
Proof. intros H. destruct r; [apply H|reflexivity]. Qed.

(** ** Tags and filters *)
Section Filters.
Variables mt mt' : nat.
Hypothesis MT : mt <= mt'.

Lemma carries_append l : forall b, append_all (new_string mt) l = Ok (b, true) -> exists b', append_all (new_string mt') l = Ok (b', true) /\ vcontent b' = vcontent b.
Proof.
  intros b. destruct (append_all_content l (new_string mt) (wf_new mt)) as (s & E & _ & _ & C). destruct (append_all_content l (new_string mt') (wf_new mt')) as (s' & E' & _ & _ & C').
  rewrite E, E'. rewrite (vcontent_new mt), (vcap_new mt), (vcontent_new mt'), (vcap_new mt') in *. cbn [app] in *. intros [= <- L]. apply Nat.leb_le in L. exists s'.
  assert (L' : length (List.concat l) <= mt') by lia. apply Nat.leb_le in L'. rewrite L'. split; [reflexivity|]. rewrite C, C', !firstn_all2 by lia. reflexivity.
Qed.

Lemma carries_parse_tag t : carries (parse_tag mt t) (parse_tag mt' t).
Proof.
  unfold parse_tag. destruct (seqb t (lit "[.]")); [apply carries_refl|]. destruct (starts_with t (lit "[.")); [|apply carries_refl].
  apply carries_bind; [|intros; apply carries_refl]. intros x H.
  destruct (append_all (new_string mt) [lit "["; skipn 2 t]) as [[b ok]|] eqn:E; cbn [bind] in H; [|discriminate]. destruct ok; [|discriminate].
  destruct (carries_append _ _ E) as (b' & E' & C). rewrite E'. cbn [bind]. now rewrite C.
Qed.
Lemma carries_concat {A B} (f f' : A -> res (list B)) l : (forall x, carries (f x) (f' x)) -> carries (concat_res f l) (concat_res f' l).
Proof.
  intros F. induction l as [|x l IH]; [apply carries_refl|]. cbn [concat_res]. apply carries_bind; [apply F|]. intros y _. apply carries_bind; [exact IH|]. intros; apply carries_refl.
Qed.
Lemma carries_tags s : carries (for_each_tag mt s) (for_each_tag mt' s).
Proof. unfold for_each_tag. apply carries_bind; [apply carries_refl|]. intros raw _. apply carries_concat, carries_parse_tag. Qed.
Lemma carries_hidden s : carries (has_hidden_tag mt s) (has_hidden_tag mt' s).
Proof. unfold has_hidden_tag. apply carries_bind; [apply carries_tags|]. intros; apply carries_refl. Qed.
Lemma carries_flags s : carries (fail_flags mt s) (fail_flags mt' s).
Proof. unfold fail_flags. apply carries_bind; [apply carries_tags|]. intros; apply carries_refl. Qed.
Lemma carries_single tags f : carries (is_filter_match_tags_single mt tags f) (is_filter_match_tags_single mt' tags f).
Proof.
  unfold is_filter_match_tags_single. destruct (filter_actions f) as [[a b] g]. apply carries_bind; [apply carries_tags|]. intros; apply carries_refl.
Qed.
Lemma carries_tags_loop tags : forall fuel f result, carries (tags_loop fuel mt tags f result) (tags_loop fuel mt' tags f result).
Proof.
  induction fuel as [|fuel IH]; intros f result; [apply carries_refl|]. cbn [tags_loop]. apply carries_bind; [apply carries_single|]. intros r _.
  destruct (negb _); [apply carries_refl|]. destruct (find_first_not_escaped f close_bracket) as [p|]; [|apply carries_refl].
  destruct (skipn (S p) f); [apply carries_refl|]. apply IH.
Qed.
Lemma carries_match_tags tags f : carries (is_filter_match_tags mt tags f) (is_filter_match_tags mt' tags f).
Proof. apply carries_tags_loop. Qed.
Lemma carries_id_loop name tags : forall fuel f result, carries (id_loop fuel mt name tags f result) (id_loop fuel mt' name tags f result).
Proof.
  induction fuel as [|fuel IH]; intros f result; [apply carries_refl|]. cbn [id_loop]. apply carries_bind.
  - unfold is_filter_match_id_single. destruct (_ || _); [apply carries_match_tags|apply carries_refl].
  - intros r _. destruct (_ && _); [apply carries_refl|]. destruct (find_first_not_escaped f comma) as [p|]; [apply IH|apply carries_refl].
Qed.
Lemma carries_cli_loop name tags : forall fs result, carries (cli_loop mt name tags fs result) (cli_loop mt' name tags fs result).
Proof.
  induction fs as [|f fs IH]; intros result; [apply carries_refl|]. cbn [cli_loop]. apply carries_bind; [apply carries_id_loop|]. intros r _.
  destruct (negb _); [apply carries_refl|apply IH].
Qed.
Section Names.
Variables mn mn' : nat.
Hypothesis MN : mn <= mn'.
Lemma same_full_name id : length (full_name_of (id_name id) (id_type id)) <= mn -> make_full_name mn' id = make_full_name mn id.
Proof.
  intros L. rewrite !make_full_name_spec. destruct (Nat.leb_spec (length (full_name_of (id_name id) (id_type id))) mn); [|lia].
  destruct (Nat.leb_spec (length (full_name_of (id_name id) (id_type id))) mn'); [reflexivity|lia].
Qed.
Lemma carries_selects fs id : length (full_name_of (id_name id) (id_type id)) <= mn -> carries (cli_selects mt mn fs id) (cli_selects mt' mn' fs id).
Proof.
  intros L. unfold cli_selects. rewrite (same_full_name id L). apply carries_bind; [apply carries_refl|]. intros name _. apply carries_bind; [apply carries_cli_loop|].
  intros [r|] _; [|apply carries_refl]. destruct (included r); [|apply carries_refl]. destruct (negb _); [apply carries_refl|].
  apply carries_bind; [apply carries_hidden|]. intros; apply carries_refl.
Qed.
Lemma carries_default id : carries (default_selects mt id) (default_selects mt' id).
Proof. unfold default_selects. apply carries_bind; [apply carries_hidden|]. intros; apply carries_refl. Qed.

End Names.

(** Lists of tags *)
Variables mu mu' : nat.
Hypothesis MU : mu <= mu'.
Lemma store_tags_spec l : forall tags tags', length tags <= mu -> store_tags mu tags l = Ok tags' -> length tags' <= mu /\ store_tags mu' tags l = Ok tags'.
Proof.
  induction l as [|t l IH]; intros tags tags' L; cbn [store_tags]; [intros [= <-]; auto|].
  destruct t as [s local| | |]; [|apply IH; exact L..]. destruct (stored_find tags s) as [found|]; cbn [bind]; [|discriminate].
  destruct found; [now apply IH|]. destruct (Nat.eqb_spec (length tags) mu); [discriminate|]. destruct (Nat.eqb_spec (length tags) mu'); [lia|].
  apply IH. rewrite app_length. cbn. lia.
Qed.
Lemma store_all_spec tests : forall tags tags', length tags <= mu -> store_all_tags mt mu tags tests = Ok tags' -> store_all_tags mt' mu' tags tests = Ok tags'.
Proof.
  induction tests as [|t tests IH]; intros tags tags' L; cbn [store_all_tags]; [auto|].
  destruct (for_each_tag mt (id_tags t)) as [l|] eqn:E; cbn [bind]; [|discriminate]. rewrite (carries_tags _ _ E). cbn [bind].
  destruct (store_tags mu tags l) as [tags1|] eqn:S; cbn [bind]; [|discriminate]. destruct (store_tags_spec _ _ _ L S) as (L1 & ->). cbn [bind]. now apply IH.
Qed.
Lemma carries_list_tags mm tests : carries (list_all_tags mm mt mu tests) (list_all_tags mm mt' mu' tests).
Proof.
  unfold list_all_tags. apply carries_bind; [|intros; apply carries_refl]. intros x. apply store_all_spec. cbn. lia.
Qed.
End Filters.

(** ** Tests *)
Section SameButTags.
(** Two configurations that differ in the maximum length of tags only. *)
Variables (v : verbosity) (a b c d e e' : nat).
Let cf := mkconfig v a b c d e.
Let cf' := mkconfig v a b c d e'.
Variable id : test_id.
Lemma tag_close l n : forall st, close_sections cf' l n st = close_sections cf l n st.
Proof. induction l as [|s l IH]; intros st; [reflexivity|]. cbn [close_sections]. destruct (_ <? _); [|reflexivity]. apply IH. Qed.
Lemma tag_notify st : notify_exception_handled cf' st = notify_exception_handled cf st.
Proof. unfold notify_exception_handled. destruct (held st); [|reflexivity]. now rewrite tag_close. Qed.
Lemma tag_conclude pass w abort x st : conclude cf' id pass w abort x st = conclude cf id pass w abort x st.
Proof.
  unfold conclude. destruct w as [what outcome|type accepts|type accepts matches describe|source]; destruct x as [ex|]; try reflexivity.
  - destruct (accepts ex).
    + apply bind_ext. intros y. now rewrite tag_notify.
    + destruct ex; (apply bind_ext; intros y; now rewrite tag_notify).
  - destruct (accepts ex); [destruct (matches ex)|].
    + apply bind_ext. intros y. now rewrite tag_notify.
    + apply bind_ext. intros y. now rewrite tag_notify.
    + destruct ex; (apply bind_ext; intros y; now rewrite tag_notify).
  - destruct ex; (apply bind_ext; intros y; now rewrite tag_notify).
Qed.
Lemma tag_captures l : forall st, add_captures cf' l st = add_captures cf l st.
Proof.
  induction l as [|x l IH]; intros st; [reflexivity|]. cbn [add_captures]. unfold add_capture. rewrite tag_notify. cbn [cf_max_captures cf_max_capture_length cf cf'].
  apply bind_ext. exact IH.
Qed.
Lemma tag_exec pass p : forall st, exec cf' id pass p st = exec cf id pass p st.
Proof.
  induction p as [|n p IH|w x p IH|line w abort q IHq p IH|line m abort p IH|s q IHq p IH|texts q IHq p IH|accepts notify q IHq p IH]; intros st; cbn [exec].
  - reflexivity.
  - exact (IH _).
  - destruct (w pass); [reflexivity|apply IH].
  - unfold check_begin. rewrite tag_notify. apply bind_ext. intros st1. rewrite IHq. apply bind_ext. intros [st2 x]. rewrite tag_conclude.
    apply bind_ext. intros [st3 y]. apply bind_ext. intros st4. destruct y; [reflexivity|apply IH].
  - unfold check_begin. rewrite tag_notify. apply bind_ext. intros st1. apply bind_ext. intros st2. apply bind_ext. intros st3. destruct abort; [reflexivity|apply IH].
  - unfold section_enter. rewrite tag_notify. apply bind_ext. intros [st1 entered]. destruct entered.
    + rewrite IHq. apply bind_ext. intros [st2 x]. apply bind_ext. intros st3. destruct x; [reflexivity|apply IH].
    + apply bind_ext. intros st3. apply IH.
  - rewrite tag_captures. apply bind_ext. intros st1. rewrite IHq. apply bind_ext. intros [st2 x]. apply bind_ext. intros st3. destruct x; [reflexivity|apply IH].
  - rewrite IHq. apply bind_ext. intros [st1 x]. destruct x as [ex|]; [|apply IH]. destruct (accepts ex); [|reflexivity]. rewrite tag_notify. apply IH.
Qed.
Lemma tag_passes body : forall fuel pass st, passes cf' id body fuel pass st = passes cf id body fuel pass st.
Proof.
  induction fuel as [|fuel IH]; intros pass st; [reflexivity|]. cbn [passes]. rewrite tag_exec. apply bind_ext. intros [st2 x].
  destruct x; [reflexivity|]. destruct (_ && _); [apply IH|reflexivity].
Qed.
Lemma tag_run fuel t tr0 : id = t_id t -> e <= e' -> carries (run cf fuel t tr0) (run cf' fuel t tr0).
Proof.
  intros EI LE. unfold run. rewrite <- EI. cbn [cf_max_tag_length cf cf']. apply carries_bind; [now apply carries_flags|]. intros [may should] _.
  change (Run.report cf' High) with (Run.report cf High). apply carries_bind; [apply carries_refl|]. intros st1 _. rewrite tag_passes.
  apply carries_bind; [apply carries_refl|]. intros [st2 x] _. apply carries_bind; [apply carries_refl|]. intros st3 _. rewrite tag_notify. apply carries_refl.
Qed.
End SameButTags.

Lemma carries_run cf cf' fuel t tr0 :
  cf_verbosity cf' = cf_verbosity cf -> cf_max_capture_length cf' = cf_max_capture_length cf -> cf_max_message_length cf' = cf_max_message_length cf ->
  cf_max_nested cf <= cf_max_nested cf' -> cf_max_captures cf <= cf_max_captures cf' -> cf_max_tag_length cf <= cf_max_tag_length cf' ->
  carries (run cf fuel t tr0) (run cf' fuel t tr0).
Proof.
  intros V CL ML N C T st R. destruct cf as [v a b c d e], cf' as [v' a' b' c' d' e']. cbn in V, CL, ML, N, C, T. subst v' c' d'.
  apply (tag_run v a' b' c d e e' (t_id t)); [reflexivity|exact T|].
  destruct (fail_flags e (id_tags (t_id t))) as [[may should]|] eqn:FF; [|unfold run in R; cbn [cf_max_tag_length] in R; rewrite FF in R; discriminate].
  destruct (room_run (mkconfig v a b c d e) (mkconfig v a' b' c d e) ltac:(constructor; cbn; auto) (t_id t) fuel t tr0 may should eq_refl FF) as [[E _]|[[E _]|(st1 & E & E')]]; congruence.
Qed.

(** ** Runs *)
Section Runs.
Variables lm lm' : limits.
Hypothesis LA : at_least_as_large lm lm'.
Variable fuel : nat.

Lemma carries_config v t tr0 : carries (run (config_of lm v) fuel t tr0) (run (config_of lm' v) fuel t tr0).
Proof. destruct LA. apply carries_run; cbn; auto. Qed.

Lemma carries_run_loop v p p' tests : (forall t, In t tests -> carries (p (t_id t)) (p' (t_id t))) ->
  forall s events, carries (run_loop fuel (config_of lm v) p tests s events) (run_loop fuel (config_of lm' v) p' tests s events).
Proof.
  induction tests as [|t tests IH]; intros P s events; [apply carries_refl|]. cbn [run_loop]. apply carries_bind; [apply P; now left|]. intros b _.
  assert (P' : forall t, In t tests -> carries (p (t_id t)) (p' (t_id t))) by (intros; apply P; now right).
  destruct b; [|now apply IH]. apply carries_bind; [apply carries_config|]. intros st _. now apply IH.
Qed.
Lemma carries_selected v p p' tests name fs : (forall t, In t tests -> carries (p (t_id t)) (p' (t_id t))) ->
  carries (run_selected_tests lm fuel v tests name fs p) (run_selected_tests lm' fuel v tests name fs p').
Proof. intros P. unfold run_selected_tests. apply carries_bind; [now apply carries_run_loop|]. intros; apply carries_refl. Qed.
Lemma carries_list p p' tests : (forall t, In t tests -> carries (p (t_id t)) (p' (t_id t))) -> carries (list_events tests p) (list_events tests p').
Proof.
  intros P. unfold list_events. apply carries_bind; [|intros; apply carries_refl]. induction tests as [|t tests IH]; [apply carries_refl|]. cbn [list_loop].
  apply carries_bind; [apply P; now left|]. intros b _. apply carries_bind; [apply IH; intros; apply P; now right|]. intros; apply carries_refl.
Qed.

Lemma same_cli_print : mm lm' = mm lm.
Proof. exact (same_message_length _ _ LA). Qed.
Lemma same_help a b : print_help (cli_of lm') a b = print_help (cli_of lm) a b.
Proof. unfold print_help. cbn [cli_of c_max_message c_version]. now rewrite (same_message_length _ _ LA), (same_version _ _ LA). Qed.

Definition fitting (r : registry) : Prop :=
  Forall (fun t => length (full_name_of (id_name (t_id t)) (id_type (t_id t))) <= l_max_test_name_length lm) (g_tests r).

Lemma carries_impl r args : fitting r -> carries (run_tests_impl lm fuel r args) (run_tests_impl lm' fuel r args).
Proof.
  intros F. unfold run_tests_impl. cbv zeta. rewrite same_help, same_cli_print.
  destruct (get_option args (lit "--help")); [apply carries_refl|].
  destruct (get_option args (lit "--list-tests-with-tag")) as [opt|].
  { apply carries_bind; [apply carries_refl|]. intros tag _. apply carries_bind; [|intros; apply carries_refl]. apply carries_list. intros t _.
    apply carries_bind; [apply carries_match_tags, (more_tag_length _ _ LA)|]. intros; apply carries_refl. }
  destruct (get_option args (lit "--list-tags")).
  { apply carries_bind; [|intros; apply carries_refl]. apply carries_list_tags; [apply (more_tag_length _ _ LA)|apply (more_unique_tags _ _ LA)]. }
  destruct (get_option args (lit "--list-reporters")); [apply carries_refl|].
  assert (S : forall fs t, In t (g_tests r) -> carries (cli_selects (mt lm) (mn lm) fs (t_id t)) (cli_selects (mt lm') (mn lm') fs (t_id t))).
  { intros fs t I. unfold fitting in F. rewrite Forall_forall in F. apply carries_selects; [apply (more_tag_length _ _ LA)|apply (more_name_length _ _ LA)|now apply F]. }
  destruct (get_positional_argument args (lit "test regex")).
  - apply carries_bind; [apply carries_refl|]. intros fs _. destruct (get_option args (lit "--list-tests")).
    + apply carries_bind; [apply carries_list, S|]. intros; apply carries_refl.
    + apply carries_bind; [apply carries_selected, S|]. intros [l s] _; apply carries_refl.
  - destruct (get_option args (lit "--list-tests")); [apply carries_refl|]. apply carries_bind; [|intros [l s] _; apply carries_refl].
    unfold run_default. apply carries_selected. intros t _. apply carries_default, (more_tag_length _ _ LA).
Qed.
Lemma carries_run_tests r args : fitting r -> carries (run_tests lm fuel r args) (run_tests lm' fuel r args).
Proof. intros F. unfold run_tests. apply carries_bind; [now apply carries_impl|]. intros; apply carries_refl. Qed.

(** ** Options *)
Lemma find_if_prefix {A} (f : A -> bool) l x n : find_if f l = Some n -> find_if f (l ++ x) = Some n.
Proof.
  revert n. induction l as [|y l IH]; intros n; cbn [find_if app]; [discriminate|]. destruct (f y); [auto|]. destruct (find_if f l) as [k|]; [|discriminate].
  intros [= <-]. now rewrite (IH k eq_refl).
Qed.
Lemma find_if_bound {A} (f : A -> bool) l n : find_if f l = Some n -> n < length l.
Proof.
  revert n. induction l as [|y l IH]; intros n; cbn [find_if length]; [discriminate|]. destruct (f y); [intros [= <-]; lia|]. destruct (find_if f l) as [k|]; [|discriminate].
  intros [= <-]. specialize (IH k eq_refl). lia.
Qed.
Lemma carries_open can_open path mp mp' : mp <= mp' -> carries (open_file mp can_open path) (open_file mp' can_open path).
Proof.
  intros L. unfold open_file.
  assert (B : forall m, exists ss, append (new_string (m + 1)) path = Ok (ss, length path <=? m + 1) /\
            (length path <= m + 1 -> vbuf ss = path ++ repeat zero (m + 1 - length path))).
  { intros m. destruct (append_spec (new_string (m + 1)) path (AppendProofs.wf_new (m + 1))) as (ss & E & W & C & K & Sz & B).
    assert (C0 : vcap (new_string (m + 1)) = m + 1) by (unfold new_string; cbn; now rewrite ?repeat_length). assert (S0 : vsize (new_string (m + 1)) = 0) by reflexivity.
    assert (V0 : vcontent (new_string (m + 1)) = []) by reflexivity. assert (B0 : vbuf (new_string (m + 1)) = repeat zero (m + 1)) by reflexivity.
    rewrite C0, S0, V0, B0 in *. rewrite Nat.sub_0_r in *. cbn [app] in K. exists ss. split; [exact E|]. intros LE. rewrite firstn_all2 in K by lia. rewrite K, Sz in B. rewrite B. f_equal.
    replace (0 + Nat.min (length path) (m + 1)) with (length path) by lia. replace (m + 1) with (length path + (m + 1 - length path)) at 1 by lia.
    rewrite repeat_app, skipn_app, repeat_length, skipn_all2, Nat.sub_diag by (rewrite repeat_length; lia). reflexivity. }
  destruct (B mp) as (s & E & V). destruct (B mp') as (s' & E' & V'). rewrite E, E'. cbn [bind].
  destruct (Nat.leb_spec (length path) (mp + 1)) as [LE|]; [|intros y' H'; discriminate]. destruct (Nat.leb_spec (length path) (mp' + 1)) as [LE'|]; [|lia].
  rewrite (V LE), (V' LE'). apply carries_bind; [|intros; apply carries_refl]. unfold c_string.
  destruct (find_if (aeqb Ascii.zero) (path ++ repeat zero (mp + 1 - length path))) as [n|] eqn:F; [|intros x H; discriminate].
  replace (mp' + 1 - length path) with ((mp + 1 - length path) + (mp' - mp)) by lia. rewrite repeat_app, app_assoc.
  rewrite (find_if_prefix _ _ _ _ F). apply find_if_bound in F. rewrite (firstn_app_le n (path ++ repeat zero (mp + 1 - length path))) by lia. apply carries_refl.
Qed.

Lemma same_options i p : forall n m memory o, option_loop lm' n i p m memory o = option_loop lm n i p m memory o.
Proof.
  induction n as [|n IH]; intros m memory o; [reflexivity|]. cbn [option_loop]. rewrite same_cli_print. apply bind_ext. intros option2.
  destruct (Base.find _ (lit "=")) as [[|k]|].
  - apply bind_ext. intros s. destruct (find_from o (lit "::") 2); [rewrite IH|]; reflexivity.
  - apply bind_ext. intros [[[memory1 m1] said] known]. apply bind_ext. intros w. destruct (find_from o (lit "::") 2); [rewrite IH|]; reflexivity.
  - apply bind_ext. intros s. destruct (find_from o (lit "::") 2); [rewrite IH|]; reflexivity.
Qed.
Lemma same_parse_reporter r arg : parse_reporter lm' r arg = parse_reporter lm r arg.
Proof.
  unfold parse_reporter. rewrite same_cli_print. destruct (match arg with [] => true | c :: _ => aeqb c ":"%char end); [reflexivity|].
  destruct (match Base.find arg (lit "::") with Some option_pos => (firstn option_pos arg, skipn option_pos arg) | None => (arg, []) end) as [name options].
  destruct (find_reporter 0 (g_reporters r) name) as [[i p]|]; [|reflexivity]. apply bind_ext. intros [[memory m] said].
  destruct (Base.find options (lit "::")); [now rewrite same_options|reflexivity].
Qed.
Lemma carries_configure can_open r args : carries (configure lm can_open r args) (configure lm' can_open r args).
Proof.
  unfold configure. unfold parse_colour_mode_option, parse_color_option, parse_color, colour_mode_directive, color_option_directive, color_directive. rewrite same_cli_print.
  apply carries_bind; [apply carries_refl|]. intros [[r1 o1] out1] _. apply carries_bind; [apply carries_refl|]. intros [[r2 o2] out2] _.
  apply carries_bind; [apply carries_refl|]. intros [r3 out3] _. apply carries_bind.
  { destruct (get_option args (lit "--out")); [|apply carries_refl]. apply carries_bind; [apply carries_refl|]. intros v _.
    apply carries_bind; [apply carries_open, (more_path_length _ _ LA)|]. intros; apply carries_refl. }
  intros [r4 out4] _. destruct (get_option args (lit "--reporter")); [|apply carries_refl]. apply carries_bind; [|intros; apply carries_refl].
  apply carries_bind; [apply carries_refl|]. intros v _. rewrite same_parse_reporter. apply carries_refl.
Qed.

Lemma carries_arguments path argv : 2 <= l_max_command_line_args lm -> carries (parse_arguments (cli_of lm) path argv) (parse_arguments (cli_of lm') path argv).
Proof.
  intros C2 x P. pose proof (more_args _ _ LA) as MA. set (m := l_max_command_line_args lm' + length argv).
  assert (M1 : l_max_command_line_args lm <= m) by (unfold m; lia). assert (M2 : l_max_command_line_args lm' <= m) by (unfold m; lia).
  assert (M3 : length argv <= m) by (unfold m; lia). assert (C2' : 2 <= l_max_command_line_args lm') by lia. clearbody m.
  destruct (capacity_spec (cli_of lm) path argv m C2 M1 M3) as [E1 E2]. destruct (capacity_spec (cli_of lm') path argv m C2' M2 M3) as [E1' _].
  cbn [cli_of c_max_message c_max_args c_default_color c_version] in E1, E1', E2.
  destruct (Nat.le_gt_cases (stored [] argv) (l_max_command_line_args lm)) as [L|L]; [|rewrite (E2 L) in P; discriminate].
  rewrite E1' by lia. rewrite (same_message_length _ _ LA), (same_color _ _ LA), (same_version _ _ LA). now rewrite <- E1.
Qed.
End Runs.


(** ** Programs *)
Lemma carries_main lm lm' fuel can_open r path argv x :
  at_least_as_large lm lm' -> 2 <= l_max_command_line_args lm ->
  Forall (fun t => length (full_name_of (id_name (t_id t)) (id_type (t_id t))) <= l_max_test_name_length lm) (g_tests r) ->
  main lm fuel can_open r path argv = Ok x -> main lm' fuel can_open r path argv = Ok x.
Proof.
  intros LA C2 F. revert x. change (carries (main lm fuel can_open r path argv) (main lm' fuel can_open r path argv)). unfold main.
  apply carries_bind; [now apply carries_arguments|]. intros [printed [args|]] _; [|apply carries_refl].
  apply carries_bind; [now apply carries_configure|]. intros [r1 out1] C. apply carries_bind; [|intros [[r2 out2] su] _; apply carries_refl].
  apply carries_run_tests; [exact LA|]. destruct (configure_parts lm _ _ _ _ _ C) as [E _]. unfold fitting. now rewrite E.
Qed.

(** ** Registration *)
Lemma carries_add_tests max max' mn mn' ids : max <= max' -> mn <= mn' -> forall tests, carries (add_tests max mn tests ids) (add_tests max' mn' tests ids).
Proof.
  intros M N. induction ids as [|id ids IH]; intros tests; [apply carries_refl|]. cbn [add_tests]. apply carries_bind; [|intros; apply IH].
  unfold add_test, csub. rewrite !make_full_name_spec. intros x. destruct (Nat.leb_spec (length tests) max); cbn [bind]; [|discriminate].
  destruct (Nat.leb_spec (length tests) max'); [|lia]. cbn [bind]. destruct (Nat.eqb_spec (max - length tests) 0); [discriminate|].
  destruct (Nat.eqb_spec (max' - length tests) 0); [lia|]. destruct (Nat.leb_spec (length (full_name_of (id_name id) (id_type id))) mn); [|discriminate].
  destruct (Nat.leb_spec (length (full_name_of (id_name id) (id_type id))) mn'); [auto|lia].
Qed.
Lemma carries_add_reporters lm lm' ps : at_least_as_large lm lm' -> forall reporters, carries (add_reporters lm reporters ps) (add_reporters lm' reporters ps).
Proof.
  intros LA. induction ps as [|p ps IH]; intros reporters; [apply carries_refl|]. cbn [add_reporters]. apply carries_bind; [|intros; apply IH].
  pose proof (more_reporters _ _ LA). unfold add_reporter, csub. intros x. destruct (Nat.leb_spec (length reporters) (l_max_reporters lm)); cbn [bind]; [|discriminate].
  destruct (Nat.leb_spec (length reporters) (l_max_reporters lm')); [|lia]. cbn [bind]. destruct (Nat.eqb_spec (l_max_reporters lm - length reporters) 0); [discriminate|].
  destruct (Nat.eqb_spec (l_max_reporters lm' - length reporters) 0); [lia|]. auto.
Qed.
Lemma registration max max' mn mn' ids tests lm lm' ps reporters :
  (max <= max' -> mn <= mn' -> add_tests max mn [] ids = Ok tests -> add_tests max' mn' [] ids = Ok tests) /\
  (at_least_as_large lm lm' -> add_reporters lm [] ps = Ok reporters -> add_reporters lm' [] ps = Ok reporters).
Proof. split; [intros M N; now apply carries_add_tests|intros LA; now apply carries_add_reporters]. Qed.

(** ** Lengths *)
Definition brief : limits := mklimits 2 1 3 60 5 6 3 32 3 12 false [].
Definition talkative : registry :=
  mkregistry [mktest (mkid (lit "a") [] [] []) 1 (Capture [fun _ => [lit "12345"]] (Check 1 (IsTrue (fun _ => Message []) (fun _ => false)) false Nil Nil) Nil)]
    [] Full false None None false Vacant.
Lemma longer_refuted :
  ~ (forall (lm lm' : limits) (fuel : nat) (can_open : text -> bool) (r : registry) (path : text) (argv : list text) (result : list output * nat),
     lm' = mklimits (l_max_nested lm) (l_max_captures lm) (S (l_max_capture_length lm)) (l_max_message_length lm) (l_max_tag_length lm)
       (l_max_test_name_length lm) (l_max_unique_tags lm) (l_max_command_line_args lm) (l_max_reporters lm) (l_max_path_length lm)
       (l_default_with_color lm) (l_version lm) ->
     2 <= l_max_command_line_args lm ->
     Forall (fun t => length (full_name_of (id_name (t_id t)) (id_type (t_id t))) <= l_max_test_name_length lm) (g_tests r) ->
     main lm fuel can_open r path argv = Ok result -> main lm' fuel can_open r path argv = Ok result).
Proof.
  intros H. destruct (main brief 2 (fun _ => true) talkative [] []) as [x|] eqn:E; [|vm_compute in E; discriminate].
  specialize (H brief _ 2 (fun _ => true) talkative [] [] x eq_refl).
  assert (C : main brief 2 (fun _ => true) talkative [] [] = main (mklimits 2 1 4 60 5 6 3 32 3 12 false []) 2 (fun _ => true) talkative [] []).
  { rewrite E. symmetry. apply H; [cbn; lia| |exact E]. repeat constructor. }
  clear - C. vm_compute in C. discriminate.
Qed.
