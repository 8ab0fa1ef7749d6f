(** Runs and their reports (C42, C43). *)
From Verif.Spec Require Import TextSpec FilterSpec EscapeSpec Events VerdictSpec RunSpec TreeSpec SessionSpec NumberSpec XmlSpec.
From Verif.Model Require Import Base Vector StringUtil Integer Print Filter Run Session Reporters.
From Verif.Proofs Require Import Lists VectorProofs AppendProofs ScopeProofs RunFacts SessionProofs ProgramProofs EscapeProofs XmlProofs SoundProofs.
From Coq Require Import Lia.
Local Open Scope list_scope.

(** ** Sections *)
Lemma brackets_app {ID} (a b : list (Events.event ID)) : brackets (a ++ b) = brackets a ++ brackets b.
Proof. apply flat_map_app. Qed.

Lemma brackets_first {ID} (l : list (Events.event ID)) b r : brackets l = b :: r ->
  exists p e q, l = p ++ e :: q /\ brackets p = [] /\ brackets [e] = [b] /\ brackets q = r.
Proof.
  induction l as [|e l IH]; intros H; [discriminate|]. change (e :: l) with ([e] ++ l) in H. rewrite brackets_app in H.
  destruct (brackets [e]) as [|b' r'] eqn:E.
  - cbn [app] in H. destruct (IH H) as (p & e' & q & -> & E1 & E2 & E3). exists (e :: p), e', q. split; [reflexivity|]. split; auto.
    change (e :: p) with ([e] ++ p). now rewrite brackets_app, E.
  - assert (r' = []) by (destruct e; cbn in E; try discriminate; now injection E as <- <-). subst. cbn [app] in H. injection H as -> <-.
    exists [], e, l. auto.
Qed.
Lemma brackets_split {ID} a b r : forall (l : list (Events.event ID)), brackets l = a ++ b :: r ->
  exists p e q, l = p ++ e :: q /\ brackets p = a /\ brackets [e] = [b] /\ brackets q = r.
Proof.
  induction a as [|x a IH]; intros l H.
  - destruct (brackets_first l b r H) as (p & e & q & -> & E). exists p, e, q. tauto.
  - cbn [app] in H. destruct (brackets_first l x _ H) as (p & e & q & -> & E1 & E2 & E3). destruct (IH q E3) as (p' & e' & q' & -> & E4 & E5 & E6).
    exists (p ++ e :: p'), e', q'. rewrite <- app_assoc. split; [reflexivity|]. split; auto.
    change (e :: p') with ([e] ++ p'). rewrite !brackets_app, E1, E2, E4. reflexivity.
Qed.

Section Report.
Variables mm mn : nat.
Variable version : str.
Variable file : event -> str.
Variable duration : event -> option str.

Notation told := (told file duration decimal).

Lemma plain_inner (e : event) : inner e = true -> brackets [e] = [] -> plain_event e.
Proof. destruct e; cbn; intros; auto; discriminate. Qed.

Lemma told_app (p : list event) n l m : Forall plain_event p -> told l m -> n = flat_map (plain_nodes file decimal) p -> told (p ++ l) (n ++ m).
Proof.
  intros F T ->. induction F as [|e p P F IH]; auto. cbn [app flat_map]. rewrite <- app_assoc. now apply told_plain.
Qed.
Lemma brackets_none {ID} (l : list (Events.event ID)) : brackets l = [] -> forall e, In e l -> brackets [e] = [].
Proof.
  intros H e I. apply in_split in I as (a & b & ->). change (e :: b) with ([e] ++ b) in H. rewrite !brackets_app in H.
  apply app_eq_nil in H as [_ H]. now apply app_eq_nil in H as [H _].
Qed.
Lemma plain_all (p : list event) : Forall (fun e => inner e = true) p -> brackets p = [] -> Forall plain_event p.
Proof.
  intros F B. rewrite Forall_forall in *. intros e I. apply plain_inner; auto. eapply brackets_none; eauto.
Qed.

Lemma nested_told bl : nested bl -> forall l : list event, brackets l = bl -> Forall (fun e => inner e = true) l -> Forall sound_event l ->
  exists n, told l n.
Proof.
  induction 1 as [|s a b _ IHa _ IHb]; intros l B I S.
  - exists (flat_map (plain_nodes file decimal) l ++ []). rewrite <- (app_nil_r l) at 1. apply told_app; auto using plain_all. apply told_nil.
  - destruct (brackets_first l _ _ B) as (p & e & q & -> & E1 & E2 & E3). destruct (brackets_split a (End s) b q E3) as (p' & e' & q' & -> & E4 & E5 & E6).
    apply Forall_app in I as [I1 I2]. inversion I2 as [|x y _ I3]; subst x y. apply Forall_app in I3 as [I3 I4]. inversion I4 as [|x y _ I5]; subst x y.
    apply Forall_app in S as [_ S]. inversion S as [|x y _ S3]; subst x y. apply Forall_app in S3 as [S3 S4]. inversion S4 as [|x y S5 S6]; subst x y.
    destruct (IHa p' E4 I3 S3) as (na & Ta). destruct (IHb q' E6 I5 S6) as (nb & Tb).
    destruct e; try discriminate E2. injection E2 as ->. destruct e'; try discriminate E5. injection E5 as ->. cbn in S5. unfold sound in S5.
    eexists. apply told_app; [now apply plain_all| |reflexivity].
    apply told_section with (successes := n_all c - n_failed c - n_allowed c); eauto. lia.
Qed.

(** ** Test cases *)
Definition tidy (lm : Session.limits) (fuel : nat) (t : test_case) : Prop :=
  (exists tags may should, id_tags (t_id t) = tag_string tags /\ well_formed (l_max_tag_length lm) tags /\ tagged tags may should) /\
  (plain (t_body t) \/ regular (t_body t) /\ narrow (t_body t)) /\
  nesting (t_body t) <= l_max_nested lm /\ scopes (t_body t) <= S (l_max_nested lm) /\ capturing (t_body t) <= l_max_captures lm /\ Nat.max 1 (leaves (t_body t)) <= fuel.

Lemma tidy_nested lm fuel t st body c s : tidy lm fuel t -> run (config_of lm Full) fuel t [] = Ok st ->
  trace st = [TestCaseStarted (t_id t) (t_line t)] ++ body ++ [TestCaseEnded (t_id t) (t_line t) c s] -> nested (brackets body).
Proof.
  intros ((tags & may & should & T1 & T2 & T3) & P & N & SC & C & L) R E.
  assert (H : exists st' body' c' s', run (config_of lm Full) fuel t [] = Ok st' /\
     trace st' = [] ++ [TestCaseStarted (t_id t) (t_line t)] ++ body' ++ [TestCaseEnded (t_id t) (t_line t) c' s'] /\ nested (brackets body')).
  { destruct t as [id line p]. cbn [t_id t_line t_body] in *. destruct P as [P|[P W]].
    - destruct (brackets_of_plain (config_of lm Full) fuel id line p [] tags may should eq_refl T1 T2 T3 P N SC C L) as (st' & body' & c' & s' & X1 & X2 & _ & X3).
      exists st', body', c', s'. auto.
    - destruct (abort_case (config_of lm Full) fuel id line p [] tags may should eq_refl T1 T2 T3 P N SC C L) as (st' & body' & c' & s' & X1 & X2 & _ & X3).
      exists st', body', c', s'. auto. }
  destruct H as (st' & body' & c' & s' & R' & E' & K). rewrite R in R'. injection R' as <-. rewrite E in E'. cbn [app] in E'. injection E' as E'.
  apply app_inj_tail in E' as [-> _]. exact K.
Qed.

Lemma brackets_visible v (l : list event) : vlevel High <= vlevel v -> brackets (filter (Events.visible v) l) = brackets l.
Proof.
  intros H. induction l as [|e l IH]; auto. cbn [filter]. change (e :: l) with ([e] ++ l). rewrite brackets_app, <- IH.
  destruct (Events.visible v e) eqn:V; [change (e :: ?x) with ([e] ++ x); now rewrite brackets_app|].
  assert (brackets [e] = []) as ->; auto. destruct e; auto; unfold Events.visible in V; apply Nat.leb_gt in V; cbn [min_verbosity vlevel] in V, H; lia.
Qed.

Lemma Forall_filter {A} (P : A -> Prop) f l : Forall P l -> Forall P (filter f l).
Proof. rewrite !Forall_forall. intros H x I. apply filter_In in I as [I _]. auto. Qed.

Lemma cases_told lm fuel v tests parts : vlevel High <= vlevel v -> Forall2 (case_part lm fuel) tests parts -> Forall (tidy lm fuel) tests ->
  exists n, told_cases full id_tags file duration decimal (filter (Events.visible v) (List.concat parts)) n.
Proof.
  intros V. induction 1 as [|t part tests parts P _ IH]; intros F; [exists []; apply told_no_case|].
  inversion F as [|x y T F']; subst x y. destruct (IH F') as (nb & Tb). destruct P as (st & body & c & s & R & E & -> & I).
  pose proof (good_run _ _ _ _ _ (Forall_nil _) R) as (_ & _ & _ & S). rewrite E in S. inversion S as [|x y _ S1]; subst x y. apply Forall_app in S1 as [S1 _].
  pose proof (tidy_nested lm fuel t st body c s T R E) as N.
  destruct (nested_told (brackets (filter (Events.visible v) body))) with (l := filter (Events.visible v) body) as (na & Ta); auto using Forall_filter.
  { now rewrite brackets_visible. }
  cbn [List.concat]. rewrite !filter_app. assert (Vs : forall e : event, min_verbosity e = High -> filter (Events.visible v) [e] = [e]).
  { intros e M. cbn [filter]. unfold Events.visible. rewrite M. apply Nat.leb_le in V. now rewrite V. }
  rewrite (Vs (TestCaseStarted _ _) eq_refl), (Vs (TestCaseEnded _ _ _ _) eq_refl). rewrite <- !app_assoc. cbn [app]. eexists. apply told_case; eauto.
Qed.

(** ** Counters of a run *)
Lemma in_state_sum {ID} (l : list (ID * counts * case_state)) :
  in_state Success l + in_state Failed l + in_state AllowedFail l + in_state Skipped l = length l.
Proof.
  unfold in_state. induction l as [|[x s] l IH]; auto. cbn [filter snd]. destruct s; cbn; lia.
Qed.
Lemma ended_sound (l : list event) : Forall sound_event l -> Forall (fun x => sound (snd (fst x))) (ended l).
Proof.
  induction 1 as [|e l S _ IH]; [apply Forall_nil|]. change (e :: l) with ([e] ++ l). unfold ended. rewrite flat_map_app. apply Forall_app. split; auto.
  destruct e; cbn; try apply Forall_nil. apply Forall_cons; auto.
Qed.
Lemma total_sound {ID} (l : list (ID * counts * case_state)) : Forall (fun x => sound (snd (fst x))) l ->
  sound (mkcounts (total n_all l) (total n_failed l) (total n_allowed l)).
Proof.
  unfold sound, total. cbn. induction 1 as [|x l S _ IH]; cbn [map list_sum fold_right]; [lia|]. unfold sound in S. unfold list_sum in *. cbn in *. lia.
Qed.

Lemma cases_sound lm fuel tests parts : Forall2 (case_part lm fuel) tests parts -> Forall sound_event (List.concat parts).
Proof.
  induction 1 as [|t part tests parts P _ IH]; [apply Forall_nil|]. cbn [List.concat]. apply Forall_app. split; auto.
  destruct P as (st & body & c & s & R & E & -> & I). pose proof (good_run _ _ _ _ _ (Forall_nil _) R) as (_ & _ & _ & S). now rewrite E in S.
Qed.
Lemma summary_sound name filters (l : list (test_id * counts * case_state)) : Forall (fun x => sound (snd (fst x))) l ->
  sound_event (summary_of name filters l).
Proof.
  intros F. split; [now apply total_sound|]. pose proof (in_state_sum l). lia.
Qed.

Theorem run_sound lm fuel v tests name filters predicate events success :
  run_selected_tests lm fuel v tests name filters predicate = Ok (events, success) -> Forall sound_event events.
Proof.
  rewrite run_selected_verbosity. destruct (run_selected_tests lm fuel Full tests name filters predicate) as [[ev b]|] eqn:R; [|discriminate].
  intros [= <- <-]. apply Forall_filter. destruct (summary_kept _ _ _ _ _ _ _ _ R) as (keep & parts & _ & F & -> & _).
  pose proof (cases_sound _ _ _ _ F) as S. cbn [app]. apply Forall_cons; [exact I|]. apply Forall_app. split; auto.
  apply Forall_cons; [|apply Forall_nil]. now apply summary_sound, ended_sound.
Qed.

Theorem run_told lm fuel v tests name filters predicate events success :
  vlevel High <= vlevel v -> Forall (tidy lm fuel) tests ->
  run_selected_tests lm fuel v tests name filters predicate = Ok (events, success) ->
  exists root, told_run full id_tags file duration decimal version events root.
Proof.
  intros V T. rewrite run_selected_verbosity. destruct (run_selected_tests lm fuel Full tests name filters predicate) as [[ev b]|] eqn:R; [|discriminate].
  intros [= <- <-]. destruct (summary_kept _ _ _ _ _ _ _ _ R) as (keep & parts & _ & F & -> & _). rewrite !filter_app.
  destruct (cases_told lm fuel v _ _ V F) as (n & Tn); [now apply Forall_filter|].
  assert (Vs : forall e : event, min_verbosity e = Normal -> filter (Events.visible v) [e] = [e]).
  { intros e M. cbn [filter]. unfold Events.visible. rewrite M. cbn [vlevel] in *. assert (1 <=? vlevel v = true) as -> by (apply Nat.leb_le; lia). reflexivity. }
  rewrite (Vs (TestRunStarted _ _) eq_refl), (Vs (summary_of _ _ _) eq_refl). cbn [app].
  pose proof (summary_sound name filters _ (ended_sound _ (cases_sound _ _ _ _ F))) as [S1 S2]. unfold sound in S1. unfold summary_of in *. eexists.
  eapply (told_run_intro _ _ _ _ _ _ _ _ _ _ _ _ _ _ _ _ _ _
    (total n_all (ended (List.concat parts)) - total n_failed (ended (List.concat parts)) - total n_allowed (ended (List.concat parts)))
    (length (ended (List.concat parts)) - in_state Failed (ended (List.concat parts)) - in_state AllowedFail (ended (List.concat parts)))); [exact Tn| |].
  - cbn [n_all n_failed n_allowed] in *. lia.
  - lia.
Qed.

(** ** The XML reporter never fails on the events of a run *)
Definition works (a : xml) (k k' : nat) : Prop := exists out, a k = Ok (k', out).
Lemma works_emits a k k' t : emits a k k' t -> works a k k'.
Proof. intros (out & E & _). now exists out. Qed.
Lemma works_then a b k k1 k2 : works a k k1 -> works b k1 k2 -> works (andthen a b) k k2.
Proof. intros (o1 & E1) (o2 & E2). exists (o1 ++ o2). unfold andthen. rewrite E1. cbn [bind]. now rewrite E2. Qed.
Lemma works_with t f k k' : (exists s, t = Ok s) -> (forall s, works (f s) k k') -> works (with_text t f) k k'.
Proof. intros (s & ->) H. destruct (H s) as (out & E). exists out. exact E. Qed.
Lemma works_number n f k k' : (forall s, works (f s) k k') -> works (number n f) k k'.
Proof.
  intros H. apply works_with; auto. unfold xml_make_string. destruct (new_truncated 32 (decimal n)) as (ss & b & E & _). rewrite E. cbn [bind]. eauto.
Qed.
Lemma works_minus2 a b c f k k' : b + c <= a -> (forall s, works (f s) k k') -> works (minus2 a b c f) k k'.
Proof.
  intros L H. unfold works, minus2, csub. destruct (Nat.leb_spec b a); [|lia]. cbn [bind]. destruct (Nat.leb_spec c (a - b)); [|lia]. cbn [bind].
  now apply (works_number (a - b - c)).
Qed.
Lemma works_duration e f k k' : (forall d, works (f d) k k') -> works (duration_attribute duration e f) k k'.
Proof.
  intros H. unfold duration_attribute. destruct (duration e); auto. apply works_with; auto. unfold xml_make_string.
  destruct (new_truncated 32 s) as (ss & b & E & _). rewrite E. cbn [bind]. eauto.
Qed.
Lemma escape_ok ss : wf ss -> exists ss' b, xml_escape ss = Ok (ss', b).
Proof.
  intros W. destruct (chain_result _ ss xml_staged xml_long xml_distinct W) as (ss' & b & t & E & _). rewrite xml_escape_chain. eauto.
Qed.
Lemma escaped_ok s : exists t, xml_make_escaped mm s = Ok t.
Proof. destruct (xml_made mm s) as (out & t & E & _). eauto. Qed.
Lemma full_name_ok id : exists t, xml_make_full_name mn id = Ok t.
Proof.
  unfold xml_make_full_name, full_name_buffer.
  destruct (append_all_content (match id_type id with [] => [id_name id] | _ => [id_name id; lit " <"; id_type id; lit ">"] end) (new_string mn) (wf_new mn)) as (b & E & W & _).
  rewrite E. cbn [bind]. destruct (escape_ok b W) as (b' & ok & ->). cbn [bind]. eauto.
Qed.
Lemma filter_loop_ok l : forall first ss, wf ss -> exists ss', xml_filter_loop first l ss = Ok ss' /\ wf ss'.
Proof.
  induction l as [|f l IH]; intros first ss W; cbn [xml_filter_loop]; eauto.
  destruct (append_or_truncate_spec ss [if first then dquote else lit " " ++ dquote; f; dquote] W) as (ss1 & E & W1 & _). rewrite E. cbn [bind]. auto.
Qed.
Lemma filters_ok l : exists t, xml_make_filters mm l = Ok t.
Proof.
  unfold xml_make_filters. destruct (filter_loop_ok l true (new_string mm) (wf_new mm)) as (ss & E & W). rewrite E. cbn [bind].
  destruct (escape_ok ss W) as (b' & ok & ->). cbn [bind]. eauto.
Qed.
Lemma works_open name args k : works (xml_open mm name args) k (S k).
Proof. eapply works_emits, emits_open. Qed.
Lemma works_node name args k : works (xml_node mm name args) k k.
Proof. eapply works_emits, emits_node. Qed.
Lemma works_close name k : works (xml_close mm name) (S k) k.
Proof. eapply works_emits, emits_close. Qed.
Lemma works_print s k : works (xml_print mm s) k k.
Proof. eapply works_emits, emits_print. Qed.
Lemma works_open_close name s k : works (xml_open_close mm name s) k k.
Proof.
  unfold xml_open_close. destruct s; [apply works_node|]. eapply works_emits. exact (emits_texts mm [get_indent k; lit "<"; name; lit ">"; a :: s; lit "</"; name; lit ">" ++ line_feed] k).
Qed.
Lemma works_captures l k : works (xml_captures mm l) k k.
Proof.
  induction l as [|c l IH]; [now exists []|]. cbn [xml_captures]. eapply works_then; [apply works_open|].
  eapply works_then; [apply works_with; [apply escaped_ok|intros; apply works_print]|]. eapply works_then; [apply works_close|exact IH].
Qed.

Ltac working := repeat (cbn beta; match goal with
  | |- works (andthen _ _) _ _ => eapply works_then
  | |- works (with_text (xml_make_escaped _ _) _) _ _ => apply works_with; [apply escaped_ok|intros ?]
  | |- works (with_text (xml_make_full_name _ _) _) _ _ => apply works_with; [apply full_name_ok|intros ?]
  | |- works (with_text (xml_make_filters _ _) _) _ _ => apply works_with; [apply filters_ok|intros ?]
  | |- works (with_text (xml_make_string (decimal _)) _) _ _ => apply works_number; intros ?
  | |- works (number _ _) _ _ => apply works_number; intros ?
  | |- works (minus2 _ _ _ _) _ _ => apply works_minus2; [|intros ?]
  | |- works (duration_attribute _ _ _) _ _ => apply works_duration; intros ?
  | |- works (xml_open _ _ _) _ _ => apply works_open
  | |- works (xml_node _ _ _) _ _ => apply works_node
  | |- works (xml_close _ _) _ _ => apply works_close
  | |- works (xml_print _ _) _ _ => apply works_print
  | |- works (xml_open_close _ _ _) _ _ => apply works_open_close
  | |- works (xml_captures _ _) _ _ => apply works_captures
  end).

(** The level: what is started is open until it ends. *)
Definition level_after (e : event) (level : nat) : nat :=
  match e with
  | TestRunStarted _ _ | ListTestRunStarted | TestCaseStarted _ _ | SectionStarted _ => S level
  | TestRunEnded _ _ _ _ _ _ _ _ | ListTestRunEnded | TestCaseEnded _ _ _ _ | SectionEnded _ _ _ => level - 1
  | _ => level
  end.
Lemma works_assertion e captures l what success k : works (xml_report_assertion mm file e captures l what success) k k.
Proof.
  unfold xml_report_assertion. destruct what as [m|type expected actual]; working.
  destruct actual; working.
Qed.
Theorem report_works e k : sound_event e ->
  works (xml_report mm mn version file duration e) (S k) (level_after e (S k)).
Proof.
  intros S. destruct e; cbn [xml_report level_after Nat.sub]; rewrite ?Nat.sub_0_r; cbn [sound_event] in S; unfold sound in S.
  all: working; try lia.
  - apply works_assertion.
  - apply works_assertion.
  - now exists [].
Qed.
Lemma starting_works name filters k : works (xml_report mm mn version file duration (TestRunStarted name filters)) k (S k).
Proof. cbn [xml_report]. working. Qed.
Lemma case_end_works id line c s k : works (xml_report mm mn version file duration (TestCaseEnded id line c s)) (S k) k.
Proof. cbn [xml_report]. working. Qed.
Lemma run_end_works name filters run failed allowed skipped c success k : n_failed c + n_allowed c <= n_all c -> failed + allowed <= run ->
  works (xml_report mm mn version file duration (TestRunEnded name filters run failed allowed skipped c success)) (S k) k.
Proof. intros. cbn [xml_report]. working; lia. Qed.
Lemma listing_works k : works (xml_report mm mn version file duration ListTestRunStarted) k (S k).
Proof. cbn [xml_report]. working. Qed.
End Report.

(** ** What the totals count *)
Definition succeeded (e : event) : bool := match e with AssertionSucceeded _ _ _ _ _ => true | _ => false end.

Lemma kinds (l : list event) : length (filter is_assertion l) = length (filter is_failure l) + length (filter succeeded l).
Proof. induction l as [|e l IH]; auto. cbn [filter]. destruct e; cbn [is_assertion is_failure succeeded length]; lia. Qed.

Lemma case_counts lm fuel t st body c s : run (config_of lm Full) fuel t [] = Ok st ->
  trace st = [TestCaseStarted (t_id t) (t_line t)] ++ body ++ [TestCaseEnded (t_id t) (t_line t) c s] ->
  n_all c = length (filter is_failure body) + length (filter succeeded body) /\ n_failed c + n_allowed c = length (filter is_failure body).
Proof.
  intros R E. assert (FF : exists may should, fail_flags (cf_max_tag_length (config_of lm Full)) (id_tags (t_id t)) = Ok (may, should)).
  { unfold run in R. destruct (fail_flags _ _) as [[may should]|]; [eauto|discriminate]. }
  destruct FF as (may & should & FF). destruct (run_shape (config_of lm Full) eq_refl fuel t [] st may should FF R) as (b & last & X).
  cbv zeta in X. destruct X as (X1 & _). rewrite E in X1. cbn [app] in X1. injection X1 as X1. rewrite app_assoc in X1.
  apply app_inj_tail in X1 as [-> X1]. injection X1 as -> ->. destruct (tally_length (b ++ last)) as [-> ->]. split; auto. apply kinds.
Qed.

Lemma cases_counts lm fuel tests parts : Forall2 (case_part lm fuel) tests parts ->
  total n_all (ended (List.concat parts)) = total n_failed (ended (List.concat parts)) + total n_allowed (ended (List.concat parts)) +
    length (filter succeeded (List.concat parts)).
Proof.
  induction 1 as [|t part tests parts P _ IH]; auto. destruct P as (st & body & c & s & R & E & -> & I).
  destruct (case_counts lm fuel t st body c s R E) as [K1 K2]. cbn [List.concat]. unfold ended in *.
  assert (N : flat_map (fun e : event => match e with TestCaseEnded id _ c s => [(id, c, s)] | _ => [] end) body = []).
  { clear - I. induction I as [|e l E _ IH]; auto. cbn. rewrite IH. destruct e; auto; discriminate. }
  rewrite !flat_map_app, !filter_app, !app_length, N. unfold total, list_sum in *. cbn [flat_map app map fst snd fold_right filter succeeded length]. lia.
Qed.

Theorem run_totals lm fuel tests name filters predicate events success :
  run_selected_tests lm fuel Full tests name filters predicate = Ok (events, success) ->
  exists name' filters' run failed allowed skipped c,
    hd_error (rev events) = Some (TestRunEnded name' filters' run failed allowed skipped c success) /\
    n_failed c + n_allowed c + length (filter succeeded events) = n_all c /\
    failed + allowed + length (filter (fun x => match snd x with Success | Skipped => true | _ => false end) (ended events)) = run.
Proof.
  intros R. destruct (summary_kept _ _ _ _ _ _ _ _ R) as (keep & parts & _ & F & -> & ->). pose proof (cases_counts _ _ _ _ F) as K.
  unfold summary_of. do 7 eexists. split; [rewrite !rev_app_distr; reflexivity|]. cbn [n_all n_failed n_allowed]. rewrite !filter_app, !app_length.
  cbn [filter succeeded length app]. split; [lia|].
  assert (EE : forall x y : event, ended [x] = [] -> ended [y] = [] -> ended (x :: List.concat parts ++ [y]) = ended (List.concat parts)).
  { intros x y E1 E2. change (x :: ?l) with ([x] ++ l). unfold ended in *. rewrite !flat_map_app, E1, E2. apply app_nil_r. }
  rewrite EE by reflexivity. clear. induction (ended (List.concat parts)) as [|[x s] l IH]; auto. unfold in_state in *. cbn [filter snd]. destruct s; cbn; lia.
Qed.

(** ** Not a document *)
Notation number_of c t := (count_occ ascii_dec t c).
Lemma encoded_none s e c : encoded xml_entities s e -> special xml_entities c -> c <> "&"%char -> number_of c e = 0.
Proof.
  intros E S N. apply count_occ_not_In. intros I. apply in_split in I as (a & b & ->). destruct (xml_no_raw s _ a c b E eq_refl S) as [-> _]. now apply N.
Qed.
Lemma name_none n c : xml_name n -> name_char c = false -> number_of c n = 0.
Proof.
  intros H N. apply count_occ_not_In. intros I. destruct n as [|x n]; [destruct H|]. destruct H as [L F]. destruct I as [->|I].
  - unfold name_char in N. rewrite L in N. discriminate.
  - rewrite forallb_forall in F. rewrite (F c I) in N. discriminate.
Qed.
Definition even (t : text) : Prop := number_of "<"%char t = number_of ">"%char t.
Lemma attributes_even l t : attributes_text l t -> even t.
Proof.
  unfold even. induction 1 as [|key value v l t K E _ IH]; auto. rewrite !count_occ_app.
  rewrite !(encoded_none _ _ _ E), !(name_none _ _ K) by (try reflexivity; try discriminate; cbn; tauto). rewrite IH. reflexivity.
Qed.
Lemma content_even l t : content_text l t -> even t.
Proof.
  induction 1 as [|c l t B _ IH|s e l t _ E _ IH|name attributes a l t N A _ IH|name attributes a content c l t N A _ IH1 _ IH2]; unfold even in *; auto.
  - destruct B as [->| ->]; exact IH.
  - rewrite !count_occ_app, !(encoded_none _ _ _ E) by (try discriminate; cbn; tauto). exact IH.
  - apply attributes_even in A. unfold even in A. rewrite !count_occ_app, !(name_none _ _ N), A, IH by reflexivity. cbn. lia.
  - apply attributes_even in A. unfold even in A. rewrite !count_occ_app, !(name_none _ _ N), A, IH1, IH2 by reflexivity. cbn. lia.
Qed.
Theorem document_even root t : document root t -> number_of "<"%char t = number_of ">"%char t.
Proof. intros (u & -> & C). rewrite !count_occ_app, (content_even _ _ C). reflexivity. Qed.
