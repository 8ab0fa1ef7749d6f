(** The level of the XML report at the end of a run, and documents for all runs with nested events (C42). *)
From Verif.Spec Require Import TextSpec FilterSpec EscapeSpec Events VerdictSpec RunSpec TreeSpec SessionSpec NumberSpec XmlSpec.
From Verif.Model Require Import Base Vector StringUtil Integer Print Filter Run Session Reporters.
From Verif.Proofs Require Import Lists VectorProofs AppendProofs ScopeProofs RunFacts SessionProofs ProgramProofs EscapeProofs XmlProofs SoundProofs ReportProofs ReportExamples.
From Coq Require Import Lia.
Local Open Scope list_scope.

(** ** Documents *)
Definition orderly (lm : Session.limits) (fuel : nat) (t : test_case) : Prop :=
  forall st, run (config_of lm Full) fuel t [] = Ok st -> nested (brackets (trace st)).

Lemma case_brackets_of id line c s (body : list event) :
  brackets (TestCaseStarted id line :: body ++ [TestCaseEnded id line c s]) = brackets body.
Proof. unfold brackets. cbn [flat_map app]. rewrite flat_map_app. cbn [flat_map app]. now rewrite app_nil_r. Qed.

Lemma orderly_told (file : event -> str) (duration : event -> option str) lm fuel v tests parts : vlevel High <= vlevel v -> Forall2 (case_part lm fuel) tests parts -> Forall (orderly lm fuel) tests ->
  exists n, told_cases full id_tags file duration decimal (filter (Events.visible v) (List.concat parts)) n.
Proof.
  intros V. induction 1 as [|t part tests parts P _ IH]; intros F; [exists []; apply told_no_case|].
  inversion F as [|x y T F']; subst x y. destruct (IH F') as (nb & Tb). destruct P as (st & body & c & s & R & E & -> & I).
  pose proof (good_run _ _ _ _ _ (Forall_nil _) R) as (_ & _ & _ & S). rewrite E in S. inversion S as [|x y _ S1]; subst x y. apply Forall_app in S1 as [S1 _].
  pose proof (T st R) as N. rewrite E in N. cbn [app] in N. rewrite case_brackets_of in N.
  destruct (nested_told file duration (brackets (filter (Events.visible v) body))) with (l := filter (Events.visible v) body) as (na & Ta); auto using ReportProofs.Forall_filter.
  { now rewrite brackets_visible. }
  cbn [List.concat]. rewrite !filter_app. assert (Vs : forall e : event, min_verbosity e = High -> filter (Events.visible v) [e] = [e]).
  { intros e M. cbn [filter]. unfold Events.visible. rewrite M. apply Nat.leb_le in V. now rewrite V. }
  rewrite (Vs (TestCaseStarted _ _) eq_refl), (Vs (TestCaseEnded _ _ _ _) eq_refl). rewrite <- !app_assoc. cbn [app]. eexists. apply told_case; eauto.
Qed.

Lemma orderly_run version file duration lm fuel v tests name filters predicate events success :
  vlevel High <= vlevel v -> Forall (orderly lm fuel) tests ->
  run_selected_tests lm fuel v tests name filters predicate = Ok (events, success) ->
  exists root, told_run full id_tags file duration decimal version events root.
Proof.
  intros V T. rewrite run_selected_verbosity. destruct (run_selected_tests lm fuel Full tests name filters predicate) as [[ev b]|] eqn:R; [|discriminate].
  intros [= <- <-]. destruct (summary_kept _ _ _ _ _ _ _ _ R) as (keep & parts & _ & F & -> & _). rewrite !filter_app.
  destruct (orderly_told file duration lm fuel v _ _ V F) as (n & Tn); [now apply ReportProofs.Forall_filter|].
  assert (Vs : forall e : event, min_verbosity e = Normal -> filter (Events.visible v) [e] = [e]).
  { intros e M. cbn [filter]. unfold Events.visible. rewrite M. cbn [vlevel] in *. assert (1 <=? vlevel v = true) as -> by (apply Nat.leb_le; lia). reflexivity. }
  rewrite (Vs (TestRunStarted _ _) eq_refl), (Vs (summary_of _ _ _) eq_refl). cbn [app].
  pose proof (summary_sound name filters _ (ended_sound _ (cases_sound _ _ _ _ F))) as [S1 S2]. unfold sound in S1. unfold summary_of in *. eexists.
  eapply (told_run_intro _ _ _ _ _ _ _ _ _ _ _ _ _ _ _ _ _ _
    (total n_all (ended (List.concat parts)) - total n_failed (ended (List.concat parts)) - total n_allowed (ended (List.concat parts)))
    (length (ended (List.concat parts)) - in_state Failed (ended (List.concat parts)) - in_state AllowedFail (ended (List.concat parts)))); [exact Tn| |].
  - cbn [n_all n_failed n_allowed] in *. lia.
  - lia.
Qed.

Theorem orderly_document :
  exists shown : nat -> text, (forall n, (N.of_nat n < 2 ^ 64)%N -> writes 10 (shown n) (N.of_nat n)) /\
  forall (lm : Session.limits) (fuel : nat) (v : verbosity) (predicate : test_id -> res bool) (tests : list test_case) (name : text)
    (filters : list text) (events : list event) (success : bool)
    (mm mn : nat) (version : text) (file : event -> text) (duration : event -> option text),
  vlevel High <= vlevel v ->
  Forall (fun t => forall st, run (config_of lm Full) fuel t [] = Ok st -> nested (brackets (trace st))) tests ->
  run_selected_tests lm fuel v tests name filters predicate = Ok (events, success) ->
  Forall (readable full id_tags id_fixture file duration mm mn) events -> harmless version ->
  exists root out,
    told_run full id_tags file duration shown version events root /\
    xml_reports mm mn version file duration events 0 = Ok (0, out) /\ document root (concat out).
Proof.
  exists decimal. split; [exact decimal_reads|]. intros lm fuel v predicate tests name filters events success mm mn version file duration V T R D H.
  destruct (orderly_run version file duration lm fuel v tests name filters predicate events success V T R) as (root & K).
  destruct (run_document mm mn version file duration events root K D H) as (out & E1 & E2). exists root, out. auto.
Qed.

(** ** The level *)
Definition moves (a : xml) (up down : nat) : Prop := forall k k' out, a k = Ok (k', out) -> k' + down = k + up.

Lemma moves_then a b u d u' d' : moves a u d -> moves b u' d' -> moves (andthen a b) (u + u') (d + d').
Proof.
  intros A B k k' out. unfold andthen. destruct (a k) as [[k1 o1]|] eqn:E1; cbn [bind]; [|discriminate].
  destruct (b k1) as [[k2 o2]|] eqn:E2; cbn [bind]; [|discriminate]. intros [= <- <-].
  specialize (A _ _ _ E1). specialize (B _ _ _ E2). lia.
Qed.
Lemma moves_level a u d u' d' : moves a u' d' -> u + d' = u' + d -> moves a u d.
Proof. intros A L k k' out E. specialize (A _ _ _ E). lia. Qed.
Lemma moves_nothing : moves nothing 0 0.
Proof. intros k k' out [= <- _]. lia. Qed.
Lemma moves_texts mm (l : nat -> list str) : moves (fun k => prints_texts mm (l k) k) 0 0.
Proof. intros k k' out. unfold prints_texts. destruct (registry_print _ _); cbn [bind]; [|discriminate]. intros [= <- _]. lia. Qed.
Lemma moves_with t f u d : (forall s, moves (f s) u d) -> moves (with_text t f) u d.
Proof. intros H k k' out. unfold with_text. destruct t; cbn [bind]; [apply H|discriminate]. Qed.
Lemma moves_minus2 a b c f u d : (forall s, moves (f s) u d) -> moves (minus2 a b c f) u d.
Proof.
  intros H k k' out. unfold minus2. destruct (csub a b); cbn [bind]; [|discriminate]. destruct (csub _ c); cbn [bind]; [|discriminate].
  now apply moves_with.
Qed.
Lemma moves_duration duration e f u d : (forall s, moves (f s) u d) -> moves (duration_attribute duration e f) u d.
Proof. intros H. unfold duration_attribute. destruct (duration e); auto. apply moves_with. auto. Qed.
Lemma moves_attributes mm l : moves (xml_attributes mm l) 0 0.
Proof.
  induction l as [|[k v] l IH]; cbn [xml_attributes]; [apply moves_nothing|].
  eapply moves_level; [apply moves_then; [exact (moves_texts mm (fun _ => _))|exact IH]|lia].
Qed.
Lemma moves_open mm name args : moves (xml_open mm name args) 1 0.
Proof.
  unfold xml_open. eapply moves_level.
  - apply moves_then; [exact (moves_texts mm (fun level => [get_indent level; lit "<"; name]))|]. apply moves_then; [apply moves_attributes|].
    apply moves_then; [exact (moves_texts mm (fun _ => [lit ">" ++ line_feed]))|]. instantiate (1 := 0). instantiate (1 := 1). intros k k' out [= <- _]. lia.
  - lia.
Qed.
Lemma moves_node mm name args : moves (xml_node mm name args) 0 0.
Proof.
  unfold xml_node. eapply moves_level.
  - apply moves_then; [exact (moves_texts mm (fun level => [get_indent level; lit "<"; name]))|]. apply moves_then; [apply moves_attributes|].
    exact (moves_texts mm (fun _ => [lit "/>" ++ line_feed])).
  - lia.
Qed.
Lemma moves_close mm name : moves (xml_close mm name) 0 1.
Proof.
  intros k k' out. unfold xml_close, csub. destruct (Nat.leb_spec 1 k); cbn [bind]; [|discriminate]. unfold prints_texts.
  destruct (registry_print _ _); cbn [bind]; [|discriminate]. intros [= <- _]. lia.
Qed.
Lemma moves_print mm s : moves (xml_print mm s) 0 0.
Proof. exact (moves_texts mm (fun level => [get_indent level; s; line_feed])). Qed.
Lemma moves_open_close mm name s : moves (xml_open_close mm name s) 0 0.
Proof.
  unfold xml_open_close. destruct s as [|c s]; [apply moves_node|].
  exact (moves_texts mm (fun level => [get_indent level; lit "<"; name; lit ">"; c :: s; lit "</"; name; lit ">" ++ line_feed])).
Qed.

Ltac moving := repeat (cbn beta; match goal with
  | |- moves (andthen _ _) _ _ => eapply moves_then
  | |- moves (with_text _ _) _ _ => apply moves_with; intros ?
  | |- moves (number _ _) _ _ => apply moves_with; intros ?
  | |- moves (minus2 _ _ _ _) _ _ => apply moves_minus2; intros ?
  | |- moves (duration_attribute _ _ _) _ _ => apply moves_duration; intros ?
  | |- moves (xml_open _ _ _) _ _ => apply moves_open
  | |- moves (xml_node _ _ _) _ _ => apply moves_node
  | |- moves (xml_close _ _) _ _ => apply moves_close
  | |- moves (xml_print _ _) _ _ => apply moves_print
  | |- moves (xml_open_close _ _ _) _ _ => apply moves_open_close
  | |- moves nothing _ _ => apply moves_nothing
  end).

Lemma moves_captures mm l : moves (xml_captures mm l) 0 0.
Proof.
  induction l as [|c l IH]; cbn [xml_captures]; [apply moves_nothing|]. eapply moves_level; [moving; exact IH|reflexivity].
Qed.
Lemma moves_assertion mm file e captures l what success : moves (xml_report_assertion mm file e captures l what success) 0 0.
Proof.
  unfold xml_report_assertion. eapply moves_level; [eapply moves_then; [apply moves_captures|]|].
  - instantiate (1 := 3). instantiate (1 := 3). destruct what as [m|type expected actual].
    + eapply moves_level; [moving|reflexivity].
    + destruct actual; (eapply moves_level; [moving|reflexivity]).
  - reflexivity.
Qed.

Definition opens (e : event) : nat :=
  match e with TestRunStarted _ _ | ListTestRunStarted | TestCaseStarted _ _ | SectionStarted _ => 1 | _ => 0 end.
Definition closes (e : event) : nat :=
  match e with TestRunEnded _ _ _ _ _ _ _ _ | ListTestRunEnded | TestCaseEnded _ _ _ _ | SectionEnded _ _ _ => 1 | _ => 0 end.

Lemma moves_report mm mn version file duration e : moves (xml_report mm mn version file duration e) (opens e) (closes e).
Proof.
  destruct e; cbn [xml_report opens closes]; try apply moves_assertion; (eapply moves_level; [moving|reflexivity]).
Qed.

Lemma moves_reports mm mn version file duration l :
  moves (xml_reports mm mn version file duration l) (list_sum (map opens l)) (list_sum (map closes l)).
Proof.
  induction l as [|e l IH]; [apply moves_nothing|]. cbn [xml_reports map list_sum fold_right]. apply moves_then; [apply moves_report|exact IH].
Qed.

Definition anything : section_id -> bool := fun _ => true.

Lemma counts_app l1 l2 : starts_in anything (l1 ++ l2) = starts_in anything l1 + starts_in anything l2 /\
  ends_in anything (l1 ++ l2) = ends_in anything l1 + ends_in anything l2.
Proof. unfold starts_in, ends_in. rewrite !filter_app, !app_length. auto. Qed.

Lemma sums_app (f : event -> nat) l1 l2 : list_sum (map f (l1 ++ l2)) = list_sum (map f l1) + list_sum (map f l2).
Proof. now rewrite map_app, list_sum_app. Qed.

Lemma inner_level (l : list event) : Forall (fun e => inner e = true) l ->
  list_sum (map opens l) = starts_in anything (brackets l) /\ list_sum (map closes l) = ends_in anything (brackets l).
Proof.
  induction 1 as [|e l I _ [IH1 IH2]]; [split; reflexivity|]. change (e :: l) with ([e] ++ l).
  rewrite !sums_app, brackets_app, (proj1 (counts_app _ _)), (proj2 (counts_app _ _)), IH1, IH2.
  destruct e; cbn in I; try discriminate; split; reflexivity.
Qed.

Lemma parts_level lm fuel v tests parts : vlevel High <= vlevel v -> Forall2 (case_part lm fuel) tests parts ->
  let l := filter (Events.visible v) (List.concat parts) in
  list_sum (map opens l) = length parts + starts_in anything (brackets l) /\
  list_sum (map closes l) = length parts + ends_in anything (brackets l).
Proof.
  intros V. cbv zeta. induction 1 as [|t part tests parts P _ [IH1 IH2]]; [split; reflexivity|].
  destruct P as (st & body & c & s & R & E & -> & I). cbn [List.concat length]. rewrite !filter_app.
  assert (Vs : forall e : event, min_verbosity e = High -> filter (Events.visible v) [e] = [e]).
  { intros e M. cbn [filter]. unfold Events.visible. rewrite M. apply Nat.leb_le in V. now rewrite V. }
  rewrite (Vs (TestCaseStarted _ _) eq_refl), (Vs (TestCaseEnded _ _ _ _) eq_refl).
  destruct (inner_level (filter (Events.visible v) body)) as [B1 B2]; [now apply ReportProofs.Forall_filter|].
  rewrite !sums_app, !brackets_app. rewrite !(proj1 (counts_app _ _)), !(proj2 (counts_app _ _)), IH1, IH2, B1, B2.
  cbn. split; lia.
Qed.

Theorem final_level lm fuel v tests name filters predicate events success mm mn version file duration level out :
  vlevel High <= vlevel v ->
  run_selected_tests lm fuel v tests name filters predicate = Ok (events, success) ->
  xml_reports mm mn version file duration events 0 = Ok (level, out) ->
  level + ends_in (fun _ => true) (brackets events) = starts_in (fun _ => true) (brackets events).
Proof.
  intros V. rewrite run_selected_verbosity. destruct (run_selected_tests lm fuel Full tests name filters predicate) as [[ev b]|] eqn:R; [|discriminate].
  intros [= <- <-]. destruct (summary_kept _ _ _ _ _ _ _ _ R) as (keep & parts & _ & F & -> & _). rewrite !filter_app.
  assert (Vs : forall e : event, min_verbosity e = Normal -> filter (Events.visible v) [e] = [e]).
  { intros e M. cbn [filter]. unfold Events.visible. rewrite M. cbn [vlevel] in *. assert (1 <=? vlevel v = true) as -> by (apply Nat.leb_le; lia). reflexivity. }
  rewrite (Vs (TestRunStarted _ _) eq_refl), (Vs (summary_of _ _ _) eq_refl).
  intros X. apply moves_reports in X. destruct (parts_level lm fuel v _ _ V F) as [P1 P2]. cbv zeta in *.
  fold anything. rewrite !sums_app, P1, P2 in X. rewrite !brackets_app, !(proj1 (counts_app _ _)), !(proj2 (counts_app _ _)).
  unfold summary_of in *. cbn in X |- *. lia.
Qed.
