(** What holds of the events, counters and state of every run of a test case, whatever its body (C19-C21). *)
From Verif.Spec Require Import TextSpec FilterSpec Events VerdictSpec.
From Verif.Model Require Import Base Vector StringUtil Filter Run.
From Verif.Proofs Require Import Lists LevelProofs RunProofs.

Lemma verdict_app {ID} (l : list (Events.event ID)) e : VerdictSpec.verdict (l ++ [e]) = worst (VerdictSpec.verdict l) (says e).
Proof. unfold VerdictSpec.verdict. now rewrite fold_left_app. Qed.

Lemma silent_app {ID} (l : list (Events.event ID)) e : silent_once_skipped l ->
  (VerdictSpec.verdict l = Skipped -> is_assertion e = false) -> silent_once_skipped (l ++ [e]).
Proof.
  intros H E a x b Q V. destruct b as [|y b] using rev_ind.
  - apply app_inj_tail in Q. destruct Q as [-> ->]. auto.
  - change (x :: b ++ [y]) with ((x :: b) ++ [y]) in Q. rewrite app_assoc in Q. apply app_inj_tail in Q. destruct Q as [-> _].
    eapply H; eauto.
Qed.

Ltac step H := match type of H with
  | bind ?m _ = Ok _ => destruct m eqn:?; [cbn [bind] in H|discriminate H]
  | (let '(_, _) := ?p in _) = _ => destruct p
  end.
Tactic Notation "bstep" hyp(H) "as" simple_intropattern(v) ident(E) :=
  match type of H with bind ?m _ = Ok _ => destruct m as [v|] eqn:E; [cbn [bind] in H|discriminate H] end.

Section Invariant.
Variable cf : config.
Hypothesis verbose : cf_verbosity cf = Full.
Variable id : test_id.
Variables may should : bool.
Variable tr0 : list event.

Definition inv (st : state) : Prop :=
  exists ev, trace st = tr0 ++ ev /\ asserts st = tally ev /\ status st = intern (VerdictSpec.verdict ev) /\
    Forall (of_body id may should) ev /\ silent_once_skipped ev /\ may_fail st = may /\ should_fail st = should.

Definition inv_same st st' : trace st' = trace st -> asserts st' = asserts st -> status st' = status st ->
  may_fail st' = may_fail st -> should_fail st' = should_fail st -> inv st -> inv st'.
Proof. intros E1 E2 E3 E4 E5 (ev & H). exists ev. now rewrite E1, E2, E3, E4, E5. Qed.

Lemma compat ev : Forall (of_body id may should) ev ->
  if may || should then VerdictSpec.verdict ev <> Failed else VerdictSpec.verdict ev <> AllowedFail.
Proof.
  induction ev as [|e ev IH] using rev_ind; intros H.
  - destruct (may || should); discriminate.
  - apply Forall_app in H. destruct H as [H1 H2]. inversion H2 as [|? ? H3 _]; subst. specialize (IH H1).
    rewrite verdict_app. unfold worst. destruct (_ <? _); auto.
    destruct e; cbn [says of_body] in *; try (destruct (may || should); discriminate).
    destruct H3 as (_ & -> & ->). rewrite (orb_comm should). destruct (may || should); discriminate.
Qed.

Lemma inv_report v st e : inv st -> of_body id may should e -> is_assertion e = false ->
  status st = intern (VerdictSpec.worst (match status st with ISkipped => Skipped | IFailed => Failed | IAllowedFail => AllowedFail | _ => Success end) (says e)) ->
  inv (report cf v st e).
Proof using verbose.
  intros (ev & E1 & E2 & E3 & E4 & E5 & E6 & E7) O A W. rewrite (report_full _ verbose).
  exists (ev ++ [e]). cbn [trace asserts status may_fail should_fail]. rewrite E1, app_assoc. split; [reflexivity|].
  split. { rewrite tally_app, E2. destruct e; try discriminate A; symmetry; apply plus_0. }
  split. { rewrite verdict_app, W, E3. destruct (VerdictSpec.verdict ev); reflexivity. }
  split. { apply Forall_app; auto. }
  split. { apply silent_app; auto. }
  auto.
Qed.

Lemma worst_success s : worst s Success = s.
Proof. now destruct s. Qed.

Lemma inv_neutral v st e : inv st -> of_body id may should e -> is_assertion e = false -> is_skip e = false -> inv (report cf v st e).
Proof using verbose.
  intros I O A K. apply inv_report; auto. replace (says e) with (@Success) by (destruct e; auto; discriminate).
  rewrite worst_success. destruct I as (ev & _ & _ & E & _). rewrite E. now destruct (VerdictSpec.verdict ev).
Qed.

Lemma inv_push st l st' : inv st -> push_location cf st l = Ok st' -> inv st'.
Proof. unfold push_location. intros I H. destruct (push_back _ _ _); [|discriminate]. injection H as <-. revert I. now apply inv_same. Qed.
Lemma inv_pop st st' : inv st -> pop_location st = Ok st' -> inv st'.
Proof. unfold pop_location. intros I H. destruct (pop_back _); [|discriminate]. injection H as <-. revert I. now apply inv_same. Qed.

Lemma inv_assertion st ok data st' : inv st -> report_assertion cf id ok data st = Ok st' -> inv st'.
Proof using verbose.
  intros I H. unfold report_assertion in H. destruct (is_skipped (status st)) eqn:SK; [now injection H as <-|].
  destruct (back _) as [l|]; [|discriminate]. cbn [bind] in H. injection H as <-.
  destruct I as (ev & E1 & E2 & E3 & E4 & E5 & E6 & E7). pose proof (compat ev E4) as CO.
  set (st1 := register_assertion ok st) in *.
  set (i := match held st1 with Some h => if unhandled st1 then h else inf st1 | None => inf st1 end).
  set (l' := if in_check st1 then mkloc (loc_line l) Exact else l).
  assert (R : trace st1 = trace st /\ asserts st1 = count (if ok then Passed else if may || should then AllowedFailure else Failure) (asserts st) /\
    may_fail st1 = may /\ should_fail st1 = should /\
    status st1 = intern (if ok then VerdictSpec.verdict ev else if may || should then AllowedFail else Failed)).
  { unfold st1, register_assertion. rewrite E6, E7.
    rewrite E3 in SK. cbn [held set_inf set_asserts].
    destruct ok; [|destruct (may || should)]; cbn [count];
      destruct (held st); unfold raise_state, set_status, set_held, set_inf, set_asserts;
      cbn [trace asserts status may_fail should_fail]; rewrite ?E3;
      destruct (VerdictSpec.verdict ev); cbn [intern irank Nat.ltb Nat.leb trace asserts status may_fail should_fail];
      rewrite ?E6, ?E7; repeat split; try congruence; discriminate. }
  destruct R as (R1 & R2 & R3 & R4 & R5).
  exists (ev ++ [if ok then AssertionSucceeded id (map sd_id (current_section i)) (captures i) l' data
                 else AssertionFailed id (map sd_id (current_section i)) (captures i) l' data should may]).
  rewrite tally_app, verdict_app. unfold i, l'.
  assert (NS : VerdictSpec.verdict ev <> Skipped) by (intros Q; rewrite E3, Q in SK; discriminate).
  assert (X : forall v e, report cf v st1 e = mkstate (inf st1) (held st1) (asserts st1) (may_fail st1) (should_fail st1) (in_check st1) (unhandled st1) (status st1) (trace st1 ++ [e]))
    by (intros; apply report_full; auto).
  rewrite R3, R4. destruct ok; rewrite X; cbn [trace asserts status may_fail should_fail];
    rewrite R1, R2, R5, E1, E2, <- app_assoc; (split; [reflexivity|]).
  - split; [apply counts_eq; simpl; lia|]. split; [cbn [says]; now rewrite worst_success|].
    split; [apply Forall_app; split; auto; constructor; cbn; auto|].
    split; [apply silent_app; auto; congruence|]. auto.
  - split. { cbn [tally fold_right tally1]. rewrite (orb_comm should). destruct (may || should); apply counts_eq; simpl; lia. }
    split. { cbn [says]. rewrite (orb_comm should). destruct (may || should); destruct (VerdictSpec.verdict ev); auto; congruence. }
    split; [apply Forall_app; split; auto; constructor; cbn; auto|].
    split; [apply silent_app; auto; congruence|]. auto.
Qed.

Lemma inv_assertion2 st ok a b st' : inv st -> report_assertion2 cf id ok a b st = Ok st' -> inv st'.
Proof using verbose. rewrite report_assertion2_eq. apply inv_assertion. Qed.

Lemma inv_skipped st m st' : inv st -> report_skipped cf id m st = Ok st' -> inv st'.
Proof using verbose.
  intros I H. unfold report_skipped in H. destruct (back _); [|discriminate]. cbn [bind] in H. injection H as <-.
  destruct I as (ev & E1 & E2 & E3 & E4 & E5 & E6 & E7).
  rewrite (report_full _ verbose). eexists (ev ++ [_]). cbn [trace asserts status may_fail should_fail].
  assert (R : trace (raise_state st ISkipped) = trace st /\ asserts (raise_state st ISkipped) = asserts st /\
     may_fail (raise_state st ISkipped) = may /\ should_fail (raise_state st ISkipped) = should /\
     status (raise_state st ISkipped) = intern (worst (VerdictSpec.verdict ev) Skipped)).
  { unfold raise_state. rewrite E3. destruct (VerdictSpec.verdict ev) eqn:V; cbn; rewrite ?E3, ?V; auto. }
  destruct R as (R1 & R2 & R3 & R4 & R5). rewrite R1, R2, R3, R4, R5, E1, E2, <- app_assoc. split; [reflexivity|].
  split. { rewrite tally_app. symmetry. apply plus_0. }
  split. { now rewrite verdict_app. }
  split; [apply Forall_app; split; auto; constructor; cbn; auto|].
  split; [apply silent_app; auto|]. auto.
Qed.

Lemma inv_ended s st : inv st -> inv (report_section_ended cf s st).
Proof using verbose. intros. apply inv_neutral; cbn; auto. Qed.
Lemma inv_close l n : forall st, inv st -> inv (close_sections cf l n st).
Proof using verbose. induction l as [|s l IH]; intros st I; cbn [close_sections]; auto. destruct (_ <? _); auto using inv_ended. Qed.
Lemma inv_notify st : inv st -> inv (notify_exception_handled cf st).
Proof using verbose.
  intros I. unfold notify_exception_handled. destruct (held st); auto.
  eapply inv_same; [..|apply (inv_close (rev (current_section i)) (length (current_section (inf st))) st I)]; reflexivity.
Qed.
Lemma inv_hold u st : inv st -> inv (hold u st).
Proof. unfold hold. destruct (held st); auto. destruct u; auto. Qed.
Lemma inv_check_begin line st st' : inv st -> check_begin cf line st = Ok st' -> inv st'.
Proof using verbose.
  unfold check_begin. intros I H. destruct (push_location _ _ _) eqn:E; [|discriminate]. cbn [bind] in H. injection H as <-.
  apply inv_push in E; [|now apply inv_notify]. exact E.
Qed.
Lemma inv_check_end u st st' : inv st -> check_end u st = Ok st' -> inv st'.
Proof. unfold check_end. intros I. apply inv_pop, inv_hold. exact I. Qed.

Lemma inv_section_enter s st r : inv st -> section_enter cf s st = Ok r -> inv (fst r).
Proof using verbose.
  unfold section_enter. intros I H. apply inv_notify in I. revert H I. generalize (notify_exception_handled cf st) as x. intros x H I.
  do 3 step H. destruct (leaf_executed _); [injection H as <-; exact I|].
  destruct (_ && _); [injection H as <-; exact I|]. do 3 step H. injection H as <-. cbn [fst].
  match goal with E : push_location _ _ _ = Ok ?y |- _ => apply inv_push in E; [|exact I] end.
  destruct (_ =? _); auto. apply inv_neutral; cbn; auto.
Qed.

Lemma inv_section_exit e u st st' : inv st -> section_exit cf e u st = Ok st' -> inv st'.
Proof using verbose.
  unfold section_exit. intros I H. bstep H as st1 E. bstep H as d D. injection H as <-.
  enough (inv st1) by assumption. clear - verbose I E. destruct e; [|now injection E as <-].
  bstep E as st2 P. apply inv_pop in P; [|now apply inv_hold].
  bstep E as [i2 last] Q. bstep E as st3 E3. bstep E as cs C. injection E as <-.
  enough (inv st3) by assumption. destruct (last && negb u); [|injection E3 as <-; assumption].
  bstep E3 as sc B. injection E3 as <-. now apply inv_ended.
Qed.

Lemma inv_add_captures l : forall st st', inv st -> add_captures cf l st = Ok st' -> inv st'.
Proof using verbose.
  induction l as [|c l IH]; intros st st' I H; cbn [add_captures] in H; [now injection H as <-|].
  bstep H as x E. apply IH in H; auto. unfold add_capture in E. destruct (_ =? _); [discriminate|].
  bstep E as [c' ?] C. injection E as <-. apply inv_notify in I. exact I.
Qed.
Lemma inv_capture_end u n st st' : inv st -> capture_end u n st = Ok st' -> inv st'.
Proof. unfold capture_end. intros I H. bstep H as n' E. injection H as <-. apply (inv_hold u) in I. exact I. Qed.

Lemma inv_conclude pass w abort x st r : inv st -> conclude cf id pass w abort x st = Ok r -> inv (fst r).
Proof using verbose.
  intros I H. unfold conclude in H.
  destruct w as [what outcome|type accepts|type accepts matches describe|source]; destruct x as [e|];
    repeat match type of H with
    | Ok _ = Ok _ => injection H as <-; cbn [fst]
    | (if ?c then _ else _) = Ok _ => destruct c
    | bind (match ?e with AbortExn => _ | StdExn _ => _ | OtherExn => _ end) _ = _ => destruct e
    | bind _ _ = Ok _ => step H
    end;
    repeat match goal with
    | E : report_assertion _ _ _ _ _ = Ok _ |- _ => apply inv_assertion in E; [|exact I]
    | E : report_assertion2 _ _ _ _ _ _ = Ok _ |- _ => apply inv_assertion2 in E; [|exact I]
    end; auto using inv_notify.
Qed.

Lemma inv_exec pass p : forall st r, inv st -> exec cf id pass p st = Ok r -> inv (fst r).
Proof using verbose.
  induction p as [|n k IHp|when y k IHp|line w abort e IHe k IHp|line message abort k IHp|sec b IHp1 k IHp2|texts b IHp1 k IHp2|accepts notify b IHp1 k IHp2];
    intros st r I H; cbn [exec] in H.
  - now injection H as <-.
  - apply IHp in H; auto. apply inv_neutral; cbn; auto.
  - destruct (when pass); [now injection H as <-|eauto].
  - bstep H as st1 E1. apply inv_check_begin in E1; auto. bstep H as [st2 x] E2. apply IHe in E2; auto. cbn [fst] in *.
    bstep H as [st3 z] E3. apply inv_conclude in E3; auto. cbn [fst] in *. bstep H as st4 E4. apply inv_check_end in E4; auto.
    destruct z; [now injection H as <-|eauto].
  - bstep H as st1 E1. apply inv_check_begin in E1; auto. bstep H as st2 E2. apply inv_skipped in E2; auto.
    bstep H as st3 E3. apply inv_check_end in E3; auto.
    destruct abort; [now injection H as <-|eauto].
  - bstep H as [st1 entered] E1. apply inv_section_enter in E1; auto. cbn [fst] in *. destruct entered.
    + bstep H as [st2 x] E2. apply IHp1 in E2; auto. cbn [fst] in *. bstep H as st3 E3. apply inv_section_exit in E3; auto.
      destruct x; [now injection H as <-|eauto].
    + bstep H as st3 E3. apply inv_section_exit in E3; auto. eauto.
  - bstep H as st1 E1. apply inv_add_captures in E1; auto. bstep H as [st2 x] E2. apply IHp1 in E2; auto. cbn [fst] in *.
    bstep H as st3 E3. apply inv_capture_end in E3; auto. destruct x; [now injection H as <-|eauto].
  - bstep H as [st1 x] E1. apply IHp1 in E1; auto. cbn [fst] in *. destruct x as [e|]; [|eauto].
    destruct (accepts e); [|now injection H as <-]. apply IHp2 in H; auto. destruct notify; auto using inv_notify.
Qed.

Lemma inv_passes p : forall fuel pass st r, inv st -> passes cf id p fuel pass st = Ok r -> inv (fst r).
Proof using verbose.
  induction fuel as [|fuel IH]; intros pass st r I H; cbn [passes] in H; [discriminate|].
  bstep H as [st2 x] E. apply inv_exec in E; auto. cbn [fst] in *. destruct x; [now injection H as <-|].
  destruct (_ && _); [|now injection H as <-]. apply IH in H; auto.
Qed.
End Invariant.

