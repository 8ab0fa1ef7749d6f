(** Test bodies with destructors (C80). *)
From Verif.Spec Require Import TextSpec FilterSpec Events RunSpec VerdictSpec TreeSpec UnwindingSpec.
From Verif.Model Require Import Base Vector StringUtil Filter Run Unwinding.
From Verif.Proofs Require Import Lists LevelProofs RunProofs InvariantProofs ScopeProofs MarkProofs.

(** ** Without exception in flight, the functions of Model/Run.v *)
Lemma report_false cf id ok data st : unwinding_report false cf id ok data st = report_assertion cf id ok data st.
Proof. unfold unwinding_report, report_assertion. cbv zeta. rewrite orb_false_r. reflexivity. Qed.
Lemma report2_false cf id ok a b st : unwinding_report2 false cf id ok a b st = report_assertion2 cf id ok a b st.
Proof.
  unfold unwinding_report2, report_assertion2. destruct (is_skipped _); [reflexivity|]. destruct (append_or_truncate _ _) as [[m ?]|]; [|reflexivity].
  cbn [bind]. apply report_false.
Qed.
Lemma conclude_false cf id pass w abort x st : unwinding_conclude false cf id pass w abort x st = conclude cf id pass w abort x st.
Proof.
  unfold unwinding_conclude, conclude. destruct w; destruct x as [[]|]; rewrite ?report_false, ?report2_false; reflexivity.
Qed.
Lemma check_begin_false cf line st : unwinding_check_begin false cf line st = check_begin cf line st.
Proof. reflexivity. Qed.
Lemma section_enter_false cf s st : unwinding_section_enter false cf s st = section_enter cf s st.
Proof. reflexivity. Qed.
Lemma add_captures_false cf l : forall st, unwinding_add_captures false cf l st = add_captures cf l st.
Proof. induction l as [|c l IH]; intros st; [reflexivity|]. cbn [unwinding_add_captures add_captures]. change (unwinding_add_capture false cf c st) with (add_capture cf c st). destruct (add_capture cf c st); cbn [bind]; auto. Qed.

(** ** With an exception in flight, the same functions in a state where something else is held *)
Lemma report_true cf id ok data st :
  unwinding_report true cf id ok data st = do st' <- report_assertion cf id ok data (set_unhandled st true) ;; Ok (set_unhandled st' (unhandled st)).
Proof.
  unfold unwinding_report, report_assertion. cbn [status set_unhandled]. destruct (is_skipped _); [destruct st; reflexivity|]. cbv zeta.
  assert (R : exists z, register_assertion ok st = set_unhandled z (unhandled st) /\ register_assertion ok (set_unhandled st true) = set_unhandled z true /\ unhandled z = unhandled st).
  { exists (register_assertion ok st). unfold register_assertion. cbn [may_fail should_fail held set_unhandled set_inf set_asserts asserts inf].
    destruct ok; [|destruct (may_fail st || should_fail st)]; destruct (held st); unfold raise_state; cbn [status set_held set_inf set_asserts set_unhandled];
      try (destruct (_ <? _)); destruct st; cbn; auto. }
  destruct R as (z & -> & -> & R). cbn [held unhandled set_unhandled inf in_check]. rewrite orb_true_r. cbn [should_fail may_fail set_unhandled].
  destruct (back _) as [l|]; [|reflexivity]. cbn [bind]. unfold report. destruct ok; destruct (_ <=? _); reflexivity.
Qed.
Lemma section_enter_true cf s st r : unwinding_section_enter true cf s st = Ok r ->
  exists r', section_enter cf s (set_held st None) = Ok r' /\ snd r = snd r' /\ fst r = set_held (fst r') (held st).
Proof.
  unfold unwinding_section_enter, section_enter, notify_unless. replace (notify_exception_handled cf (set_held st None)) with (set_held st None) by reflexivity.
  change (inf (set_held st None)) with (inf st). intros H. bstep H as lv E1. cbn [bind]. bstep H as lev E2. cbn [bind]. bstep H as lv1 E3. cbn [bind].
  destruct (leaf_executed _); [injection H as <-; eexists; split; [reflexivity|destruct st; auto]|].
  destruct (_ && _); [injection H as <-; eexists; split; [reflexivity|destruct st; auto]|].
  bstep H as lv2 E4. cbn [bind inf set_inf set_held] in *. bstep H as cs E5. cbn [bind].
  unfold push_location in *. cbn [inf set_inf] in *. destruct (push_back _ (locations _) _) as [ls|]; [|discriminate]. cbn [bind] in *. injection H as <-.
  eexists. split; [reflexivity|]. split; [reflexivity|]. cbn [fst]. clear. unfold report_section_started, report.
  destruct (vlevel High <=? vlevel (cf_verbosity cf)); destruct st; cbn; destruct (cur_id lev =? prev_id lev); reflexivity.
Qed.

(** ** A preorder on states that the steps respect *)
Section Rel.
Variable cf : config.
Variable id : test_id.
Variable marks : list nat.
Variable R : state -> state -> Prop.
Hypothesis R_refl : forall st, R st st.
Hypothesis R_trans : forall a b c, R a b -> R b c -> R a c.
Hypothesis R_same : forall st st', trace st' = trace st -> asserts st' = asserts st -> status st' = status st ->
  may_fail st' = may_fail st -> should_fail st' = should_fail st -> R st st'.
Hypothesis R_act : forall st n, ~ In n marks -> R st (report cf Quiet st (User n)).
Hypothesis R_assertion : forall st ok data st', report_assertion cf id ok data st = Ok st' -> R st st'.
Hypothesis R_skipped : forall st m st', report_skipped cf id m st = Ok st' -> R st st'.
Hypothesis R_started : forall st s, R st (report_section_started cf s st).
Hypothesis R_ended : forall st s, R st (report_section_ended cf s st).
Ltac same := apply R_same; reflexivity.

Lemma rel_report u st ok data st' : unwinding_report u cf id ok data st = Ok st' -> R st st'.
Proof using R_trans R_same R_assertion.
  destruct u; [rewrite report_true|rewrite report_false; apply R_assertion]. intros H. bstep H as x E. injection H as <-. apply R_assertion in E.
  eapply R_trans; [|eapply R_trans; [exact E|]]; same.
Qed.
Lemma rel_report2 u st ok a b st' : unwinding_report2 u cf id ok a b st = Ok st' -> R st st'.
Proof using R_refl R_trans R_same R_assertion.
  unfold unwinding_report2. destruct (is_skipped _); [intros [= <-]; apply R_refl|]. intros H. bstep H as [m ?] E. eapply rel_report; eauto.
Qed.
Lemma rel_close l n : forall st, R st (close_sections cf l n st).
Proof using R_refl R_trans R_ended.
  induction l as [|s l IH]; intros st; cbn [close_sections]; [apply R_refl|]. destruct (_ <? _); [|apply R_refl]. eapply R_trans; [apply R_ended|apply IH].
Qed.
Lemma rel_notify st : R st (notify_exception_handled cf st).
Proof using R_refl R_trans R_ended R_same.
  unfold notify_exception_handled. destruct (held st); [|apply R_refl]. eapply R_trans; [apply (rel_close (rev (current_section i)))|]. same.
Qed.
Lemma rel_unless u st : R st (notify_unless u cf st).
Proof using R_refl R_trans R_ended R_same. destruct u; [apply R_refl|apply rel_notify]. Qed.
Lemma rel_push st l st' : push_location cf st l = Ok st' -> R st st'.
Proof using R_same. unfold push_location. intros H. step H. injection H as <-. same. Qed.
Lemma rel_pop st st' : pop_location st = Ok st' -> R st st'.
Proof using R_same. unfold pop_location. intros H. step H. injection H as <-. same. Qed.
Lemma rel_hold u st : R st (hold u st).
Proof using R_same. unfold hold. destruct (held st); [same|]. destruct u; same. Qed.
Lemma rel_check_begin u line st st' : unwinding_check_begin u cf line st = Ok st' -> R st st'.
Proof using R_refl R_trans R_ended R_same.
  unfold unwinding_check_begin. intros H. bstep H as x E. injection H as <-. apply rel_push in E.
  eapply R_trans; [apply (rel_unless u)|]. eapply R_trans; [exact E|]. same.
Qed.
Lemma rel_check_end u st st' : check_end u st = Ok st' -> R st st'.
Proof using R_trans R_same.
  unfold check_end. intros H. apply rel_pop in H. eapply R_trans; [|exact H]. eapply R_trans; [|apply rel_hold]. same.
Qed.
Lemma rel_section_enter u s st r : unwinding_section_enter u cf s st = Ok r -> R st (fst r).
Proof using R_refl R_trans R_ended R_same R_started.
  unfold unwinding_section_enter. intros H. eapply R_trans; [apply (rel_unless u)|]. revert H.
  generalize (notify_unless u cf st) as x. intros x H.
  do 3 step H. destruct (leaf_executed _); [injection H as <-; same|].
  destruct (_ && _); [injection H as <-; same|]. do 3 step H. injection H as <-. cbn [fst].
  match goal with E : push_location _ _ _ = Ok ?y |- _ => apply rel_push in E end.
  eapply R_trans; [|eapply R_trans; [eassumption|]]; [same|].
  destruct (_ =? _); [|apply R_refl]. apply R_started.
Qed.
Lemma rel_section_exit e u st st' : section_exit cf e u st = Ok st' -> R st st'.
Proof using R_refl R_trans R_ended R_same.
  unfold section_exit. intros H. bstep H as st1 E. bstep H as d D. injection H as <-.
  apply (R_trans _ st1); [|same]. clear - E R_refl R_trans R_ended R_same.
  destruct e; [|injection E as <-; apply R_refl].
  bstep E as st2 P. apply rel_pop in P. bstep E as [i2 last] Q. bstep E as st3 E3. bstep E as cs C. injection E as <-.
  eapply R_trans; [apply (rel_hold u)|]. eapply R_trans; [exact P|].
  apply (R_trans _ st3); [|same]. destruct (last && negb u); [|injection E3 as <-; same].
  bstep E3 as sc B. injection E3 as <-. eapply R_trans; [|apply R_ended]. same.
Qed.
Lemma rel_add_captures u l : forall st st', unwinding_add_captures u cf l st = Ok st' -> R st st'.
Proof using R_refl R_trans R_ended R_same.
  induction l as [|c l IH]; intros st st' H; cbn [unwinding_add_captures] in H; [injection H as <-; apply R_refl|].
  bstep H as x E. apply IH in H. unfold unwinding_add_capture in E. destruct (_ =? _); [discriminate|].
  bstep E as [c' ?] C. injection E as <-. eapply R_trans; [apply (rel_unless u)|]. eapply R_trans; [|exact H]. same.
Qed.
Lemma rel_capture_end u n st st' : capture_end u n st = Ok st' -> R st st'.
Proof using R_trans R_same. unfold capture_end. intros H. bstep H as n' E. injection H as <-. eapply R_trans; [apply (rel_hold u)|]. same. Qed.
Lemma rel_conclude u pass w abort x st r : unwinding_conclude u cf id pass w abort x st = Ok r -> R st (fst r).
Proof using R_refl R_trans R_ended R_same R_assertion.
  intros H. unfold unwinding_conclude in H.
  destruct w as [what outcome|type accepts|type accepts matches describe|source]; destruct x as [e|];
    repeat match type of H with
    | Ok _ = Ok _ => injection H as <-; cbn [fst]
    | (if ?c then _ else _) = Ok _ => destruct c
    | bind (match ?e with AbortExn => _ | StdExn _ => _ | OtherExn => _ end) _ = _ => destruct e
    | bind _ _ = Ok _ => step H
    end;
    repeat match goal with
    | E : unwinding_report _ _ _ _ _ _ = Ok _ |- _ => apply rel_report in E
    | E : unwinding_report2 _ _ _ _ _ _ _ = Ok _ |- _ => apply rel_report2 in E
    end; auto; (eapply R_trans; [eassumption|apply rel_notify]).
Qed.

Lemma rel_exec pass p : without marks p -> forall u st r, unwinding_exec u cf id pass p st = Ok r -> R st (fst r).
Proof using R_refl R_trans R_ended R_same R_assertion R_act R_skipped R_started.
  induction p as [|n k IHp|when y k IHp|line w abort e IHe k IHp|line message abort k IHp|sec b IHp1 k IHp2|texts b IHp1 k IHp2|accepts notify b IHp1 k IHp2|d IHd b IHb k IHk];
    cbn [without]; intros U u st r H; cbn [unwinding_exec] in H.
  - injection H as <-. apply R_refl.
  - destruct U as [U1 U2]. apply IHp in H; auto. eapply R_trans; [|exact H]. now apply R_act.
  - destruct (when pass); [injection H as <-; apply R_refl|eauto].
  - destruct U as [U1 U2]. bstep H as st1 E1. apply rel_check_begin in E1. bstep H as [st2 x] E2. apply IHe in E2; auto. cbn [fst] in *.
    bstep H as [st3 z] E3. apply rel_conclude in E3. cbn [fst] in *. bstep H as st4 E4. apply rel_check_end in E4.
    assert (G : R st st4) by eauto. destruct z; [injection H as <-; exact G|]. apply IHp in H; eauto.
  - bstep H as st1 E1. apply rel_check_begin in E1. bstep H as st2 E2. apply R_skipped in E2. bstep H as st3 E3. apply rel_check_end in E3.
    assert (G : R st st3) by eauto. destruct abort; [injection H as <-; exact G|]. apply IHp in H; eauto.
  - destruct U as [U1 U2]. bstep H as [st1 entered] E1. apply rel_section_enter in E1. cbn [fst] in E1. destruct entered.
    + bstep H as [st2 x] E2. apply IHp1 in E2; auto. cbn [fst] in *. bstep H as st3 E3. apply rel_section_exit in E3.
      assert (G : R st st3) by eauto. destruct x; [injection H as <-; exact G|]. apply IHp2 in H; eauto.
    + bstep H as st3 E3. apply rel_section_exit in E3. assert (G : R st st3) by eauto. apply IHp2 in H; eauto.
  - destruct U as [U1 U2]. bstep H as st1 E1. apply rel_add_captures in E1. bstep H as [st2 x] E2. apply IHp1 in E2; auto. cbn [fst] in *.
    bstep H as st3 E3. apply rel_capture_end in E3. assert (G : R st st3) by eauto. destruct x; [injection H as <-; exact G|]. apply IHp2 in H; eauto.
  - destruct U as [U1 U2]. bstep H as [st1 x] E1. apply IHp1 in E1; auto. cbn [fst] in *. destruct x as [e|]; [|apply IHp2 in H; eauto].
    destruct (accepts e); [|injection H as <-; exact E1]. apply IHp2 in H; auto. eapply R_trans; [exact E1|]. eapply R_trans; [|exact H].
    destruct notify; [apply rel_notify|apply R_refl].
  - destruct U as (U1 & U2 & U3). bstep H as [st1 x] E1. apply IHb in E1; auto. bstep H as [st2 y] E2. apply IHd in E2; auto. cbn [fst] in *.
    destruct y; [discriminate|]. assert (G : R st st2) by eauto. destruct x; [injection H as <-; exact G|]. apply IHk in H; eauto.
Qed.
End Rel.
