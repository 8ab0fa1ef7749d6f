(** Only the user's code produces [User] events (C21: no further pass after a skip). *)
From Verif.Spec Require Import TextSpec FilterSpec Events RunSpec VerdictSpec TreeSpec.
From Verif.Model Require Import Base Vector StringUtil Filter Run.
From Verif.Proofs Require Import Lists RunProofs InvariantProofs ScopeProofs.

Section Marks.
Variable cf : config.
Variable id : test_id.
Variable m : nat.

Definition grows (st st' : state) : Prop := exists ev, trace st' = trace st ++ ev /\ ~ In (User m) ev.

Lemma grows_same st st' : trace st' = trace st -> grows st st'.
Proof. intros E. exists []. rewrite app_nil_r. split; auto. Qed.
Lemma grows_trans a b c : grows a b -> grows b c -> grows a c.
Proof.
  intros (x & X1 & X2) (y & Y1 & Y2). exists (x ++ y). rewrite Y1, X1, <- app_assoc. split; auto. rewrite in_app_iff. tauto.
Qed.
Lemma grows_report v st e : e <> User m -> grows st (report cf v st e).
Proof.
  intros E. unfold report. destruct (_ <=? _); [|apply grows_same; auto]. exists [e]. split; auto. intros [X|[]]; congruence.
Qed.
Lemma grows_set st x y : trace y = trace x -> grows st x -> grows st y.
Proof. intros E (ev & H). exists ev. rewrite E. exact H. Qed.

Lemma grows_push st l st' : push_location cf st l = Ok st' -> grows st st'.
Proof. unfold push_location. intros H. destruct (push_back _ _ _); [|discriminate]. injection H as <-. now apply grows_same. Qed.
Lemma grows_pop st st' : pop_location st = Ok st' -> grows st st'.
Proof. unfold pop_location. intros H. destruct (pop_back _); [|discriminate]. injection H as <-. now apply grows_same. Qed.
Lemma grows_raise st s : grows st (raise_state st s).
Proof. apply grows_same. unfold raise_state. now destruct (_ <? _). Qed.
Lemma grows_assertion st ok data st' : report_assertion cf id ok data st = Ok st' -> grows st st'.
Proof.
  unfold report_assertion. destruct (is_skipped _); [intros [= <-]; now apply grows_same|]. cbv zeta. intros H.
  bstep H as l E. injection H as <-. eapply grows_trans; [apply grows_same, (register_fields ok st)|].
  destruct ok; apply grows_report; discriminate.
Qed.
Lemma grows_assertion2 st ok a b st' : report_assertion2 cf id ok a b st = Ok st' -> grows st st'.
Proof. rewrite report_assertion2_eq. apply grows_assertion. Qed.
Lemma grows_skipped st message st' : report_skipped cf id message st = Ok st' -> grows st st'.
Proof.
  unfold report_skipped. cbv zeta. intros H. bstep H as l E. injection H as <-.
  eapply grows_trans; [apply grows_raise|]. apply grows_report. discriminate.
Qed.
Lemma grows_ended s st : grows st (report_section_ended cf s st).
Proof. apply grows_report. discriminate. Qed.
Lemma grows_close l n : forall st, grows st (close_sections cf l n st).
Proof.
  induction l as [|s l IH]; intros st; cbn [close_sections]; [now apply grows_same|].
  destruct (_ <? _); [|now apply grows_same]. eapply grows_trans; [apply grows_ended|apply IH].
Qed.
Lemma grows_notify st : grows st (notify_exception_handled cf st).
Proof. unfold notify_exception_handled. destruct (held st); [|now apply grows_same]. apply (grows_close (rev (current_section i))). Qed.
Lemma grows_hold u st : grows st (hold u st).
Proof. apply grows_same. unfold hold. destruct (held st); auto. now destruct u. Qed.
Lemma grows_check_begin line st st' : check_begin cf line st = Ok st' -> grows st st'.
Proof.
  unfold check_begin. intros H. bstep H as st2 E. injection H as <-. apply grows_push in E.
  eapply grows_trans; [apply grows_notify|exact E].
Qed.
Lemma grows_check_end u st st' : check_end u st = Ok st' -> grows st st'.
Proof.
  unfold check_end. intros H. apply grows_pop in H. eapply grows_trans; [|exact H].
  eapply grows_trans; [|apply grows_hold]. now apply grows_same.
Qed.
Lemma grows_section_enter s st r : section_enter cf s st = Ok r -> grows st (fst r).
Proof.
  unfold section_enter. intros H. eapply grows_trans; [apply grows_notify|]. revert H.
  generalize (notify_exception_handled cf st) as x. intros x H.
  do 3 step H. destruct (leaf_executed _); [injection H as <-; now apply grows_same|].
  destruct (_ && _); [injection H as <-; now apply grows_same|]. do 3 step H. injection H as <-. cbn [fst].
  match goal with E : push_location _ _ _ = Ok ?y |- _ => apply grows_push in E end.
  eapply grows_trans; [|eapply grows_trans; [eassumption|]]; [now apply grows_same|].
  destruct (_ =? _); [|now apply grows_same]. apply grows_report. discriminate.
Qed.
Lemma grows_section_exit e u st st' : section_exit cf e u st = Ok st' -> grows st st'.
Proof.
  unfold section_exit. intros H. bstep H as st1 E. bstep H as d D. injection H as <-.
  enough (grows st st1) by assumption. clear - E. destruct e; [|injection E as <-; now apply grows_same].
  bstep E as st2 P. apply grows_pop in P. bstep E as [i2 last] Q. bstep E as st3 E3. bstep E as cs C. injection E as <-.
  eapply grows_trans; [apply (grows_hold u)|]. eapply grows_trans; [exact P|].
  enough (grows st2 st3) by assumption. destruct (last && negb u); [|injection E3 as <-; now apply grows_same].
  bstep E3 as sc B. injection E3 as <-. eapply grows_trans; [|apply grows_ended]. now apply grows_same.
Qed.
Lemma grows_add_captures l : forall st st', add_captures cf l st = Ok st' -> grows st st'.
Proof.
  induction l as [|c l IH]; intros st st' H; cbn [add_captures] in H; [injection H as <-; now apply grows_same|].
  bstep H as x E. apply IH in H. unfold add_capture in E. destruct (_ =? _); [discriminate|].
  bstep E as [c' ?] C. injection E as <-. eapply grows_trans; [apply grows_notify|exact H].
Qed.
Lemma grows_capture_end u n st st' : capture_end u n st = Ok st' -> grows st st'.
Proof. unfold capture_end. intros H. bstep H as n' E. injection H as <-. apply (grows_hold u). Qed.
Lemma grows_conclude pass w abort x st r : conclude cf id pass w abort x st = Ok r -> grows st (fst r).
Proof.
  intros H. unfold conclude in H.
  destruct w as [what outcome|type accepts|type accepts matches describe|source]; destruct x as [e|];
    repeat match type of H with
    | Ok _ = Ok _ => injection H as <-; cbn [fst]
    | (if ?c then _ else _) = Ok _ => destruct c
    | bind (match ?e with AbortExn => _ | StdExn _ => _ | OtherExn => _ end) _ = _ => destruct e
    | bind _ _ = Ok _ => step H
    end;
    repeat match goal with
    | E : report_assertion _ _ _ _ _ = Ok _ |- _ => apply grows_assertion in E
    | E : report_assertion2 _ _ _ _ _ _ = Ok _ |- _ => apply grows_assertion2 in E
    end; auto; try (now apply grows_same); (eapply grows_trans; [eassumption|apply grows_notify]).
Qed.

Lemma grows_exec pass p : unmarked m p -> forall st r, exec cf id pass p st = Ok r -> grows st (fst r).
Proof.
  induction p as [|n k IHp|when y k IHp|line w abort e IHe k IHp|line message abort k IHp|sec b IHp1 k IHp2|texts b IHp1 k IHp2|accepts notify b IHp1 k IHp2];
    cbn [unmarked]; intros U st r H; cbn [exec] in H.
  - injection H as <-. now apply grows_same.
  - destruct U as [U1 U2]. apply IHp in H; auto. eapply grows_trans; [|exact H]. apply grows_report. congruence.
  - destruct (when pass); [injection H as <-; now apply grows_same|auto].
  - destruct U as [U1 U2]. bstep H as st1 E1. apply grows_check_begin in E1. bstep H as [st2 x] E2. apply IHe in E2; auto. cbn [fst] in *.
    bstep H as [st3 z] E3. apply grows_conclude in E3. cbn [fst] in *. bstep H as st4 E4. apply grows_check_end in E4.
    assert (G : grows st st4) by (eauto 6 using grows_trans).
    destruct z; [injection H as <-; exact G|]. apply IHp in H; auto. eapply grows_trans; eauto.
  - bstep H as st1 E1. apply grows_check_begin in E1. bstep H as st2 E2. apply grows_skipped in E2.
    bstep H as st3 E3. apply grows_check_end in E3. assert (G : grows st st3) by (eauto 6 using grows_trans).
    destruct abort; [injection H as <-; exact G|]. apply IHp in H; auto. eapply grows_trans; eauto.
  - destruct U as [U1 U2]. bstep H as [st1 entered] E1. apply grows_section_enter in E1. cbn [fst] in *. destruct entered.
    + bstep H as [st2 x] E2. apply IHp1 in E2; auto. cbn [fst] in *. bstep H as st3 E3. apply grows_section_exit in E3.
      assert (G : grows st st3) by (eauto 6 using grows_trans).
      destruct x; [injection H as <-; exact G|]. apply IHp2 in H; auto. eapply grows_trans; eauto.
    + bstep H as st3 E3. apply grows_section_exit in E3. apply IHp2 in H; auto. eauto 6 using grows_trans.
  - destruct U as [U1 U2]. bstep H as st1 E1. apply grows_add_captures in E1. bstep H as [st2 x] E2. apply IHp1 in E2; auto. cbn [fst] in *.
    bstep H as st3 E3. apply grows_capture_end in E3. assert (G : grows st st3) by (eauto 6 using grows_trans).
    destruct x; [injection H as <-; exact G|]. apply IHp2 in H; auto. eapply grows_trans; eauto.
  - destruct U as [U1 U2]. bstep H as [st1 x] E1. apply IHp1 in E1; auto. cbn [fst] in *. destruct x as [e|].
    + destruct (accepts e); [|injection H as <-; exact E1]. apply IHp2 in H; auto. destruct notify; eauto using grows_trans, grows_notify.
    + apply IHp2 in H; auto. eauto using grows_trans.
Qed.
End Marks.
