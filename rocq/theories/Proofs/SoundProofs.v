(** The counters of every event of every run: failures are among the assertions (C43). *)
From Verif.Spec Require Import TextSpec FilterSpec Events VerdictSpec.
From Verif.Model Require Import Base Vector StringUtil Filter Run.
From Verif.Proofs Require Import Lists LevelProofs RunProofs InvariantProofs.
Local Open Scope list_scope.

Definition sound (c : counts) : Prop := n_failed c + n_allowed c <= n_all c.
Definition sound_event (e : event) : Prop :=
  match e with
  | SectionEnded _ _ c | TestCaseEnded _ _ c _ => sound c
  | TestRunEnded _ _ run failed allowed skipped c _ => sound c /\ failed + allowed + skipped <= run
  | _ => True
  end.

Lemma sound_count v c : sound c -> sound (count v c).
Proof. unfold sound. destruct v; cbn; lia. Qed.

Definition fine (i : info) : Prop := Forall (fun s => sound (sd_counts s)) (current_section i).
Definition good (st : state) : Prop :=
  fine (inf st) /\ (forall h, held st = Some h -> fine h) /\ sound (asserts st) /\ Forall sound_event (trace st).

Lemma good_same st st' : current_section (inf st') = current_section (inf st) -> held st' = held st -> asserts st' = asserts st ->
  trace st' = trace st -> good st -> good st'.
Proof. unfold good, fine. intros -> -> -> ->. auto. Qed.

Lemma fine_count v i : fine i -> fine (count_info v i).
Proof.
  unfold fine, count_info. cbn. intros F. apply Forall_map. eapply Forall_impl; [|exact F]. intros s. apply sound_count.
Qed.
Lemma back_in {A} (l : list A) x : back l = Ok x -> In x l.
Proof. unfold back. destruct (rev l) eqn:E; [discriminate|]. intros [= <-]. apply in_rev. rewrite E. now left. Qed.
Lemma pop_back_in {A} (l l' : list A) : pop_back l = Ok l' -> forall x, In x l' -> In x l.
Proof.
  unfold pop_back. destruct l as [|a l]; [discriminate|]. intros [= <-] x I. rewrite (app_removelast_last a) by discriminate.
  apply in_or_app. auto.
Qed.

Section Good.
Variable cf : config.
Variable id : test_id.

Lemma good_report v st e : good st -> sound_event e -> good (report cf v st e).
Proof.
  intros (G1 & G2 & G3 & G4) S. unfold report. destruct (_ <=? _); [|repeat split; auto]. repeat split; auto. cbn [trace]. apply Forall_app; auto.
Qed.
Lemma good_raise st s : good st -> good (raise_state st s).
Proof. unfold raise_state. destruct (_ <? _); auto. Qed.
Lemma good_push st l st' : good st -> push_location cf st l = Ok st' -> good st'.
Proof. unfold push_location. intros G H. bstep H as ls E. injection H as <-. eapply good_same; eauto. Qed.
Lemma good_pop st st' : good st -> pop_location st = Ok st' -> good st'.
Proof. unfold pop_location. intros G H. bstep H as ls E. injection H as <-. eapply good_same; eauto. Qed.

Lemma good_register ok st : good st -> good (register_assertion ok st).
Proof.
  intros (G1 & G2 & G3 & G4). unfold register_assertion. set (v := if ok then _ else _). clearbody v.
  set (st3 := match held _ with Some _ => _ | None => _ end).
  assert (good st3).
  { subst st3. cbn [held set_inf set_asserts]. destruct (held st) as [h|] eqn:E.
    - split; [now apply fine_count|]. split; [intros h' [= <-]; now apply fine_count, G2|]. split; [now apply sound_count|exact G4].
    - split; [now apply fine_count|]. split; [cbn; rewrite E; discriminate|]. split; [now apply sound_count|exact G4]. }
  clearbody st3. destruct v; auto using good_raise.
Qed.
Lemma good_assertion st ok data st' : good st -> report_assertion cf id ok data st = Ok st' -> good st'.
Proof.
  intros G H. unfold report_assertion in H. destruct (is_skipped _); [now injection H as <-|].
  apply (good_register ok) in G. revert H G. generalize (register_assertion ok st) as x. intros x H G.
  bstep H as l E. injection H as <-. destruct ok; now apply good_report.
Qed.
Lemma good_assertion2 st ok a b st' : good st -> report_assertion2 cf id ok a b st = Ok st' -> good st'.
Proof. rewrite report_assertion2_eq. apply good_assertion. Qed.
Lemma good_skipped st m st' : good st -> report_skipped cf id m st = Ok st' -> good st'.
Proof.
  intros G H. unfold report_skipped in H. bstep H as l E. injection H as <-. apply good_report; [now apply good_raise|exact I].
Qed.
Lemma good_ended s st : good st -> sound (sd_counts s) -> good (report_section_ended cf s st).
Proof. intros. apply good_report; auto. Qed.
Lemma good_close l n : Forall (fun s => sound (sd_counts s)) l -> forall st, good st -> good (close_sections cf l n st).
Proof.
  induction 1 as [|s l S _ IH]; intros st G; cbn [close_sections]; auto. destruct (_ <? _); auto using good_ended.
Qed.
Lemma good_notify st : good st -> good (notify_exception_handled cf st).
Proof.
  intros G. unfold notify_exception_handled. destruct (held st) as [h|] eqn:E; auto.
  assert (F : Forall (fun s => sound (sd_counts s)) (rev (current_section h))) by (apply Forall_rev; apply (proj1 (proj2 G)); auto).
  pose proof (good_close _ (length (current_section (inf st))) F st G) as (H1 & H2 & H3 & H4). repeat split; auto. cbn. discriminate.
Qed.
Lemma good_hold u st : good st -> good (hold u st).
Proof.
  unfold hold. destruct (held st) eqn:E; auto. destruct u; auto. intros (G1 & G2 & G3 & G4). repeat split; auto. cbn. now intros h [= <-].
Qed.
Lemma good_check_begin line st st' : good st -> check_begin cf line st = Ok st' -> good st'.
Proof.
  unfold check_begin. intros G H. bstep H as st1 E. injection H as <-. apply good_push in E; [|now apply good_notify]. exact E.
Qed.
Lemma good_check_end u st st' : good st -> check_end u st = Ok st' -> good st'.
Proof. unfold check_end. intros G. apply good_pop, good_hold. exact G. Qed.

Lemma good_section_enter s st r : good st -> section_enter cf s st = Ok r -> good (fst r).
Proof.
  unfold section_enter. intros G H. apply good_notify in G. revert H G. generalize (notify_exception_handled cf st) as x. intros x H G.
  bstep H as lv E1. bstep H as level E2. bstep H as lv1 E3.
  destruct (leaf_executed _); [injection H as <-; exact G|].
  destruct (_ && _); [injection H as <-; exact G|]. bstep H as lv2 E4. bstep H as cs E5. bstep H as st3 E6. injection H as <-. cbn [fst].
  apply good_push in E6.
  - destruct (_ =? _); auto. now apply good_report.
  - destruct G as (G1 & G2 & G3 & G4). repeat split; auto. unfold fine. cbn [inf set_inf current_section with_current_section].
    unfold push_back in E5. destruct (_ =? _); [discriminate|]. injection E5 as <-. apply Forall_app. split; [exact G1|].
    apply Forall_cons; [unfold sound; cbn; lia|apply Forall_nil].
Qed.
Lemma good_section_exit e u st st' : good st -> section_exit cf e u st = Ok st' -> good st'.
Proof.
  unfold section_exit. intros G H. bstep H as st1 E. bstep H as d D. injection H as <-.
  enough (good st1) by (eapply good_same; eauto). clear D. destruct e; [|now injection E as <-].
  bstep E as st2 P. apply good_pop in P; [|now apply good_hold].
  bstep E as [i2 last] Q. assert (C2 : current_section i2 = current_section (inf st2)).
  { destruct (_ =? _); [now injection Q as <- <-|]. destruct (forallb _ _); [bstep Q as lv L; now injection Q as <- <-|now injection Q as <- <-]. }
  assert (G2 : good (set_inf st2 i2)) by (eapply good_same; [..|exact P]; auto).
  bstep E as st3 E3. bstep E as cs C. injection E as <-.
  assert (G3 : good st3).
  { destruct (last && negb u); [|now injection E3 as <-]. bstep E3 as sc B. injection E3 as <-. apply good_ended; auto.
    apply back_in in B. destruct G2 as (G2 & _). unfold fine in G2. rewrite Forall_forall in G2. now apply G2. }
  destruct G3 as (H1 & H2 & H3 & H4). repeat split; auto. unfold fine in *. cbn. rewrite Forall_forall in *.
  intros x I. apply H1. eapply pop_back_in; eauto.
Qed.
Lemma good_add_captures l : forall st st', good st -> add_captures cf l st = Ok st' -> good st'.
Proof.
  induction l as [|c l IH]; intros st st' G H; cbn [add_captures] in H; [now injection H as <-|].
  bstep H as x E. apply IH in H; auto. unfold add_capture in E. destruct (_ =? _); [discriminate|].
  bstep E as [c' ?] C. injection E as <-. apply good_notify in G. exact G.
Qed.
Lemma good_capture_end u n st st' : good st -> capture_end u n st = Ok st' -> good st'.
Proof. unfold capture_end. intros I H. bstep H as n' E. injection H as <-. apply (good_hold u) in I. exact I. Qed.

Lemma good_conclude pass w abort x st r : good st -> conclude cf id pass w abort x st = Ok r -> good (fst r).
Proof.
  intros I H. unfold conclude in H.
  destruct w as [what outcome|type accepts|type accepts matches describe|source]; destruct x as [e|];
    repeat match type of H with
    | Ok _ = Ok _ => injection H as <-; cbn [fst]
    | (if ?c then _ else _) = Ok _ => destruct c
    | bind (match ?e with AbortExn => _ | StdExn _ => _ | OtherExn => _ end) _ = _ => destruct e
    | bind _ _ = Ok _ => step H
    end;
    repeat match goal with
    | E : report_assertion _ _ _ _ _ = Ok _ |- _ => apply good_assertion in E; [|exact I]
    | E : report_assertion2 _ _ _ _ _ _ = Ok _ |- _ => apply good_assertion2 in E; [|exact I]
    end; auto using good_notify.
Qed.

Lemma good_exec pass p : forall st r, good st -> exec cf id pass p st = Ok r -> good (fst r).
Proof.
  induction p as [|n k IHp|when y k IHp|line w abort e IHe k IHp|line message abort k IHp|sec b IHp1 k IHp2|texts b IHp1 k IHp2|accepts notify b IHp1 k IHp2];
    intros st r I H; cbn [exec] in H.
  - now injection H as <-.
  - apply IHp in H; auto. now apply good_report.
  - destruct (when pass); [now injection H as <-|eauto].
  - bstep H as st1 E1. apply good_check_begin in E1; auto. bstep H as [st2 x] E2. apply IHe in E2; auto. cbn [fst] in *.
    bstep H as [st3 z] E3. apply good_conclude in E3; auto. cbn [fst] in *. bstep H as st4 E4. apply good_check_end in E4; auto.
    destruct z; [now injection H as <-|eauto].
  - bstep H as st1 E1. apply good_check_begin in E1; auto. bstep H as st2 E2. apply good_skipped in E2; auto.
    bstep H as st3 E3. apply good_check_end in E3; auto.
    destruct abort; [now injection H as <-|eauto].
  - bstep H as [st1 entered] E1. apply good_section_enter in E1; auto. cbn [fst] in *. destruct entered.
    + bstep H as [st2 x] E2. apply IHp1 in E2; auto. cbn [fst] in *. bstep H as st3 E3. apply good_section_exit in E3; auto.
      destruct x; [now injection H as <-|eauto].
    + bstep H as st3 E3. apply good_section_exit in E3; auto. eauto.
  - bstep H as st1 E1. apply good_add_captures in E1; auto. bstep H as [st2 x] E2. apply IHp1 in E2; auto. cbn [fst] in *.
    bstep H as st3 E3. apply good_capture_end in E3; auto. destruct x; [now injection H as <-|eauto].
  - bstep H as [st1 x] E1. apply IHp1 in E1; auto. cbn [fst] in *. destruct x as [e|]; [|eauto].
    destruct (accepts e); [|now injection H as <-]. apply IHp2 in H; auto. destruct notify; auto using good_notify.
Qed.

Lemma good_passes p : forall fuel pass st r, good st -> passes cf id p fuel pass st = Ok r -> good (fst r).
Proof.
  induction fuel as [|fuel IH]; intros pass st r I H; cbn [passes] in H; [discriminate|].
  bstep H as [st2 x] E. apply good_exec in E; auto. cbn [fst] in *. destruct x; [now injection H as <-|].
  assert (G : good (set_inf st2 (after_pass (inf st2)))).
  { clear H. destruct E as (G1 & G2 & G3 & G4). repeat split; auto. unfold fine, after_pass in *. cbn [inf set_inf].
    destruct (levels (inf st2)) as [|c [|c' l]]; auto. destruct (_ =? _); auto. cbn. apply Forall_nil. }
  destruct (_ && _); [|now injection H as <-]. apply IH in H; auto.
Qed.
End Good.

Theorem good_run cf fuel t tr0 st : Forall sound_event tr0 -> run cf fuel t tr0 = Ok st -> good st.
Proof.
  intros F H. unfold run in H. bstep H as [may should] E0.
  set (st0 := report cf High _ _) in H. assert (G0 : good st0).
  { apply good_report; [|exact I]. repeat split; auto; cbn; try apply Forall_nil; try discriminate. unfold sound. cbn. lia. }
  clearbody st0. bstep H as st1 E1. apply good_push in E1; [|exact G0]. bstep H as [st2 x] E2. apply good_passes in E2; auto. cbn [fst] in E2.
  bstep H as st3 E3. assert (G3 : good st3).
  { destruct x as [[|what|]|].
    - now injection E3 as <-.
    - apply good_assertion2 in E3; auto.
    - apply good_assertion in E3; auto.
    - bstep E3 as st' E4. injection E3 as <-. apply good_assertion in E4; auto. }
  set (st4 := if unhandled st3 then _ else _) in H. assert (G4 : good st4) by (subst st4; destruct (unhandled st3); auto using good_notify).
  clearbody st4. bstep H as st6 E6. assert (G6 : good st6).
  { destruct (should_fail _); [|now injection E6 as <-]. bstep E6 as st' E7. injection E6 as <-. apply good_assertion in E7; auto. }
  bstep H as s E8. injection H as <-. apply good_report; auto. exact (proj1 (proj2 (proj2 G6))).
Qed.
