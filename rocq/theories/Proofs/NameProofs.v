(** Names of sections held by objects of the test (C94). *)
From Coq Require Import Lia.
From Verif.Spec Require Import TextSpec FilterSpec Events RunSpec VerdictSpec TreeSpec UnwindingSpec NameSpec.
From Verif.Model Require Import Base Vector StringUtil Filter Run Unwinding.
From Verif.Proofs Require Import Lists LevelProofs RunProofs InvariantProofs ScopeProofs MarkProofs RunFacts UnwindingProofs UnwindingFacts UnwindingLife.

Section Names.
Variable owner : section_id -> option nat.
Variable cf : config.
Variable id : test_id.

Definition okin (L : list nat) (s : section_id) : Prop := forall n, owner s = Some n -> In n L.
Definition snames (i : info) : list section_id := map sd_id (current_section i).
Definition good (L : list nat) (st : state) : Prop :=
  Forall (okin L) (snames (inf st)) /\ (forall h, held st = Some h -> Forall (okin L) (snames h)) /\
  names_exist owner (trace st) /\ (forall n, In n L -> exists_after (trace st) n).

Lemma unmarked m n : ordinary m -> m <> destroyed n /\ m <> constructed n.
Proof. intros (i & ->). unfold destroyed, constructed. lia. Qed.

(** ** Events *)
Lemma exists_more (tr : list event) e n : (e = User (destroyed n) -> False) -> exists_after tr n -> exists_after (tr ++ [e]) n.
Proof.
  intros D (a & b & -> & N). exists a, (b ++ [e]). split; [rewrite <- app_assoc; reflexivity|].
  rewrite in_app_iff. intros [I|[I|[]]]; auto.
Qed.
Lemma names_more (tr : list event) e : names_exist owner tr -> (forall s n, In s (sections_of e) -> owner s = Some n -> exists_after tr n) ->
  names_exist owner (tr ++ [e]).
Proof.
  intros N E before x after s n H I O. destruct after as [|y after' _] using rev_ind.
  - apply app_inj_tail in H. destruct H as [-> ->]. eauto.
  - rewrite app_comm_cons, app_assoc in H. apply app_inj_tail in H. destruct H as [-> ->]. eapply N; eauto.
Qed.

Lemma good_report L v st e : Forall (okin L) (sections_of e) -> (forall m, e = User m -> ordinary m) -> good L st -> good L (report cf v st e).
Proof.
  intros O U (A & B & C & D). unfold report. destruct (_ <=? _); [|repeat split; auto]. cbn.
  split; [exact A|]. split; [exact B|]. split.
  - apply names_more; auto. intros s n I W. apply D. rewrite Forall_forall in O. exact (O s I n W).
  - intros n I. apply exists_more; auto. intros ->. destruct (unmarked _ n (U _ eq_refl)) as [X _]. now apply X.
Qed.
Lemma good_same L st st' : snames (inf st') = snames (inf st) -> held st' = held st -> trace st' = trace st -> good L st -> good L st'.
Proof. intros E1 E2 E3 (A & B & C & D). unfold good. rewrite E1, E2, E3. auto. Qed.
Ltac same := apply good_same; reflexivity.

Lemma good_set_held L st h : good L st -> (forall i, h = Some i -> Forall (okin L) (snames i)) -> good L (set_held st h).
Proof. intros (A & B & C & D) H. repeat split; auto. Qed.
Lemma snames_count v i : snames (count_info v i) = snames i.
Proof. unfold snames, count_info. cbn [current_section with_current_section]. rewrite map_map. reflexivity. Qed.
Lemma good_register L ok st : good L st -> good L (register_assertion ok st).
Proof.
  intros (A & B & C & D).
  assert (G : forall v, good L (match held (set_inf (set_asserts st (count v (asserts st))) (count_info v (inf st))) with
     | Some h => set_held (set_inf (set_asserts st (count v (asserts st))) (count_info v (inf st))) (Some (count_info v h))
     | None => set_inf (set_asserts st (count v (asserts st))) (count_info v (inf st)) end)).
  { intros v. cbn [held set_inf set_asserts]. destruct (held st) as [h|] eqn:E; unfold good; cbn [inf held trace set_inf set_held set_asserts]; rewrite snames_count; split; auto; (split; [|auto]).
    - intros h' [= <-]. rewrite snames_count. auto.
    - rewrite E. discriminate. }
  assert (S : forall s x, good L x -> good L (raise_state x s)).
  { intros s x X. unfold raise_state. destruct (_ <? _); [|exact X]. revert X. same. }
  unfold register_assertion. cbn zeta. cbn [inf set_asserts]. destruct ok; [|destruct (_ || _)]; cbn iota; try apply S; apply (G Passed) || apply (G AllowedFailure) || apply (G Failure).
Qed.
Lemma good_unwinding_report L u ok data st st' : unwinding_report u cf id ok data st = Ok st' -> good L st -> good L st'.
Proof.
  unfold unwinding_report. destruct (is_skipped _); [now intros [= <-]|]. cbv zeta. intros H G. bstep H as l E. injection H as <-.
  apply (good_register L ok) in G. revert G. generalize (register_assertion ok st). clear. intros st G.
  assert (F : Forall (okin L) (map sd_id (current_section (match held st with Some h => if unhandled st || u then h else inf st | None => inf st end)))).
  { destruct G as (A & B & _). destruct (held st) as [h|] eqn:E; [destruct (_ || _)|]; try exact A. exact (B h eq_refl). }
  destruct ok; apply good_report; auto; discriminate.
Qed.
Lemma good_unwinding_report2 L u ok a b st st' : unwinding_report2 u cf id ok a b st = Ok st' -> good L st -> good L st'.
Proof. unfold unwinding_report2. destruct (is_skipped _); [now intros [= <-]|]. intros H. bstep H as [m ?] E. eapply good_unwinding_report; eauto. Qed.
Lemma good_skipped L m st st' : report_skipped cf id m st = Ok st' -> good L st -> good L st'.
Proof.
  unfold report_skipped. cbv zeta. intros H G. bstep H as l E. injection H as <-.
  assert (G1 : good L (raise_state st ISkipped)) by (unfold raise_state; destruct (_ <? _); [revert G; same|exact G]).
  apply good_report; auto; [|discriminate]. exact (proj1 G1).
Qed.
Lemma good_ended L s st : okin L (sd_id s) -> good L st -> good L (report_section_ended cf s st).
Proof. intros O G. apply good_report; auto; [|discriminate]. cbn. auto. Qed.
Lemma good_close L l n : forall st, Forall (okin L) (map sd_id l) -> good L st -> good L (close_sections cf l n st).
Proof.
  induction l as [|s l IH]; intros st F G; cbn [close_sections]; [exact G|]. inversion F; subst. destruct (_ <? _); [|exact G].
  apply IH; auto. now apply good_ended.
Qed.
Lemma good_notify L st : good L st -> good L (notify_exception_handled cf st).
Proof.
  intros G. unfold notify_exception_handled. destruct (held st) as [h|] eqn:E; [|exact G]. apply good_set_held; [|discriminate].
  apply good_close; auto. destruct G as (_ & B & _). specialize (B h E). unfold snames in B. rewrite map_rev. now apply Forall_rev.
Qed.
Lemma held_notify st : held (notify_exception_handled cf st) = None.
Proof. unfold notify_exception_handled. destruct (held st) eqn:E; [reflexivity|exact E]. Qed.
Lemma good_unless L u st : good L st -> good L (notify_unless u cf st).
Proof. destruct u; [auto|apply good_notify]. Qed.
Lemma good_push L st l st' : push_location cf st l = Ok st' -> good L st -> good L st'.
Proof. unfold push_location. intros H. bstep H as x E. injection H as <-. same. Qed.
Lemma good_pop L st st' : pop_location st = Ok st' -> good L st -> good L st'.
Proof. unfold pop_location. intros H. bstep H as x E. injection H as <-. same. Qed.
Lemma good_hold L u st : good L st -> good L (hold u st).
Proof.
  intros G. unfold hold. destruct (held st); [exact G|]. destruct u; [|exact G]. apply good_set_held; auto.
  intros i [= <-]. exact (proj1 G).
Qed.
Lemma good_check_begin L u line st st' : unwinding_check_begin u cf line st = Ok st' -> good L st -> good L st'.
Proof.
  unfold unwinding_check_begin. intros H G. bstep H as x E. injection H as <-. apply (good_push L) in E; [|now apply good_unless].
  revert E. same.
Qed.
Lemma good_check_end L u st st' : check_end u st = Ok st' -> good L st -> good L st'.
Proof. unfold check_end. intros H G. apply (good_pop L) in H; auto. apply good_hold. revert G. same. Qed.
Lemma good_section_enter L u s st r : okin L s -> unwinding_section_enter u cf s st = Ok r -> good L st -> good L (fst r).
Proof.
  intros O H G. unfold unwinding_section_enter in H. apply (good_unless L u) in G. revert H G. generalize (notify_unless u cf st). clear st. intros st H G.
  do 3 step H. destruct (leaf_executed _); [injection H as <-; revert G; same|].
  destruct (_ && _); [injection H as <-; revert G; same|]. do 3 step H. injection H as <-. cbn [fst].
  match goal with E : push_location _ ?x _ = Ok ?y |- _ => assert (G1 : good L x -> good L y) by (apply good_push with (1 := E)) end.
  assert (G2 : good L a4).
  { apply G1. clear G1 Heqr5. match goal with E : push_back _ (current_section _) _ = Ok _ |- _ => unfold push_back in E; destruct (_ =? _) in E; [discriminate|injection E as <-] end.
    destruct G as (A & B & C & D). split; [|split; [exact B|split; [exact C|exact D]]]. unfold snames in *. cbn. rewrite map_app. apply Forall_app. split; [exact A|].
    constructor; [exact O|constructor]. }
  destruct (_ =? _); [|exact G2]. apply good_report; auto; [|discriminate]. cbn. auto.
Qed.

Lemma in_removelast {A} (x : A) l : In x (removelast l) -> In x l.
Proof. induction l as [|a l IH]; [auto|]. cbn [removelast]. destruct l; [intros []|]. intros [->|I]; [now left|right; auto]. Qed.
Lemma good_section_exit L e u st st' : section_exit cf e u st = Ok st' -> good L st -> good L st'.
Proof.
  unfold section_exit. intros H G. bstep H as st1 E. bstep H as d D. injection H as <-.
  assert (G1 : good L st1); [|revert G1; same]. clear D d.
  destruct e; [|injection E as <-; exact G].
  bstep E as st2 P. apply (good_pop L) in P; [|now apply good_hold]. bstep E as [i2 last] Q. bstep E as st3 E3. bstep E as cs C. injection E as <-.
  assert (S2 : snames i2 = snames (inf st2)).
  { destruct (_ =? _) in Q; [injection Q as <- _; reflexivity|]. destruct (forallb _ _) in Q; [|injection Q as <- _; reflexivity].
    bstep Q as lv V. injection Q as <- _. reflexivity. }
  assert (G2 : good L (set_inf st2 i2)) by (revert P; apply good_same; auto).
  assert (G3 : good L st3).
  { destruct (last && negb u); [|injection E3 as <-; exact G2]. bstep E3 as sc B. injection E3 as <-. apply good_ended; auto.
    destruct G2 as (A & _). rewrite Forall_forall in A. apply A. unfold snames. apply in_map. unfold back in B.
    destruct (rev _) as [|x l] eqn:R in B; [discriminate|]. injection B as ->. apply in_rev. rewrite R. now left. }
  destruct G3 as (A & B & X & Y). split; [|split; [exact B|split; [exact X|exact Y]]].
  unfold pop_back in C. unfold snames in *. cbn [inf set_inf current_section with_current_section].
  destruct (current_section (inf st3)) as [|a l] eqn:Z; [discriminate|]. injection C as <-. rewrite Forall_forall in *.
  intros s I. apply A. apply in_map_iff in I. destruct I as (y & <- & I). apply in_map.
  now apply in_removelast.
Qed.
Lemma good_captures L u l : forall st st', unwinding_add_captures u cf l st = Ok st' -> good L st -> good L st'.
Proof.
  induction l as [|c l IH]; intros st st' H G; cbn [unwinding_add_captures] in H; [injection H as <-; exact G|].
  bstep H as x E. apply IH in H; auto. unfold unwinding_add_capture in E. destruct (_ =? _); [discriminate|].
  bstep E as [c' ?] C. injection E as <-. apply (good_unless L u) in G. revert G. same.
Qed.
Lemma good_capture_end L u n st st' : capture_end u n st = Ok st' -> good L st -> good L st'.
Proof. unfold capture_end. intros H G. bstep H as n' E. injection H as <-. apply (good_hold L u) in G. revert G. same. Qed.
Lemma good_conclude L u pass w abort x st r : unwinding_conclude u cf id pass w abort x st = Ok r -> good L st -> good L (fst r).
Proof.
  intros H G. unfold unwinding_conclude in H.
  destruct w as [what outcome|type accepts|type accepts matches describe|source]; destruct x as [e|];
    repeat match type of H with
    | Ok _ = Ok _ => injection H as <-; cbn [fst]
    | (if ?c then _ else _) = Ok _ => destruct c
    | bind (match ?e with AbortExn => _ | StdExn _ => _ | OtherExn => _ end) _ = _ => destruct e
    | bind _ _ = Ok _ => step H
    end;
    repeat match goal with
    | E : unwinding_report _ _ _ _ _ _ = Ok _ |- _ => apply (good_unwinding_report L) in E; [|exact G]
    | E : unwinding_report2 _ _ _ _ _ _ _ = Ok _ |- _ => apply (good_unwinding_report2 L) in E; [|exact G]
    end; auto; try (apply good_notify; assumption).
Qed.

(** ** Nothing is held unless an exception leaves *)
Lemma held_report v st e : held (report cf v st e) = held st.
Proof. unfold report. now destruct (_ <=? _). Qed.
Lemma held_register ok st : held st = None -> held (register_assertion ok st) = None.
Proof.
  intros H. unfold register_assertion. cbn zeta. cbn [held set_inf set_asserts]. rewrite H.
  destruct ok; [exact H|destruct (_ || _)]; unfold raise_state; destruct (_ <? _); exact H.
Qed.
Lemma held_unwinding_report u ok data st st' : unwinding_report u cf id ok data st = Ok st' -> held st = None -> held st' = None.
Proof.
  unfold unwinding_report. destruct (is_skipped _); [now intros [= <-]|]. cbv zeta. intros H N. bstep H as l E. injection H as <-.
  apply (held_register ok) in N. destruct ok; now rewrite held_report.
Qed.
Lemma held_conclude u pass w abort x st st' : unwinding_conclude u cf id pass w abort x st = Ok (st', None) ->
  (x = None -> held st = None) -> held st' = None.
Proof.
  intros H N. unfold unwinding_conclude in H.
  destruct w as [what outcome|type accepts|type accepts matches describe|source]; destruct x as [e|];
    repeat match type of H with
    | Ok (_, Some _) = Ok _ => discriminate H
    | Ok (?a, _) = Ok _ => assert (st' = a) as -> by congruence; clear H
    | (if ?c then _ else _) = Ok _ => destruct c
    | bind (match ?e with AbortExn => _ | StdExn _ => _ | OtherExn => _ end) _ = _ => destruct e
    | bind _ _ = Ok _ => step H
    end; try apply held_notify; eapply held_unwinding_report; eauto.
Qed.
Fixpoint notifying (p : gprog) : Prop :=
  match p with
  | GNil => True
  | GAct _ k | GThrow _ _ k | GSkip _ _ _ k => notifying k
  | GCheck _ _ _ e k => notifying e /\ notifying k
  | GInSection _ b k | GCapture _ b k => notifying b /\ notifying k
  | GCatch _ notify b k => notify = true /\ notifying b /\ notifying k
  | GScope d b k => notifying d /\ notifying b /\ notifying k
  end.
Lemma held_hold st : held (hold false st) = held st.
Proof. unfold hold. destruct (held st) eqn:E; auto. Qed.
Lemma held_push st l st' : push_location cf st l = Ok st' -> held st' = held st.
Proof. unfold push_location. intros H. bstep H as x E. now injection H as <-. Qed.
Lemma held_pop st st' : pop_location st = Ok st' -> held st' = held st.
Proof. unfold pop_location. intros H. bstep H as x E. now injection H as <-. Qed.
Lemma held_check_begin line st st' : unwinding_check_begin false cf line st = Ok st' -> held st' = None.
Proof. unfold unwinding_check_begin. intros H. bstep H as x E. injection H as <-. apply held_push in E. cbn. rewrite E. apply held_notify. Qed.
Lemma held_check_end st st' : check_end false st = Ok st' -> held st' = held st.
Proof. unfold check_end. intros H. apply held_pop in H. rewrite H, held_hold. reflexivity. Qed.
Lemma held_skipped m st st' : report_skipped cf id m st = Ok st' -> held st' = held st.
Proof.
  unfold report_skipped. cbv zeta. intros H. bstep H as l E. injection H as <-. rewrite held_report. unfold raise_state. now destruct (_ <? _).
Qed.
Lemma held_section_enter s st r : unwinding_section_enter false cf s st = Ok r -> held (fst r) = None.
Proof.
  intros H. unfold unwinding_section_enter in H. assert (N : held (notify_unless false cf st) = None) by apply held_notify.
  revert H N. generalize (notify_unless false cf st). clear st. intros st H N.
  do 3 step H. destruct (leaf_executed _); [injection H as <-; exact N|].
  destruct (_ && _); [injection H as <-; exact N|]. do 3 step H. injection H as <-. cbn [fst].
  match goal with E : push_location _ ?x _ = Ok ?y |- _ => apply held_push in E; cbn in E end.
  destruct (_ =? _); unfold report_section_started; rewrite ?held_report; congruence.
Qed.
Lemma held_section_exit e st st' : section_exit cf e false st = Ok st' -> held st' = held st.
Proof.
  unfold section_exit. intros H. bstep H as st1 E. bstep H as d D. injection H as <-. cbn [held set_inf].
  destruct e; [|now injection E as <-].
  bstep E as st2 P. apply held_pop in P. rewrite held_hold in P. bstep E as [i2 last] Q. bstep E as st3 E3. bstep E as cs C. injection E as <-. cbn [held set_inf].
  destruct (last && negb false); [|injection E3 as <-; exact P]. bstep E3 as sc B. injection E3 as <-. unfold report_section_ended. rewrite held_report. exact P.
Qed.
Lemma held_captures l : forall st st', unwinding_add_captures false cf l st = Ok st' -> held st = None -> held st' = None.
Proof.
  induction l as [|c l IH]; intros st st' H N; cbn [unwinding_add_captures] in H; [now injection H as <-|].
  bstep H as x E. apply IH in H; auto. unfold unwinding_add_capture in E. destruct (_ =? _); [discriminate|].
  bstep E as [c' ?] C. injection E as <-. apply held_notify.
Qed.
Lemma held_capture_end n st st' : capture_end false n st = Ok st' -> held st' = held st.
Proof. unfold capture_end. intros H. bstep H as n' E. injection H as <-. cbn. apply held_hold. Qed.

Ltac ind_gprog p := induction p as [|n k IHp|when y k IHp|line w abort e IHe k IHp|line message abort k IHp|sec b IHp1 k IHp2|texts b IHp1 k IHp2|accepts notify b IHp1 k IHp2|d IHd b IHb k IHk].
Lemma held_exec pass p : notifying p -> forall st st', held st = None -> unwinding_exec false cf id pass p st = Ok (st', None) -> held st' = None.
Proof.
  ind_gprog p; cbn [notifying]; intros U st st' N H; cbn [unwinding_exec orb] in H.
  - now injection H as <-.
  - apply IHp in H; auto.
  - destruct (when pass); [discriminate|eauto].
  - destruct U as [U1 U2]. bstep H as st1 E1. bstep H as [st2 x] E2. bstep H as [st3 z] E3. bstep H as st4 E4.
    destruct z; [discriminate|]. apply IHp in H; auto. rewrite (held_check_end _ _ E4). eapply held_conclude; eauto.
    intros ->. apply IHe in E2; auto. eapply held_check_begin; eauto.
  - bstep H as st1 E1. bstep H as st2 E2. destruct abort; cbn [orb] in H; bstep H as st3 E3; [discriminate|].
    apply IHp in H; auto. rewrite (held_check_end _ _ E3), (held_skipped _ _ _ E2). eapply held_check_begin; eauto.
  - destruct U as [U1 U2]. bstep H as [st1 entered] E1. apply held_section_enter in E1. cbn [fst] in E1. destruct entered.
    + bstep H as [st2 x] E2. bstep H as st3 E3. destruct x; [discriminate|]. cbn [is_some orb] in E3. apply held_section_exit in E3. apply IHp2 in H; auto.
      rewrite E3. eapply IHp1; eauto.
    + bstep H as st3 E3. apply held_section_exit in E3. apply IHp2 in H; auto. congruence.
  - destruct U as [U1 U2]. bstep H as st1 E1. apply held_captures in E1; auto. bstep H as [st2 x] E2. bstep H as st3 E3. destruct x; [discriminate|].
    cbn [is_some orb] in E3. apply held_capture_end in E3. apply IHp2 in H; auto. rewrite E3. eapply IHp1; eauto.
  - destruct U as (-> & U1 & U2). bstep H as [st1 x] E1. destruct x as [e|]; [|apply IHp2 in H; auto; eapply IHp1; eauto].
    destruct (accepts e); [|discriminate]. apply IHp2 in H; auto. apply held_notify.
  - destruct U as (U1 & U2 & U3). bstep H as [st1 x] E1. bstep H as [st2 y] E2. destruct y; [discriminate|]. destruct x; [discriminate|]. cbn [is_some orb] in E2.
    apply IHk in H; auto. apply (IHd U1 st1 st2); [|exact E2]. apply (IHb U2 st st1); auto.
Qed.

Lemma literal_notifying p : literal owner p -> notifying p.
Proof. ind_gprog p; cbn; intros; intuition auto. Qed.
Lemma named_notifying L p : named owner true L p -> notifying p.
Proof. induction 1; cbn; intuition auto. Qed.

(** ** Execution *)
Lemma held_named L pass p : named owner true L p -> forall st st' x, unwinding_exec false cf id pass p st = Ok (st', x) -> held st = None -> x = None -> held st' = None.
Proof. intros N st st' x H Hd ->. exact (held_exec pass p (named_notifying L p N) st st' Hd H). Qed.
Lemma good_literal L pass p : literal owner p -> forall u st r, unwinding_exec u cf id pass p st = Ok r -> good L st -> good L (fst r).
Proof.
  ind_gprog p; cbn [literal]; intros U u st r H G; cbn [unwinding_exec] in H.
  - now injection H as <-.
  - destruct U as [U1 U2]. apply IHp in H; auto. apply good_report; auto; [constructor|]. now intros m [= <-].
  - destruct (when pass); [now injection H as <-|eauto].
  - destruct U as [U1 U2]. bstep H as st1 E1. apply (good_check_begin L) in E1; auto. bstep H as [st2 x] E2. apply IHe in E2; auto. cbn [fst] in *.
    bstep H as [st3 z] E3. apply (good_conclude L) in E3; auto. cbn [fst] in *. bstep H as st4 E4. apply (good_check_end L) in E4; auto.
    destruct z; [now injection H as <-|]. eauto.
  - bstep H as st1 E1. apply (good_check_begin L) in E1; auto. bstep H as st2 E2. apply (good_skipped L) in E2; auto. bstep H as st3 E3. apply (good_check_end L) in E3; auto.
    destruct abort; [now injection H as <-|]. eauto.
  - destruct U as (U0 & U1 & U2). bstep H as [st1 entered] E1. apply (good_section_enter L) in E1; auto; [|intros n E; congruence]. cbn [fst] in E1. destruct entered.
    + bstep H as [st2 x] E2. apply IHp1 in E2; auto. cbn [fst] in *. bstep H as st3 E3. apply (good_section_exit L) in E3; auto.
      destruct x; [now injection H as <-|]. eauto.
    + bstep H as st3 E3. apply (good_section_exit L) in E3; auto. eauto.
  - destruct U as [U1 U2]. bstep H as st1 E1. apply (good_captures L) in E1; auto. bstep H as [st2 x] E2. apply IHp1 in E2; auto. cbn [fst] in *.
    bstep H as st3 E3. apply (good_capture_end L) in E3; auto. destruct x; [now injection H as <-|]. eauto.
  - destruct U as (_ & U1 & U2). bstep H as [st1 x] E1. apply IHp1 in E1; auto. cbn [fst] in *. destruct x as [e|]; [|eauto].
    destruct (accepts e); [|now injection H as <-]. apply IHp2 in H; auto. destruct notify; [now apply good_notify|exact E1].
  - destruct U as (U1 & U2 & U3). bstep H as [st1 x] E1. apply IHb in E1; auto. bstep H as [st2 y] E2. apply IHd in E2; auto. cbn [fst] in *.
    destruct y; [discriminate|]. destruct x; [now injection H as <-|]. eauto.
Qed.

Lemma user_kept st n : inf (report cf Quiet st (User n)) = inf st /\ held (report cf Quiet st (User n)) = held st /\ trace (report cf Quiet st (User n)) = trace st ++ [User n].
Proof. unfold report. cbn [vlevel Nat.leb]. auto. Qed.
Lemma okin_more L n s : okin L s -> okin (n :: L) s.
Proof. intros O m E. right. auto. Qed.
Lemma good_constructed L n st : good L st -> good (n :: L) (report cf Quiet st (User (constructed n))).
Proof.
  intros (A & B & C & D). destruct (user_kept st (constructed n)) as (E1 & E2 & E3). unfold good. rewrite E1, E2, E3.
  split; [eapply Forall_impl; [|exact A]; apply okin_more|]. split; [intros h H; eapply Forall_impl; [|exact (B h H)]; apply okin_more|].
  split; [apply names_more; auto; intros s m []|]. intros m [<-|I].
  - exists (trace st), []. auto.
  - apply exists_more; auto. unfold constructed, destroyed. intros [= E]. lia.
Qed.
Lemma good_destroyed L n st : ~ In n L -> held st = None -> Forall (okin L) (snames (inf st)) -> good (n :: L) st -> good L (report cf Quiet st (User (destroyed n))).
Proof.
  intros N H F (A & B & C & D). destruct (user_kept st (destroyed n)) as (E1 & E2 & E3). unfold good. rewrite E1, E2, E3, H.
  split; [exact F|]. split; [discriminate|]. split; [apply names_more; auto; intros s m []|]. intros m I.
  apply exists_more; [|apply D; now right]. unfold destroyed. intros [= E]. assert (m = n) by lia. congruence.
Qed.

Lemma good_exec L pass p : named owner true L p -> forall st r, held st = None -> unwinding_exec false cf id pass p st = Ok r -> good L st -> good L (fst r).
Proof.
  induction 1 as [L|L m k O K IH|L when y k K IH|L line w abort e k E IHe K IHk|L line message abort k K IH|L s b k O B IHb K IHk|L texts b k B IHb K IHk
    |L accepts notify b k O B IHb K IHk|L d b k O D IHd B IHb K IHk|L n b k N O B IHb K IHk]; intros st r Hd H G; cbn [unwinding_exec local orb] in H.
  - now injection H as <-.
  - apply IH in H; auto. apply good_report; auto; [constructor|]. now intros m' [= <-].
  - destruct (when pass); [now injection H as <-|eauto].
  - bstep H as st1 E1. assert (H1 := held_check_begin _ _ _ E1). apply (good_check_begin L) in E1; auto. bstep H as [st2 x] E2.
    assert (H2 : x = None -> held st2 = None) by (eapply held_named; [|exact E2|exact H1]; eassumption).
    apply IHe in E2; auto. cbn [fst] in *.
    bstep H as [st3 z] E3. assert (H3 : z = None -> held st3 = None) by (intros ->; eapply held_conclude; eauto).
    apply (good_conclude L) in E3; auto. cbn [fst] in *. bstep H as st4 E4. assert (H4 : z = None -> held st4 = None) by (intros ->; rewrite (held_check_end _ _ E4); auto).
    apply (good_check_end L) in E4; auto. destruct z; [now injection H as <-|]. eauto.
  - bstep H as st1 E1. assert (H1 := held_check_begin _ _ _ E1). apply (good_check_begin L) in E1; auto. bstep H as st2 E2. assert (H2 := held_skipped _ _ _ E2).
    apply (good_skipped L) in E2; auto. bstep H as st3 E3.
    destruct abort; [injection H as <-; eapply good_check_end; eauto|]. assert (H3 := held_check_end _ _ E3). apply (good_check_end L) in E3; auto.
    apply IH in H; auto. congruence.
  - bstep H as [st1 entered] E1. assert (H1 := held_section_enter _ _ _ E1). apply (good_section_enter L) in E1; auto. cbn [fst] in *. destruct entered.
    + bstep H as [st2 x] E2. assert (H2 : x = None -> held st2 = None) by (eapply held_named; [|exact E2|exact H1]; eassumption).
      apply IHb in E2; auto. cbn [fst] in *. bstep H as st3 E3. assert (G3 := good_section_exit L _ _ _ _ E3 E2).
      destruct x; [now injection H as <-|]. cbn [is_some] in E3. apply held_section_exit in E3. apply IHk in H; auto. rewrite E3. auto.
    + bstep H as st3 E3. assert (G3 := good_section_exit L _ _ _ _ E3 E1). apply held_section_exit in E3. apply IHk in H; auto. congruence.
  - bstep H as st1 E1. assert (H1 := held_captures _ _ _ E1 Hd). apply (good_captures L) in E1; auto. bstep H as [st2 x] E2.
    assert (H2 : x = None -> held st2 = None) by (eapply held_named; [|exact E2|exact H1]; eassumption).
    apply IHb in E2; auto. cbn [fst] in *. bstep H as st3 E3. assert (G3 := good_capture_end L _ _ _ _ E3 E2).
    destruct x; [now injection H as <-|]. cbn [is_some] in E3. apply held_capture_end in E3. apply IHk in H; auto. rewrite E3. auto.
  - bstep H as [st1 x] E1. assert (H2 : x = None -> held st1 = None) by (eapply held_named; [|exact E1|exact Hd]; eassumption).
    apply IHb in E1; auto. cbn [fst] in *. destruct x as [e|]; [|eauto]. rewrite (O eq_refl) in H.
    destruct (accepts e); [|now injection H as <-]. apply IHk in H; auto; [apply held_notify|now apply good_notify].
  - bstep H as [st1 x] E1. assert (H1 : x = None -> held st1 = None) by (eapply held_named; [|exact E1|exact Hd]; eassumption).
    apply IHb in E1; auto. cbn [fst] in E1. bstep H as [st2 y] E2. assert (G2 := good_literal L pass d (O eq_refl) _ _ _ E2 E1). cbn [fst] in G2.
    destruct y; [discriminate|]. destruct x; [now injection H as <-|]. cbn [is_some] in E2.
    apply IHk in H; auto. eapply held_exec; [apply literal_notifying, (O eq_refl)|auto|exact E2].
  - bstep H as [st1 x] E1. assert (x = None) as -> by (eapply never_throws_none; [exact (O eq_refl)|exact E1]).
    assert (H0 : held (report cf Quiet st (User (constructed n))) = None) by now rewrite held_report.
    assert (H1 : held st1 = None) by (eapply held_named; [|exact E1|exact H0|reflexivity]; eassumption).
    assert (S1 : snames (inf st1) = snames (inf st)).
    { apply scope_unwinding_exec in E1. unfold scope, names in E1. injection E1 as E1 _ _ _. exact E1. }
    apply IHb in E1; auto; [|now apply good_constructed]. cbn [fst bind is_some] in *. apply IHk in H; auto.
    apply good_destroyed; auto. rewrite S1. exact (proj1 G).
Qed.

Lemma good_passes p : named owner true [] p -> forall fuel pass st r, names st = [] -> held st = None -> unwinding_passes cf id p fuel pass st = Ok r -> good [] st ->
  good [] (fst r).
Proof.
  intros W. induction fuel as [|fuel IH]; intros pass st r N Hd H G; cbn [unwinding_passes] in H; [discriminate|].
  bstep H as [st2 y] E. assert (S := scope_unwinding_exec _ _ _ _ _ _ _ _ E). change (scope (set_inf st _)) with (scope st) in S.
  assert (N2 : names st2 = []) by (unfold scope, names in *; injection S as S1 _ _ _; congruence).
  assert (H2 : y = None -> held st2 = None) by (eapply held_named; [exact W|exact E|exact Hd]).
  apply (good_exec [] pass p W) in E; [|exact Hd|revert G; apply good_same; reflexivity]. cbn [fst] in E.
  destruct y; [now injection H as <-|].
  assert (A : current_section (after_pass (inf st2)) = []).
  { unfold names in N2. apply map_eq_nil in N2. unfold after_pass.
    repeat match goal with |- context [match ?x with _ => _ end] => destruct x end; auto. }
  assert (G3 : good [] (set_inf st2 (after_pass (inf st2)))).
  { revert E. apply good_same; auto. unfold snames. cbn [inf set_inf]. rewrite A. symmetry. exact N2. }
  destruct (_ && _); [|now injection H as <-]. apply IH in H; auto. unfold names. cbn [inf set_inf]. now rewrite A.
Qed.

(** ** The whole test case *)
Lemma good_assertion L ok data st st' : report_assertion cf id ok data st = Ok st' -> good L st -> good L st'.
Proof. rewrite <- report_false. apply good_unwinding_report. Qed.
Lemma good_assertion2 L ok a b st st' : report_assertion2 cf id ok a b st = Ok st' -> good L st -> good L st'.
Proof. rewrite <- report2_false. apply good_unwinding_report2. Qed.
Lemma names_run p fuel line st : named owner true [] p -> unwinding_run cf fuel id line p [] = Ok st -> names_exist owner (trace st).
Proof.
  intros W H. unfold unwinding_run in H. bstep H as [may should] F.
  bstep H as st1 E1. bstep H as [st2 x] E2. bstep H as st3 E3. bstep H as st6 E6. bstep H as s E7. injection H as <-.
  assert (G0 : good [] st1).
  { apply (good_push []) in E1; auto. match goal with |- good [] (set_status ?a _) => assert (G : good [] a); [|revert G; same] end.
    apply good_report; [constructor|discriminate|]. repeat split; try discriminate; [constructor| |intros n []].
    intros before e after s' n X. destruct before; discriminate. }
  assert (N1 : names st1 = [] /\ held st1 = None).
  { apply scope_push in E1 as S1. apply held_push in E1. unfold scope in S1. injection S1 as S1 _ _ _. split.
    - unfold names in *. rewrite S1. unfold report. destruct (_ <=? _); reflexivity.
    - rewrite E1. cbn [held set_status]. now rewrite held_report. }
  apply (good_passes p W) in E2; try tauto. cbn [fst] in E2.
  assert (G3 : good [] st3).
  { destruct x as [[|what|]|].
    - injection E3 as <-. revert E2. same.
    - eapply good_assertion2; [exact E3|]. revert E2. same.
    - eapply good_assertion; [exact E3|]. revert E2. same.
    - bstep E3 as y Y. injection E3 as <-. apply (good_assertion []) in Y; [revert Y; same|revert E2; same]. }
  assert (G4 : good [] (set_unhandled (if unhandled st3 then notify_exception_handled cf st3 else st3) false)).
  { destruct (unhandled st3); [apply good_notify in G3|]; revert G3; same. }
  assert (G6 : good [] st6).
  { revert E6 G4. generalize (set_unhandled (if unhandled st3 then notify_exception_handled cf st3 else st3) false). intros st5 E6 G5.
    destruct (should_fail st5); [|injection E6 as <-; exact G5]. bstep E6 as y Y. injection E6 as <-. apply (good_assertion []) in Y; [revert Y; same|revert G5; same]. }
  apply (good_report [] High st6 (TestCaseEnded id line (asserts st6) s)) in G6; [exact (proj1 (proj2 (proj2 G6)))|constructor|discriminate].
Qed.
End Names.

(** ** When an exception leaves the block of the object *)
Lemma not_exists_after {ID} n (l : list (Events.event ID)) a b :
  l = a ++ User (destroyed n) :: b -> ~ In (User (constructed n)) b -> ~ exists_after l n.
Proof.
  intros -> N (c & d & E & M). revert c E. induction a as [|x a IH]; intros c E.
  - destruct c as [|y c]; cbn in E; injection E as E1 E2; [unfold constructed, destroyed in E1; lia|]. apply N. rewrite E2. apply in_or_app. right. now left.
  - destruct c as [|y c]; cbn in E; injection E as E1 E2; [|eauto]. apply M. rewrite <- E2. apply in_or_app. right. now left.
Qed.

Lemma section_throws cf id pass s x b k st r :
  vlevel High <= vlevel (cf_verbosity cf) -> held st = None -> levels (inf st) = [] -> depth (inf st) = 0 -> leaf_executed (inf st) = false ->
  current_section (inf st) = [] ->
  unwinding_exec false cf id pass (GInSection s (GThrow (fun _ => true) x b) k) st = Ok r ->
  snd r = Some x /\ trace (fst r) = trace st ++ [SectionStarted s] /\ current_section (inf (fst r)) = [] /\ status (fst r) = status st /\
  exists h c, held (fst r) = Some h /\ current_section h = [mksd s c].
Proof.
  intros V Hd L D Lf C H. cbn [unwinding_exec] in H. bstep H as [st1 entered] E.
  unfold unwinding_section_enter, notify_unless, notify_exception_handled in E. rewrite Hd in E. cbv zeta in E. rewrite L, D, Lf in E. cbn [length Nat.leb] in E.
  destruct (cf_max_nested cf) as [|m] eqn:M; [discriminate|]. cbn [Nat.leb] in E. unfold push_back at 1 in E. cbn in E. rewrite C in E. cbn in E.
  bstep E as st3 P. unfold push_location in P. bstep P as ls Q. injection P as <-. injection E as <- <-. cbn [is_some orb bind] in H.
  bstep H as st4 X. injection H as <-. cbn [fst snd]. split; [reflexivity|].
  unfold report_section_started, report in X. apply Nat.leb_le in V. rewrite V in X. unfold section_exit, hold in X. cbn in X. rewrite Hd in X. cbn in X.
  bstep X as y Y. unfold pop_location in Y. cbn in Y. bstep Y as z Z. bstep Z as w W. injection Z as <-. cbn in Y. injection Y as <-. cbn in X. injection X as <-. cbn. repeat split; auto.
  eexists _, _. split; reflexivity.
Qed.

Section Leaves.
Variable cf : config.
Variable id : test_id.

(** The next event that is reported has the section [s]. *)
Definition next_has (s : section_id) (st st' : state) : Prop :=
  exists e ev, trace st' = trace st ++ e :: ev /\ In s (sections_of e).
Lemma next_more s st st' st'' : next_has s st st' -> (exists ev, trace st'' = trace st' ++ ev) -> next_has s st st''.
Proof. intros (e & ev & E & I) (ev' & E'). exists e, (ev ++ ev'). rewrite E', E, <- app_assoc. auto. Qed.
Lemma more_trans (a b c : state) : (exists ev, trace b = trace a ++ ev) -> (exists ev, trace c = trace b ++ ev) -> exists ev, trace c = trace a ++ ev.
Proof. intros (x & X) (y & Y). exists (x ++ y). now rewrite Y, X, app_assoc. Qed.
Lemma more_quiet marks a b : quiet marks a b -> exists ev, trace b = trace a ++ ev.
Proof. intros (ev & E & _). eauto. Qed.
Lemma more_same (a b : state) : trace b = trace a -> exists ev, trace b = trace a ++ ev.
Proof. intros ->. exists []. now rewrite app_nil_r. Qed.

Lemma next_assertion ok data st st' h s c : held st = Some h -> current_section h = [mksd s c] -> unhandled st = true -> is_skipped (status st) = false ->
  report_assertion cf id ok data st = Ok st' -> ok = false -> next_has s st st'.
Proof.
  intros H C U K E ->. unfold report_assertion in E. rewrite K in E. cbv zeta in E. bstep E as l B. injection E as <-.
  assert (T : trace (register_assertion false st) = trace st) by (destruct (register_fields false st) as (T & _); exact T).
  assert (X : exists v, held (register_assertion false st) = Some (count_info v h) /\ unhandled (register_assertion false st) = true).
  { unfold register_assertion. cbn zeta. cbn [held set_inf set_asserts]. rewrite H.
    destruct (_ || _); [exists AllowedFailure|exists Failure]; unfold raise_state; destruct (_ <? _); auto. }
  destruct X as (v & X1 & X2). rewrite X1, X2. unfold report. cbn [vlevel Nat.leb].
  eexists _, []. cbn [trace]. rewrite T. split; [reflexivity|]. cbn. rewrite C. now left.
Qed.

Lemma leaves_run owner p n s x b k k' fuel line st :
  p = local n (GInSection s (GThrow (fun _ => true) x b) k) k' ->
  vlevel High <= vlevel (cf_verbosity cf) -> owner s = Some n -> unwinding_run cf fuel id line p [] = Ok st -> ~ names_exist owner (trace st).
Proof.
  intros -> V O H. unfold unwinding_run in H. bstep H as [may should] F. bstep H as st1 E1. bstep H as [st2 y] E2. bstep H as st3 E3. bstep H as st6 E6. bstep H as q E7.
  assert (HI : held st1 = None /\ levels (inf st1) = [] /\ depth (inf st1) = 0 /\ leaf_executed (inf st1) = false /\ current_section (inf st1) = [] /\ status st1 = ISuccess).
  { unfold push_location in E1. bstep E1 as ls P. injection E1 as <-. unfold report. apply Nat.leb_le in V. rewrite V. cbn. auto 10. }
  destruct HI as (I1 & I2 & I3 & I4 & I5 & I6). destruct fuel as [|fuel]; [discriminate|]. cbn [unwinding_passes unwinding_exec local] in E2. rewrite I2 in E2. cbn [map] in E2.
  bstep E2 as [st2' y'] X. bstep X as [st2'' y''] Y. apply section_throws in Y; auto. cbn [fst snd] in Y. destruct Y as (-> & T & C & S & h & c & Hh & Ch).
  cbn [bind is_some orb] in X. injection X as <- <-. injection E2 as <- <-.
  assert (G : next_has s (report cf Quiet st2'' (User (destroyed n))) st).
  { assert (M6 : exists ev, trace st = trace (set_unhandled (if unhandled st3 then notify_exception_handled cf st3 else st3) false) ++ ev).
    { revert E6. generalize (set_unhandled (if unhandled st3 then notify_exception_handled cf st3 else st3) false). intros st5 E6. injection H as <-.
      apply (more_trans _ st6); [|apply (more_quiet []), quiet_report; reflexivity].
      destruct (should_fail st5); [|injection E6 as <-; now apply more_same]. bstep E6 as z Z. injection E6 as <-.
      apply (quiet_assertion cf id []) in Z. apply more_quiet in Z. exact Z. }
    assert (SK : is_skipped (status (report cf Quiet st2'' (User (destroyed n)))) = false).
    { unfold report. cbn [vlevel Nat.leb status]. rewrite S. cbn. rewrite I6. reflexivity. }
    assert (HD : held (report cf Quiet st2'' (User (destroyed n))) = Some h) by exact Hh.
    assert (CS : current_section (inf (report cf Quiet st2'' (User (destroyed n)))) = []) by exact C.
    revert M6 E3. generalize dependent (report cf Quiet st2'' (User (destroyed n))). intros st0 SK HD CS M6 E3.
    assert (MN : forall z, exists ev, trace (set_unhandled (if unhandled z then notify_exception_handled cf z else z) false) = trace z ++ ev).
    { intros z. destruct (unhandled z); [apply (more_quiet [] z (notify_exception_handled cf z)), quiet_notify|now apply more_same]. }
    destruct x as [|what|].
    - injection E3 as <-. cbn [unhandled set_unhandled] in M6. unfold notify_exception_handled in M6. cbn [held set_unhandled] in M6. rewrite HD, Ch in M6.
      destruct M6 as (ev & M6). cbn [rev app inf set_unhandled] in M6. rewrite CS in M6. cbn [length close_sections Nat.ltb Nat.leb] in M6.
      unfold report_section_ended, report in M6. cbn [status sd_id sd_counts set_unhandled] in M6. apply Nat.leb_le in V. rewrite V in M6. cbn [trace set_held set_unhandled] in M6.
      rewrite <- app_assoc in M6. eexists _, ev. split; [exact M6|]. now left.
    - rewrite report_assertion2_eq in E3.
      apply (next_assertion _ _ _ _ h s c) in E3; auto. apply next_more with (2 := M6). apply next_more with (2 := MN st3). exact E3.
    - apply (next_assertion _ _ _ _ h s c) in E3; auto. apply next_more with (2 := M6). apply next_more with (2 := MN st3). exact E3. }
  destruct G as (e & ev & G & I). intros N.
  assert (A : exists_after (trace (report cf Quiet st2'' (User (destroyed n)))) n) by exact (N _ e ev s n G I O).
  revert A. apply (not_exists_after n _ (trace st2'') []); [reflexivity|intros []].
Qed.

(** ** A temporary object *)
Lemma without_none p : without [] p.
Proof. induction p; cbn; auto. Qed.
Lemma more_exec u pass p st r : unwinding_exec u cf id pass p st = Ok r -> exists ev, trace (fst r) = trace st ++ ev.
Proof. intros H. apply (more_quiet []), (quiet_exec cf id [] u pass p st r (without_none p) H). Qed.
Lemma more_passes p : forall fuel pass st r, unwinding_passes cf id p fuel pass st = Ok r -> exists ev, trace (fst r) = trace st ++ ev.
Proof.
  induction fuel as [|fuel IH]; intros pass st r H; [discriminate|]. cbn [unwinding_passes] in H. bstep H as [st2 x] E. apply more_exec in E. cbn [fst] in E.
  destruct x; [injection H as <-; exact E|]. destruct (_ && _); [|injection H as <-; exact E]. apply IH in H. revert H. now apply more_trans with (b := st2).
Qed.
Lemma enters pass s b k st r :
  vlevel High <= vlevel (cf_verbosity cf) -> held st = None -> levels (inf st) = [] -> depth (inf st) = 0 -> leaf_executed (inf st) = false ->
  current_section (inf st) = [] ->
  unwinding_exec false cf id pass (GInSection s b k) st = Ok r -> next_has s st (fst r).
Proof.
  intros V Hd L D Lf C H. cbn [unwinding_exec] in H. bstep H as [st1 entered] E.
  unfold unwinding_section_enter, notify_unless, notify_exception_handled in E. rewrite Hd in E. cbv zeta in E. rewrite L, D, Lf in E. cbn [length Nat.leb] in E.
  destruct (cf_max_nested cf) as [|m] eqn:M; [discriminate|]. cbn [Nat.leb] in E. unfold push_back at 1 in E. cbn in E. rewrite C in E. cbn in E.
  bstep E as st3 P. unfold push_location in P. bstep P as ls Q. injection P as <-. injection E as <- <-.
  match type of H with context [unwinding_exec false cf id pass b ?z] => set (z0 := z) in H; assert (X : next_has s st z0) end.
  { unfold z0, report_section_started, report. apply Nat.leb_le in V. rewrite V. eexists _, []. split; [reflexivity|]. now left. }
  apply next_more with (1 := X). clear X. bstep H as [st2 x] E. apply more_exec in E. cbn [fst] in E. bstep H as st4 F.
  apply (more_trans _ st2); [exact E|]. assert (G : exists ev, trace st4 = trace st2 ++ ev).
  { clear - F. unfold section_exit in F. bstep F as a A. bstep F as d B. injection F as <-. cbn [trace set_inf].
    bstep A as st1 P. unfold pop_location in P. bstep P as ls P'. injection P as <-. bstep A as [i2 last] Q. bstep A as st3 E3. bstep A as cs G. injection A as <-. cbn [trace set_inf].
    destruct (last && negb _).
    - bstep E3 as t T. injection E3 as <-. unfold report_section_ended.
      eapply more_trans; [|apply (more_quiet []), quiet_report; reflexivity]. apply more_same. cbn [trace set_inf]. unfold hold. destruct (held st2); [reflexivity|]. destruct x; reflexivity.
    - injection E3 as <-. apply more_same. cbn [trace set_inf]. unfold hold. destruct (held st2); [reflexivity|]. destruct x; reflexivity. }
  destruct x; [injection H as <-; exact G|]. apply more_exec in H. revert H. now apply more_trans.
Qed.

Lemma temporary_run owner p n s b k fuel line st :
  p = temporary n (GInSection s b k) ->
  vlevel High <= vlevel (cf_verbosity cf) -> owner s = Some n -> unwinding_run cf fuel id line p [] = Ok st -> ~ names_exist owner (trace st).
Proof.
  intros -> V O H. unfold unwinding_run in H. bstep H as [may should] F. bstep H as st1 E1. bstep H as [st2 y] E2. bstep H as st3 E3. bstep H as st6 E6. bstep H as q E7.
  assert (HI : held st1 = None /\ levels (inf st1) = [] /\ depth (inf st1) = 0 /\ leaf_executed (inf st1) = false /\ current_section (inf st1) = [] /\ status st1 = ISuccess).
  { unfold push_location in E1. bstep E1 as ls P. injection E1 as <-. unfold report. apply Nat.leb_le in V. rewrite V. cbn. auto 10. }
  destruct HI as (I1 & I2 & I3 & I4 & I5 & I6). destruct fuel as [|fuel]; [discriminate|]. cbn [unwinding_passes] in E2.
  bstep E2 as [st2' y'] X. unfold temporary in X. set (sec := GInSection s b k) in X. cbn [unwinding_exec] in X. rewrite I2 in X. cbn [map] in X.
  match type of X with unwinding_exec _ _ _ _ _ ?z = _ => set (z0 := z) in X end.
  assert (X' := X). unfold sec in X'. apply enters in X'; auto. cbn [fst] in X'.
  assert (G : exists ev, trace st = trace st2' ++ ev).
  { apply (more_trans _ st2).
    - destruct y'; [injection E2 as <- <-; now apply more_same|]. cbv zeta in E2. destruct (_ && _); [|injection E2 as <- <-; now apply more_same].
      apply more_passes in E2. exact E2.
    - apply (more_trans _ st3).
      + destruct y as [[|w|]|].
        * injection E3 as <-. now apply more_same.
        * apply (quiet_assertion2 cf id []) in E3. apply more_quiet in E3. exact E3.
        * apply (quiet_assertion cf id []) in E3. apply more_quiet in E3. exact E3.
        * bstep E3 as z Z. injection E3 as <-. apply (quiet_assertion cf id []) in Z. apply more_quiet in Z. exact Z.
      + apply (more_trans _ (set_unhandled (if unhandled st3 then notify_exception_handled cf st3 else st3) false)).
        * destruct (unhandled st3); [apply (more_quiet [] st3 (notify_exception_handled cf st3)), quiet_notify|now apply more_same].
        * revert E6. generalize (set_unhandled (if unhandled st3 then notify_exception_handled cf st3 else st3) false). intros st5 E6. injection H as <-.
          apply (more_trans _ st6); [|apply (more_quiet []), quiet_report; reflexivity].
          destruct (should_fail st5); [|injection E6 as <-; now apply more_same]. bstep E6 as z Z. injection E6 as <-.
          apply (quiet_assertion cf id []) in Z. apply more_quiet in Z. exact Z. }
  apply next_more with (2 := G) in X'. destruct X' as (e & ev & T & I). intros N. assert (A : exists_after (trace z0) n) by exact (N _ e ev s n T I O).
  revert A. apply (not_exists_after n _ (trace st1 ++ [User (constructed n)]) []); [reflexivity|intros []].
Qed.
End Leaves.
