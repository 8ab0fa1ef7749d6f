(** Section events of tests that catch exceptions around their sections (C23). *)
From Verif.Spec Require Import TextSpec FilterSpec Events RunSpec TreeSpec PathSpec.
From Verif.Model Require Import Base Vector StringUtil Filter Run.
From Verif.Proofs Require Import Lists AppendProofs LevelProofs RunProofs InvariantProofs ScopeProofs SafetyProofs LimitProofs TreeProofs CaseProofs RunFacts PathProofs.

Lemma contained_stays pass p : contained pass p -> forall x, ~ leaving pass p x.
Proof.
  induction p; cbn [contained leaving]; auto; intros C x.
  - destruct C as [C1 C2]. intros [H|H]; [destruct w; eauto; eapply IHp1; eauto|eapply IHp2; eauto].
  - destruct C as (C0 & C1 & C2). intros [H|[H|H]]; [congruence|eapply IHp1; eauto|eapply IHp2; eauto].
  - destruct C as [C1 C2]. intros [H|H]; [eapply IHp1; eauto|eapply IHp2; eauto].
  - destruct C as [C1 C2]. intros [[H _]|H]; [eapply IHp1; eauto|eapply IHp2; eauto].
Qed.
Lemma contained_caught pass p : contained pass p -> never_caught pass p.
Proof.
  induction p; cbn [contained never_caught]; auto.
  - intros [C1 C2]. split; [|auto]. destruct w; auto; intros x; apply contained_stays, C1.
  - intros (_ & C1 & C2). auto.
  - intros [C1 C2]. auto.
  - intros [C1 C2]. split; [|auto]. intros x L. destruct (contained_stays _ _ C1 _ L).
Qed.

Definition view (st : state) := (names st, brackets (trace st)).
Definition calm (st : state) := forall h, held st = Some h -> length (current_section h) = length (current_section (inf st)).
Lemma held_calm st : held st = None -> calm st.
Proof. unfold calm. congruence. Qed.

Section Events.
Variable cf : config.
Variable id : test_id.

Definition silent (e : event) : Prop := brackets [e] = [].
Lemma view_report v st e : silent e -> view (report cf v st e) = view st.
Proof. intros S. unfold report, view, names. destruct (_ <=? _); auto. cbn [trace inf]. rewrite brackets_app. unfold silent in S. now rewrite S, app_nil_r. Qed.
Lemma calm_report v st e : calm st -> calm (report cf v st e).
Proof. unfold calm. now rewrite held_report, inf_report. Qed.
Lemma view_raise st s : view (raise_state st s) = view st /\ held (raise_state st s) = held st.
Proof. unfold raise_state. now destruct (_ <? _). Qed.
Lemma calm_register ok st : (calm st -> calm (register_assertion ok st)) /\ view (register_assertion ok st) = view st /\
  (held st = None -> held (register_assertion ok st) = None).
Proof.
  unfold register_assertion. cbn [held set_inf set_asserts].
  set (v := if ok then Passed else _).
  assert (X : forall st1, (calm st -> calm st1) /\ view st1 = view st /\ (held st = None -> held st1 = None) ->
    let r := match v with Passed => st1 | AllowedFailure => raise_state st1 IAllowedFail | Failure => raise_state st1 IFailed end in
    (calm st -> calm r) /\ view r = view st /\ (held st = None -> held r = None)).
  { intros st1 (A & B & C). unfold calm in *. destruct v; cbn; rewrite ?(proj1 (view_raise _ _)), ?(proj2 (view_raise _ _)), ?inf_raise; auto. }
  apply X. clear X. destruct (held st) as [h|] eqn:H.
  - split; [|split; [|discriminate]].
    + intros C h' E. cbn in *. injection E as <-. cbn. rewrite !map_length. apply C, H.
    + unfold view, names. cbn. now rewrite map_count.
  - split; [|split].
    + intros _ h' E. cbn in E. congruence.
    + unfold view, names. cbn. now rewrite map_count.
    + intros _. exact H.
Qed.
Lemma calm_assertion ok data st st' : report_assertion cf id ok data st = Ok st' -> (calm st -> calm st') /\ view st' = view st /\ (held st = None -> held st' = None).
Proof.
  unfold report_assertion. intros H. destruct (is_skipped _); [injection H as <-; auto|]. bstep H as l E. injection H as <-.
  destruct (calm_register ok st) as (A & B & C). destruct ok; rewrite view_report, held_report by reflexivity; (split; [|auto]); intros K; apply calm_report; auto.
Qed.
Lemma calm_assertion2 ok a b st st' : report_assertion2 cf id ok a b st = Ok st' -> (calm st -> calm st') /\ view st' = view st /\ (held st = None -> held st' = None).
Proof. rewrite report_assertion2_eq. apply calm_assertion. Qed.
Lemma calm_notify st : calm st -> view (notify_exception_handled cf st) = view st /\ held (notify_exception_handled cf st) = None.
Proof.
  unfold notify_exception_handled. intros C. destruct (held st) as [h|] eqn:H; auto. cbn. split; auto.
  specialize (C h H). assert (E : close_sections cf (rev (current_section h)) (length (current_section (inf st))) st = st).
  { rewrite <- C, <- rev_length. destruct (rev (current_section h)); cbn [close_sections]; auto. now rewrite Nat.ltb_irrefl. }
  rewrite E. reflexivity.
Qed.
Lemma view_push l st st' : push_location cf st l = Ok st' -> view st' = view st /\ held st' = held st.
Proof. unfold push_location. intros H. bstep H as ls E. now injection H as <-. Qed.
Lemma view_pop st st' : pop_location st = Ok st' -> view st' = view st /\ held st' = held st /\ current_section (inf st') = current_section (inf st).
Proof. unfold pop_location. intros H. bstep H as ls E. now injection H as <-. Qed.
Lemma view_check_begin line st st' : calm st -> check_begin cf line st = Ok st' -> view st' = view st /\ held st' = None.
Proof.
  unfold check_begin. intros C H. bstep H as x E. injection H as <-. apply view_push in E. destruct E as [E1 E2].
  destruct (calm_notify st C) as [A B]. rewrite <- A, <- B. split; [exact E1|exact E2].
Qed.
Lemma calm_hold u st : calm st -> calm (hold u st) /\ view (hold u st) = view st /\ (u = false -> held (hold u st) = held st).
Proof.
  unfold hold. destruct (held st) eqn:H; auto. destruct u; auto. intros _. split; [|split; auto; discriminate]. intros h E. cbn in *. now injection E as <-.
Qed.
Lemma calm_check_end u st st' : calm st -> check_end u st = Ok st' -> calm st' /\ view st' = view st /\ (u = false -> held st' = held st).
Proof.
  unfold check_end. intros C H. apply view_pop in H. destruct H as (H1 & H2 & H3).
  destruct (calm_hold u (set_in_check st false)) as (A & B & D); [exact C|]. split; [|split].
  - unfold calm in *. rewrite H2, H3. exact A.
  - rewrite H1, B. reflexivity.
  - intros U. rewrite H2, (D U). reflexivity.
Qed.
Lemma view_add_captures l : forall st st', held st = None -> add_captures cf l st = Ok st' -> view st' = view st /\ held st' = None.
Proof.
  induction l as [|c l IH]; intros st st' HN H; cbn [add_captures] in H; [injection H as <-; auto|].
  bstep H as x E. unfold add_capture in E. destruct (_ =? _); [discriminate|]. bstep E as m M.
  destruct m as [m b]. injection E as <-. destruct (calm_notify st (held_calm _ HN)) as [A B].
  apply IH in H; [|exact B]. destruct H as [H1 H2]. split; [|exact H2]. rewrite H1, <- A. reflexivity.
Qed.
Lemma calm_capture_end u n st st' : calm st -> capture_end u n st = Ok st' -> calm st' /\ view st' = view st /\ (u = false -> held st' = held st).
Proof.
  unfold capture_end. intros C H. cbv zeta in H. destruct (calm_hold u st C) as (A & B & D). bstep H as sz P. injection H as <-.
  split; [exact A|]. split; [|exact D]. rewrite <- B. reflexivity.
Qed.
Lemma calm_conclude pass w abort x st st' y : conclude cf id pass w abort x st = Ok (st', y) -> calm st -> (x = None -> held st = None) ->
  calm st' /\ view st' = view st /\ (y = None \/ x = None -> held st' = None).
Proof.
  intros H C N. unfold conclude in H.
  destruct w as [what outcome|type accepts|type accepts matches describe|source]; destruct x as [e|];
    repeat match type of H with
    | Ok _ = Ok _ => injection H as <- <-
    | (if ?c then _ else _) = Ok _ => destruct c eqn:?
    | bind (match ?e with AbortExn => _ | StdExn _ => _ | OtherExn => _ end) _ = _ => destruct e
    | bind _ _ = Ok _ => step H
    end;
    repeat match goal with
    | E : report_assertion _ _ _ _ _ = Ok _ |- _ => apply calm_assertion in E; destruct E as (? & ? & ?)
    | E : report_assertion2 _ _ _ _ _ _ = Ok _ |- _ => apply calm_assertion2 in E; destruct E as (? & ? & ?)
    end;
    try (match goal with A : calm st -> calm ?s |- context [notify_exception_handled cf ?s] =>
           destruct (calm_notify s (A C)) as [Q1 Q2]; split; [apply held_calm; exact Q2|]; split; [congruence|auto] end);
    try (split; [auto|]; split; [auto|]; intuition congruence).
Qed.

End Events.

Definition same (st r : state) := shape st = shape r /\ view st = view r.

Section Sections.
Variables cf cf' : config.
Variable id : test_id.
Hypothesis verbose : cf_verbosity cf = Full.
Hypothesis verbose' : cf_verbosity cf' = Full.

Lemma full_report c v st e : cf_verbosity c = Full -> report c v st e =
  mkstate (inf st) (held st) (asserts st) (may_fail st) (should_fail st) (in_check st) (unhandled st) (status st) (trace st ++ [e]).
Proof. intros V. unfold report. rewrite V. destruct v; reflexivity. Qed.

Lemma same_enter s st r st' r' e e' : section_enter cf s st = Ok (st', e) -> section_enter cf' s r = Ok (r', e') -> held st = None -> held r = None ->
  same st r -> e = e' /\ same st' r' /\ held st' = None /\ held r' = None.
Proof using verbose verbose'.
  intros H H' N N' [SH V]. destruct (shape_enter _ _ _ _ _ _ _ _ _ _ H H' SH) as [<- SH'].
  split; [reflexivity|]. unfold same. split.
  all: unfold section_enter, notify_exception_handled in H, H'; rewrite N in H; rewrite N' in H'; cbv zeta in H, H';
    unfold shape in SH; injection SH as E1 E2 E3; unfold view, names in V; injection V as V1 V2;
    bstep H as lv L; bstep H' as lv' L'; assert (lv = lv')
    by (rewrite E1, E2 in L; destruct (length (levels (inf r)) <=? depth (inf r)); [|congruence];
        destruct (_ <=? _); [discriminate|]; destruct (_ <=? _); [discriminate|]; apply push_back_app in L; apply push_back_app in L'; congruence);
    subst lv'; rewrite E2 in H; bstep H as lev W; bstep H' as lev' W'; injection W' as <-;
    bstep H as lv1 P; bstep H' as lv1' P'; injection P' as <-; rewrite E3 in H.
  - split; [exact SH'|]. clear SH'. destruct (leaf_executed (inf r)) eqn:LE.
    { injection H as <- <-. injection H' as <-. unfold view, names. cbn [inf set_inf with_depth with_levels current_section trace]. now rewrite V1, V2. }
    destruct (negb _ && negb _).
    { injection H as <- <-. injection H' as <-. unfold view, names. cbn [inf set_inf with_depth with_levels current_section trace]. now rewrite V1, V2. }
    bstep H as lv2 Q. bstep H' as lv2' Q'. injection Q' as <-.
    bstep H as cs C. bstep H' as cs' C'. apply push_back_app in C. apply push_back_app in C'. cbn in C, C'. subst cs cs'.
    unfold push_location in H, H'. bstep H as st3 S3. bstep S3 as ls LS. injection S3 as <-. bstep H' as r3 S3'. bstep S3' as ls' LS'. injection S3' as <-.
    injection H as <- <-. injection H' as <-. unfold report_section_started. rewrite !full_report by assumption.
    destruct (_ =? _); unfold view, names; cbn [inf set_inf with_locations with_current_section current_section trace];
      rewrite ?brackets_app, !map_app, V1; [|congruence]. f_equal. f_equal. exact V2.
  - destruct (leaf_executed (inf r)) eqn:LE.
    { injection H as <- <-. injection H' as <-. auto. }
    destruct (negb _ && negb _).
    { injection H as <- <-. injection H' as <-. auto. }
    bstep H as lv2 Q. bstep H' as lv2' Q'. injection Q' as <-.
    bstep H as cs C. bstep H' as cs' C'.
    unfold push_location in H, H'. bstep H as st3 S3. bstep S3 as ls LS. injection S3 as <-. bstep H' as r3 S3'. bstep S3' as ls' LS'. injection S3' as <-.
    injection H as <- <-. injection H' as <-. unfold report_section_started. rewrite !full_report by assumption. destruct (_ =? _); auto.
Qed.

Lemma back_map {A B} (f : A -> B) (l : list A) x : back l = Ok x -> exists l', map f l = l' ++ [f x].
Proof. unfold back. destruct (rev l) eqn:E; [discriminate|]. intros [= ->]. exists (map f (rev l0)). rewrite <- (rev_involutive l), E. cbn. now rewrite map_app. Qed.

Lemma same_exit e st r st' r' : section_exit cf e false st = Ok st' -> section_exit cf' e false r = Ok r' -> held st = None -> held r = None ->
  same st r -> same st' r' /\ held st' = None /\ held r' = None.
Proof using verbose verbose'.
  intros H H' N N' [SH V]. pose proof (shape_exit _ _ _ _ _ _ _ _ _ H H' SH) as SH'. unfold same. rewrite and_assoc. split; [exact SH'|]. clear SH'.
  unfold section_exit in H, H'. bstep H as s1 A. bstep H' as r1 B. bstep H as d D. bstep H' as d' D'. injection H as <-. injection H' as <-.
  assert (G : view s1 = view r1 /\ held s1 = None /\ held r1 = None); [|exact G].
  destruct e; [|injection A as <-; injection B as <-; auto].
  unfold hold in A, B. rewrite N in A. rewrite N' in B.
  bstep A as s2 P. bstep B as r2 Q. pose proof (shape_pop _ _ P) as P'. pose proof (shape_pop _ _ Q) as Q'.
  apply view_pop in P. apply view_pop in Q. destruct P as (P1 & P2 & _). destruct Q as (Q1 & Q2 & _).
  assert (SH2 : shape s2 = shape r2) by congruence. assert (V2 : view s2 = view r2) by congruence. clear P1 Q1 P' Q' V SH.
  unfold shape in SH2. injection SH2 as G1 G2 G3. rewrite N in P2. rewrite N' in Q2.
  bstep A as x X. destruct x as [i b]. bstep B as y Y. destruct y as [j c]. rewrite G1, G2 in X.
  assert (bc : b = c /\ current_section i = current_section (inf s2) /\ current_section j = current_section (inf r2)).
  { destruct (depth (inf r2) =? length (levels (inf r2))); [injection X as <- <-; injection Y as <- <-; auto|].
    destruct (forallb _ _); [bstep X as l1 L1; bstep Y as l2 L2; injection X as <- <-; injection Y as <- <-; auto|].
    injection X as <- <-; injection Y as <- <-; auto. }
  destruct bc as (<- & I & J). clear X Y. cbn [negb andb] in A, B. unfold view, names in V2. injection V2 as V2 V3.
  destruct b; cbn [andb] in A, B.
  - bstep A as s3 S3. bstep S3 as x X. injection S3 as <-. bstep B as r3 R3. bstep R3 as y Y. injection R3 as <-.
    unfold report_section_ended in A, B. rewrite full_report in A, B by assumption. cbn [inf set_inf] in A, B, X, Y.
    bstep A as cs C. bstep B as cs' C'. injection A as <-. injection B as <-. rewrite I in *. rewrite J in *.
    assert (XY : sd_id x = sd_id y).
    { destruct (back_map sd_id _ _ X) as [l1 L1]. destruct (back_map sd_id _ _ Y) as [l2 L2]. rewrite V2, L2 in L1. apply app_inj_tail in L1. now destruct L1. }
    apply pop_back_app in C. destruct C as [z C]. apply pop_back_app in C'. destruct C' as [z' C']. rewrite C, C', !map_app in V2. apply app_inj_tail in V2. destruct V2 as [V2 _].
    unfold view, names. cbn [inf set_inf with_current_section current_section trace held status]. rewrite !brackets_app, V2, V3. cbn. rewrite XY. auto.
  - bstep A as s3 S3. injection S3 as <-. bstep B as r3 R3. injection R3 as <-. bstep A as cs C. bstep B as cs' C'. injection A as <-. injection B as <-. cbn [inf set_inf] in C, C'. rewrite I in *. rewrite J in *.
    apply pop_back_app in C. destruct C as [z C]. apply pop_back_app in C'. destruct C' as [z' C']. rewrite C, C', !map_app in V2. apply app_inj_tail in V2. destruct V2 as [V2 _].
    unfold view, names. cbn [inf set_inf with_current_section current_section trace held]. rewrite V2, V3. auto.
Qed.
End Sections.

Section Run.
Variables cf cf' : config.
Variable id : test_id.
Hypothesis verbose : cf_verbosity cf = Full.
Hypothesis verbose' : cf_verbosity cf' = Full.

Lemma follows_events pass p : forall st st' x f rest r R, exec cf id pass p st = Ok (st', x) -> contained pass p -> notified p -> visits pass p f rest ->
  same st r -> held st = None -> held r = None -> exec cf' id pass f r = Ok R ->
  x = snd (flow pass p) /\ calm st' /\ (x = None -> held st' = None) /\
  exists r', same st' r' /\ held r' = None /\ exec cf' id pass rest r' = Ok R.
Proof using verbose verbose'.
  induction p; intros st st' z f rest r R H C T G SM HN HR EX; cbn [exec] in H; cbn [contained] in C; cbn [flow]; cbn [visits] in G; cbn [notified] in T.
  - injection H as <- <-. subst. split; auto. split; [now apply held_calm|]. eauto.
  - eapply IHp; [exact H|exact C|exact T|exact G| | |exact HR|exact EX].
    + destruct SM as [S1 S2]. split; [rewrite <- S1; apply shape_inf, inf_report|rewrite view_report by reflexivity; exact S2].
    + now rewrite held_report.
  - destruct (when pass); [injection H as <- <-; subst; split; auto; split; [now apply held_calm|]; split; [discriminate|eauto]|]. eapply IHp; eauto.
  - bstep H as st1 E1. bstep H as q E2. destruct q as [st2 x]. bstep H as q E3. destruct q as [st3 y]. bstep H as st4 E4.
    destruct C as [C1 C2]. destruct T as [T1 T2]. destruct G as (f' & G1 & G2).
    pose proof (shape_check_begin _ _ _ _ E1) as S1. apply view_check_begin in E1; [|now apply held_calm]. destruct E1 as [V1 N1].
    destruct (IHp1 _ _ _ _ _ _ _ E2 C1 T1 G1 ltac:(split; [rewrite S1|rewrite V1]; apply SM) N1 HR EX) as (X & K2 & N2 & r2 & SM2 & HR2 & EX2).
    pose proof (shape_conclude _ _ _ _ _ _ _ _ _ E3) as [S3 Y]. destruct (calm_conclude _ _ _ _ _ _ _ _ _ E3 K2 N2) as (K3 & V3 & N3).
    pose proof (shape_check_end _ _ _ E4) as S4. destruct (calm_check_end _ _ _ K3 E4) as (K4 & V4 & N4).
    assert (SM4 : same st4 r2) by (destruct SM2; split; congruence).
    rewrite <- X in G2 |- *. destruct (holds pass w x) as [ok|] eqn:HO.
    + destruct (negb ok && abort); subst y.
      * injection H as <- <-. subst. split; [reflexivity|]. split; [exact K4|]. split; [discriminate|eauto].
      * cbn [snd]. eapply IHp2; eauto. rewrite N4 by reflexivity. auto.
    + apply holds_none in HO. destruct HO as (what & outcome & e & -> & ->). subst y f'. injection H as <- <-.
      split; [reflexivity|]. split; [exact K4|]. split; [discriminate|eauto].
  - contradiction.
  - bstep H as q E1. destruct q as [st1 entered]. destruct C as (C0 & C1 & C2). destruct T as [T1 T2]. destruct G as (g & f' & -> & G1 & G2).
    cbn [exec] in EX. bstep EX as q F1. destruct q as [r1 entered'].
    destruct (same_enter cf cf' verbose verbose' _ _ _ _ _ _ _ E1 F1 HN HR SM) as (<- & SM1 & HN1 & HR1). destruct entered.
    + bstep H as q E2. destruct q as [st2 x]. bstep H as st3 E3. bstep EX as q F2. destruct q as [r2 y]. bstep EX as r3 F3.
      destruct (IHp1 _ _ _ _ _ _ _ E2 C1 T1 (G1 C0) SM1 HN1 HR1 F2) as (X & _ & HN2 & r2' & SM2 & HR2 & Q). rewrite C0 in X. subst x.
      cbn [exec] in Q. injection Q as -> <-. cbn [is_some] in *.
      destruct (same_exit cf cf' verbose verbose' _ _ _ _ _ E3 F3 (HN2 eq_refl) HR2 SM2) as (SM3 & HN3 & HR3).
      eapply IHp2; eauto.
    + bstep H as st3 E3. bstep EX as r3 F3. destruct (same_exit cf cf' verbose verbose' _ _ _ _ _ E3 F3 HN1 HR1 SM1) as (SM3 & HN3 & HR3).
      eapply IHp2; eauto.
  - bstep H as st1 E1. bstep H as q E2. destruct q as [st2 x]. bstep H as st3 E3. destruct C as [C1 C2]. destruct T as [T1 T2]. destruct G as (f' & G1 & G2).
    pose proof (shape_add_captures _ _ _ _ E1) as S1. destruct (view_add_captures _ _ _ _ HN E1) as [V1 N1].
    destruct (IHp1 _ _ _ _ _ _ _ E2 C1 T1 G1 ltac:(split; [rewrite S1|rewrite V1]; apply SM) N1 HR EX) as (X & K2 & N2 & r2 & SM2 & HR2 & EX2).
    pose proof (shape_capture_end _ _ _ _ E3) as S3. destruct (calm_capture_end _ _ _ _ K2 E3) as (K3 & V3 & N3).
    assert (SM3 : same st3 r2) by (destruct SM2; split; congruence).
    destruct (flow pass p1) as [c fx]. cbn [snd] in *. subst fx.
    destruct x as [e|]; [injection H as <- <-; subst; split; [reflexivity|]; split; [exact K3|]; split; [discriminate|eauto]|]. cbn [snd].
    eapply IHp2; eauto. rewrite N3 by reflexivity. auto.
  - bstep H as q E1. destruct q as [st1 x]. destruct C as [C1 C2]. destruct T as (-> & T1 & T2). destruct G as (f' & G1 & G2).
    destruct (IHp1 _ _ _ _ _ _ _ E1 C1 T1 G1 SM HN HR EX) as (X & K2 & N2 & r2 & SM2 & HR2 & EX2).
    destruct (flow pass p1) as [c fx]. cbn [snd] in *. subst fx. destruct x as [e|].
    + destruct (accepts e); cbn [negb snd] in *; [|injection H as <- <-; subst; split; [reflexivity|]; split; [exact K2|]; split; [discriminate|eauto]].
      destruct (calm_notify cf st1 K2) as [V3 N3]. apply (IHp2 _ _ _ _ _ r2 R H C2 T2 G2); [|exact N3|exact HR2|exact EX2]. destruct SM2 as [A B]. split; [rewrite <- A; apply shape_inf, inf_notify|congruence].
    + cbn [snd]. eapply IHp2; eauto.
Qed.

Lemma unskipped_register ok st : is_skipped (status st) = false -> is_skipped (status (register_assertion ok st)) = false.
Proof.
  unfold register_assertion, raise_state. cbn [held set_inf set_asserts]. intros K.
  destruct ok; [|destruct (_ || _)]; destruct (held st); cbn [status set_held set_inf set_asserts]; auto; destruct (status st) eqn:ST; cbn; rewrite ?ST; try reflexivity; discriminate.
Qed.
Lemma unskipped_assertion ok data st st' : report_assertion cf id ok data st = Ok st' -> is_skipped (status st) = false -> is_skipped (status st') = false.
Proof.
  unfold report_assertion. intros H K. rewrite K in H. bstep H as l E. injection H as <-. apply (unskipped_register ok) in K.
  destruct ok; now rewrite status_report.
Qed.
Lemma unskipped_assertion2 ok a b st st' : report_assertion2 cf id ok a b st = Ok st' -> is_skipped (status st) = false -> is_skipped (status st') = false.
Proof. rewrite report_assertion2_eq. apply unskipped_assertion. Qed.
Lemma unskipped_conclude pass w abort x st st' y : conclude cf id pass w abort x st = Ok (st', y) -> is_skipped (status st) = false -> is_skipped (status st') = false.
Proof.
  intros H K. unfold conclude in H.
  destruct w as [what outcome|type accepts|type accepts matches describe|source]; destruct x as [e|];
    repeat match type of H with
    | Ok _ = Ok _ => injection H as <- <-
    | (if ?c then _ else _) = Ok _ => destruct c eqn:?
    | bind (match ?e with AbortExn => _ | StdExn _ => _ | OtherExn => _ end) _ = _ => destruct e
    | bind _ _ = Ok _ => step H
    end;
    repeat match goal with
    | E : report_assertion _ _ _ _ _ = Ok _ |- _ => apply unskipped_assertion in E; [|assumption]
    | E : report_assertion2 _ _ _ _ _ _ = Ok _ |- _ => apply unskipped_assertion2 in E; [|assumption]
    end; rewrite ?status_notify; auto.
Qed.
Lemma unskipped_exec pass p : notified p -> forall st st' x, exec cf id pass p st = Ok (st', x) -> is_skipped (status st) = false -> is_skipped (status st') = false.
Proof.
  induction p; cbn [notified]; intros T st st' z H K; cbn [exec] in H.
  - now injection H as <- <-.
  - eapply IHp; [exact T|exact H|]. now rewrite status_report.
  - destruct (when pass); [now injection H as <- <-|]. eapply IHp; eauto.
  - bstep H as st1 E1. bstep H as q E2. destruct q as [st2 x]. bstep H as q E3. destruct q as [st3 y]. bstep H as st4 E4. destruct T as [T1 T2].
    apply ran_check_begin in E1. apply (IHp1 T1) in E2; [|congruence]. apply unskipped_conclude in E3; [|exact E2]. apply ran_check_end in E4. rewrite <- E4 in E3.
    destruct y; [now injection H as <- <-|]. eapply IHp2; eauto.
  - contradiction.
  - bstep H as q E1. destruct q as [st1 entered]. destruct T as [T1 T2]. apply ran_section_enter in E1. destruct entered.
    + bstep H as q E2. destruct q as [st2 x]. bstep H as st3 E3. apply (IHp1 T1) in E2; [|congruence]. apply ran_section_exit in E3. rewrite <- E3 in E2.
      destruct x; [now injection H as <- <-|]. eapply IHp2; eauto.
    + bstep H as st3 E3. apply ran_section_exit in E3. eapply IHp2; eauto. congruence.
  - bstep H as st1 E1. bstep H as q E2. destruct q as [st2 x]. bstep H as st3 E3. destruct T as [T1 T2].
    apply ran_add_captures in E1. apply (IHp1 T1) in E2; [|congruence]. apply ran_capture_end in E3. rewrite <- E3 in E2.
    destruct x; [now injection H as <- <-|]. eapply IHp2; eauto.
  - bstep H as q E1. destruct q as [st1 x]. destruct T as (_ & T1 & T2). apply (IHp1 T1) in E1; [|exact K]. destruct x; [|eapply IHp2; eauto].
    destruct (accepts e); [|now injection H as <- <-]. eapply IHp2; eauto. destruct notify; rewrite ?status_notify; auto.
Qed.

Lemma same_after_pass st r : same st r -> depth (inf st) = 0 -> names st = [] ->
  same (set_inf st (after_pass (inf st))) (set_inf r (after_pass (inf r))).
Proof.
  intros [S V] D NA. split; [now apply shape_after_pass|]. assert (NR : names r = []) by (unfold view in V; injection V as V _; congruence).
  assert (G : forall s, names s = [] -> view (set_inf s (after_pass (inf s))) = view s).
  { intros s N. unfold view, names in *. cbn [inf set_inf trace]. f_equal. unfold after_pass. destruct (levels (inf s)) as [|c [|]]; auto. destruct (_ =? _); auto. }
  rewrite !G; auto.
Qed.

Lemma events_passes p f : outline f -> (forall pass, contained pass p) -> notified p -> (forall pass, snd (flow pass p) = None /\ visits pass p f Nil) ->
  forall fuel pass st st' x r R, same st r -> held st = None -> held r = None -> is_skipped (status st) = false -> is_skipped (status r) = false ->
  names st = [] -> depth (inf st) = 0 ->
  passes cf id p fuel pass st = Ok (st', x) -> passes cf' id f fuel pass r = Ok R -> x = None /\ snd R = None /\ view st' = view (fst R) /\ held st' = None.
Proof using verbose verbose'.
  intros OF C T G. induction fuel as [|fuel IH]; intros pass st st' x r R SM HN HR SK SKR NA D H EX; cbn [passes] in *; [discriminate|].
  set (st1 := set_inf st _) in H. set (r1 := set_inf r _) in EX.
  assert (SM1 : same st1 r1).
  { destruct SM as [A B]. split; [|exact B]. unfold shape, st1, r1 in *. cbn. injection A; intros; congruence. }
  bstep H as q E. destruct q as [st2 y]. bstep EX as q F. destruct q as [r2 y'].
  destruct (G pass) as [G0 G1].
  destruct (follows_events pass p _ _ _ _ _ _ _ E (C pass) T G1 SM1 HN HR F) as (Y & _ & HN2 & r2' & SM2 & HR2 & Q). rewrite G0 in Y. subst y.
  cbn [exec] in Q. injection Q as -> <-. specialize (HN2 eq_refl).
  pose proof (unskipped_exec pass p T _ _ _ E SK) as SK2. destruct (outline_status _ _ _ _ OF _ _ _ F) as [SR _].
  apply scope_exec in E. apply scope_eq in E. destruct E as (NA2 & _ & _ & D2). change (names st1) with (names st) in NA2. change (depth (inf st1)) with (depth (inf st)) in D2.
  rewrite NA in NA2. rewrite D in D2. pose proof (same_after_pass _ _ SM2 D2 NA2) as SM3.
  set (st3 := set_inf st2 _) in *. set (r3 := set_inf r2 _) in *.
  assert (LV : levels (inf st3) = levels (inf r3)) by (destruct SM3 as [A _]; unfold shape in A; now injection A).
  assert (SK3 : is_skipped (status r3) = false) by (unfold r3, r1 in *; cbn in *; now rewrite SR).
  assert (SK3' : is_skipped (status st3) = false) by exact SK2.
  rewrite SK3', LV in H. rewrite SK3 in EX. destruct (negb (length (levels (inf r3)) =? 0) && negb false) eqn:B.
  - apply (IH (S pass) st3 st' x r3 R); auto.
    + unfold names in *. unfold st3. cbn [inf set_inf]. unfold after_pass. destruct (levels (inf st2)) as [|c [|]]; auto. destruct (prev_id c =? max_id c); auto.
    + unfold st3. cbn [inf set_inf]. unfold after_pass. destruct (levels (inf st2)) as [|c [|]]; auto. destruct (prev_id c =? max_id c); auto.
  - injection H as <- <-. injection EX as <-. cbn [fst snd]. destruct SM3 as [_ V]. auto.
Qed.
End Run.

Lemma brackets_in_try cf fuel id line p f tr0 tags may should :
  cf_verbosity cf = Full -> id_tags id = tag_string tags -> well_formed (cf_max_tag_length cf) tags -> tagged tags may should ->
  outline f -> notified p -> (forall pass, contained pass p /\ snd (flow pass p) = None /\ visits pass p f Nil) ->
  nesting p <= cf_max_nested cf -> scopes p <= S (cf_max_nested cf) -> capturing p <= cf_max_captures cf -> Nat.max 1 (leaves f) <= fuel ->
  exists st body c s,
    run cf fuel (mktest id line p) tr0 = Ok st /\
    trace st = tr0 ++ [TestCaseStarted id line] ++ body ++ [TestCaseEnded id line c s] /\
    brackets body = walk f /\ nested (brackets body).
Proof.
  intros V E W T OF NT G NE SC CA FU.
  destruct (ends_in_try cf fuel id line p f tr0 tags may should E W T OF ltac:(intros; apply contained_caught, G) ltac:(intros; apply G) NE SC CA FU) as [st H].
  destruct (counters cf fuel (mktest id line p) tr0 st tags may should V E W T H) as (body & c & s & TR & _).
  exists st, body, c, s. split; [exact H|]. split; [exact TR|].
  enough (B : brackets body = walk f) by (split; [exact B|]; rewrite B; apply walk_nested).
  pose proof (flags_of _ _ _ _ _ E W T) as FF.
  destruct (outline_regular f OF) as (RF & CF & SF).
  assert (PF : plain f) by (clear -OF; induction f; cbn in *; tauto).
  set (cf' := mkconfig Full (nesting f) (cf_max_captures cf) (cf_max_capture_length cf) (cf_max_message_length cf) (cf_max_tag_length cf)).
  destruct (brackets_of_plain cf' fuel id line f tr0 tags may should eq_refl E W T PF ltac:(cbn; lia) ltac:(cbn; lia) ltac:(lia) FU) as (st' & body' & c' & s' & F & TR' & BF & _).
  rewrite <- BF. enough (X : brackets (trace st) = brackets (trace st')).
  { cbn [t_id t_line] in TR. rewrite TR, TR', !brackets_app in X. apply app_inv_head in X. cbn in X. rewrite !app_nil_r in X. exact X. }
  clear TR TR' BF body body' c c' s s'.
  unfold run in F, H. cbn [t_id t_line t_body] in F, H. change (cf_max_tag_length cf') with (cf_max_tag_length cf) in F. rewrite FF in F, H. cbn [bind] in F, H.
  rewrite full_report in F, H by auto. cbn [set_status inf held asserts may_fail should_fail in_check unhandled status trace] in F, H.
  unfold push_location in F, H. cbn [inf locations] in F, H. rewrite !push_back_ok in F, H by (cbn; lia). cbn [bind app] in F, H.
  bstep F as q P. destruct q as [r2 x']. bstep H as q Q. destruct q as [st2 x].
  match type of P with passes _ _ _ _ _ ?s = _ => set (r1 := s) in * end. match type of Q with passes _ _ _ _ _ ?s = _ => set (st1 := s) in * end.
  destruct (events_passes cf cf' id V eq_refl p f OF ltac:(intros; apply G) NT ltac:(intros; apply G) fuel 0 st1 st2 x r1 (r2, x')) as (-> & X' & VW & HN2); auto.
  { split; reflexivity. }
  cbn [fst snd] in X', VW. subst x'. unfold view in VW. injection VW as _ VW.
  assert (Z : forall cfg s out, bind (bind (report_assertion cfg id true (Message (lit "no exception caught")) (set_in_check s true)) (fun st' => Ok (set_in_check st' false)))
    (fun st3 => bind (if should_fail (set_unhandled (if unhandled st3 then notify_exception_handled cfg st3 else st3) false)
       then bind (report_assertion cfg id (match status (set_unhandled (if unhandled st3 then notify_exception_handled cfg st3 else st3) false) with IAllowedFail => true | _ => false end)
                   (Message (lit "expected test to fail"))
                   (set_in_check (set_should_fail (set_unhandled (if unhandled st3 then notify_exception_handled cfg st3 else st3) false) false) true))
              (fun st' => Ok (set_should_fail (set_in_check st' false) true))
       else Ok (set_unhandled (if unhandled st3 then notify_exception_handled cfg st3 else st3) false))
      (fun st6 => bind (convert_to_public_state (status st6)) (fun s => Ok (report cfg High st6 (TestCaseEnded id line (asserts st6) s))))) = Ok out ->
    held s = None -> brackets (trace out) = brackets (trace s)).
  { clear. intros cfg s out H N. bstep H as s3 A. bstep A as s2 B. injection A as <-.
    apply calm_assertion in B. destruct B as (_ & V1 & N1). change (view (set_in_check s true)) with (view s) in V1. specialize (N1 N).
    set (s5 := set_unhandled _ false) in H. assert (V5 : view s5 = view s).
    { unfold s5. cbn [unhandled set_in_check]. destruct (unhandled s2); [|exact V1]. unfold notify_exception_handled. cbn [held set_in_check]. rewrite N1. exact V1. }
    bstep H as s6 C. bstep H as cs D. injection H as <-.
    assert (V6 : view s6 = view s).
    { destruct (should_fail s5); [|injection C as <-; exact V5]. bstep C as s7 F. injection C as <-. apply calm_assertion in F. destruct F as (_ & F & _).
      change (view s7 = view s). rewrite F. exact V5. }
    assert (V7 : view (report cfg High s6 (TestCaseEnded id line (asserts s6) cs)) = view s) by (rewrite view_report by reflexivity; exact V6).
    unfold view in V7. now injection V7. }
  assert (HR2 : held r2 = None).
  { destruct (events_passes cf' cf' id eq_refl eq_refl f f OF) with (fuel := fuel) (pass := 0) (st := r1) (st' := r2) (x := @None exn) (r := r1) (R := (r2, @None exn)) as (_ & _ & _ & R); auto.
    - clear -OF. induction f; cbn in *; try tauto. intros pass. destruct OF as [O1 O2]. repeat split; auto. clear -O1. induction f1; cbn in *; tauto.
    - clear -OF. induction f; cbn in *; tauto.
    - clear -OF. intros pass. split; [induction f; cbn in *; tauto|]. assert (X : forall g, outline g -> visits pass g g Nil); [|auto].
      induction g; cbn; try tauto. intros [O1 O2]. exists g1, g2. auto.
    - split; reflexivity. }
  rewrite (Z cf st2 st H HN2), (Z cf' r2 st' F HR2). exact VW.
Qed.
