(** Tests that catch exceptions around their sections end, if each pass goes through the same sections (C56). *)
From Verif.Spec Require Import TextSpec FilterSpec Events RunSpec TreeSpec PathSpec.
From Verif.Model Require Import Base Vector StringUtil Filter Run.
From Verif.Proofs Require Import Lists AppendProofs LevelProofs RunProofs InvariantProofs ScopeProofs SafetyProofs LimitProofs CaseProofs RunFacts.

(** The part of the state that decides which sections are entered. *)
Definition shape (st : state) := (levels (inf st), depth (inf st), leaf_executed (inf st)).

Section Shape.
Variable cf : config.
Variable id : test_id.

Lemma shape_inf st st' : inf st' = inf st -> shape st' = shape st.
Proof. unfold shape. now intros ->. Qed.
Lemma shape_register ok st : shape (register_assertion ok st) = shape st.
Proof.
  unfold register_assertion. cbn [held set_inf set_asserts].
  destruct ok; [|destruct (_ || _)]; cbn [count]; destruct (held st); rewrite ?(shape_inf _ _ (inf_raise _ _)); reflexivity.
Qed.
Lemma shape_assertion ok data st st' : report_assertion cf id ok data st = Ok st' -> shape st' = shape st.
Proof.
  unfold report_assertion. intros H. destruct (is_skipped _); [now injection H as <-|]. bstep H as l E. injection H as <-.
  rewrite <- (shape_register ok st). destruct ok; apply shape_inf, inf_report.
Qed.
Lemma shape_assertion2 ok a b st st' : report_assertion2 cf id ok a b st = Ok st' -> shape st' = shape st.
Proof. rewrite report_assertion2_eq. apply shape_assertion. Qed.
Lemma shape_skipped m st st' : report_skipped cf id m st = Ok st' -> shape st' = shape st.
Proof. unfold report_skipped. intros H. bstep H as l E. injection H as <-. rewrite (shape_inf _ _ (inf_report _ _ _ _)). apply shape_inf, inf_raise. Qed.
Lemma shape_push l st st' : push_location cf st l = Ok st' -> shape st' = shape st.
Proof. unfold push_location. intros H. bstep H as ls E. now injection H as <-. Qed.
Lemma shape_pop st st' : pop_location st = Ok st' -> shape st' = shape st.
Proof. unfold pop_location. intros H. bstep H as ls E. now injection H as <-. Qed.
Lemma shape_check_begin line st st' : check_begin cf line st = Ok st' -> shape st' = shape st.
Proof.
  unfold check_begin. intros H. bstep H as x E. injection H as <-. apply shape_push in E. change (shape x = shape st). rewrite E.
  apply shape_inf, inf_notify.
Qed.
Lemma shape_check_end u st st' : check_end u st = Ok st' -> shape st' = shape st.
Proof. unfold check_end. intros H. apply shape_pop in H. rewrite H. rewrite (shape_inf _ _ (inf_hold _ _)). reflexivity. Qed.
Lemma shape_add_captures l : forall st st', add_captures cf l st = Ok st' -> shape st' = shape st.
Proof.
  induction l as [|c l IH]; intros st st' H; cbn [add_captures] in H; [now injection H as <-|].
  bstep H as x E. apply IH in H. rewrite H. unfold add_capture in E. destruct (_ =? _); [discriminate|]. bstep E as m M.
  destruct m as [m b]. injection E as <-. unfold shape. cbn. now rewrite inf_notify.
Qed.
Lemma shape_capture_end u n st st' : capture_end u n st = Ok st' -> shape st' = shape st.
Proof. unfold capture_end. intros H. cbv zeta in H. rewrite inf_hold in H. bstep H as sz P. now injection H as <-. Qed.

Lemma shape_conclude pass w abort x st st' y : conclude cf id pass w abort x st = Ok (st', y) ->
  shape st' = shape st /\
  y = match holds pass w x with None => x | Some ok => if negb ok && abort then Some AbortExn else None end.
Proof.
  intros H. unfold conclude in H. split.
  - destruct w as [what outcome|type accepts|type accepts matches describe|source]; destruct x as [e|];
    repeat match type of H with
    | Ok _ = Ok _ => injection H as <- <-
    | (if ?c then _ else _) = Ok _ => destruct c
    | bind (match ?e with AbortExn => _ | StdExn _ => _ | OtherExn => _ end) _ = _ => destruct e
    | bind _ _ = Ok _ => step H
    end;
    repeat match goal with
    | E : report_assertion _ _ _ _ _ = Ok _ |- _ => apply shape_assertion in E
    | E : report_assertion2 _ _ _ _ _ _ = Ok _ |- _ => apply shape_assertion2 in E
    end; rewrite ?(shape_inf _ _ (inf_notify _ _)); auto.
  - destruct w as [what outcome|type accepts|type accepts matches describe|source]; destruct x as [e|]; cbn [holds] in *;
    repeat match type of H with
    | (if ?c then _ else _) = Ok _ => destruct c eqn:?
    | bind (match ?e with AbortExn => _ | StdExn _ => _ | OtherExn => _ end) _ = _ => destruct e
    | bind _ _ = Ok _ => step H
    | Ok _ = Ok _ => injection H as _ <-
    end; cbn [negb andb maybe_abort];
    repeat match goal with E : accepts _ = _ |- _ => rewrite E | E : matches _ = _ |- _ => rewrite E end; cbn [negb andb];
    try destruct (outcome pass); destruct abort; reflexivity.
Qed.

Lemma holds_none pass w x : holds pass w x = None -> exists what outcome y, w = IsTrue what outcome /\ x = Some y.
Proof. destruct w, x; cbn; intros H; try discriminate; eauto. Qed.

(** How code ends: as its sections let it, or with an exception that has left one of them. *)
Lemma ends_as pass p : forall st st' x, exec cf id pass p st = Ok (st', x) -> never_caught pass p ->
  x = snd (flow pass p) \/ exists y, x = Some y /\ leaving pass p y.
Proof.
  induction p; intros st st' z H U; cbn [exec] in H; cbn [never_caught] in U; cbn [flow leaving].
  - injection H as <- <-. auto.
  - eapply IHp; eauto.
  - destruct (when pass); [injection H as <- <-; auto|]. eapply IHp; eauto.
  - bstep H as st1 E1. bstep H as r E2. destruct r as [st2 x]. bstep H as r E3. destruct r as [st3 y]. bstep H as st4 E4.
    destruct U as (U0 & U1 & U2). apply shape_conclude in E3. destruct E3 as [_ E3].
    destruct (IHp1 _ _ _ E2 U1) as [X|(v & X & L)].
    + rewrite <- X. destruct (holds pass w x) as [ok|] eqn:HO.
      * destruct (negb ok && abort); subst y; [injection H as <- <-; auto|]. cbn [snd].
        destruct (IHp2 _ _ _ H U2) as [Y|(v & Y & L)]; eauto.
      * apply holds_none in HO. destruct HO as (what & outcome & e & -> & ->). subst y. injection H as <- <-. auto.
    + subst x. destruct w; try (exfalso; exact (U0 _ L)). cbn [holds] in E3. subst y. injection H as <- <-. right. eauto.
  - bstep H as st1 E1. bstep H as st2 E2. bstep H as st3 E3. destruct abort; [injection H as <- <-; auto|]. cbn [snd].
    destruct (IHp _ _ _ H U) as [Y|(v & Y & L)]; eauto.
  - bstep H as r E1. destruct r as [st1 entered]. destruct U as [U1 U2]. destruct entered.
    + bstep H as r E2. destruct r as [st2 x]. bstep H as st3 E3. destruct (IHp1 _ _ _ E2 U1) as [X|(v & X & L)].
      * destruct x as [e|]; [injection H as <- <-; right; eauto|]. destruct (IHp2 _ _ _ H U2) as [Y|(v & Y & L)]; eauto 6.
      * subst x. injection H as <- <-. right; eauto.
    + bstep H as st3 E3. destruct (IHp2 _ _ _ H U2) as [Y|(v & Y & L)]; eauto 6.
  - bstep H as st1 E1. bstep H as r E2. destruct r as [st2 x]. bstep H as st3 E3. destruct U as [U1 U2].
    destruct (flow pass p1) as [c fx] eqn:FL. destruct (IHp1 _ _ _ E2 U1) as [X|(v & X & L)].
    + cbn [snd] in X. subst fx. destruct x as [e|]; [injection H as <- <-; auto|]. cbn [snd].
      destruct (IHp2 _ _ _ H U2) as [Y|(v & Y & L)]; eauto 6.
    + subst x. injection H as <- <-. right; eauto.
  - bstep H as r E1. destruct r as [st1 x]. destruct U as (U0 & U1 & U2). destruct (flow pass p1) as [c fx] eqn:FL.
    destruct (IHp1 _ _ _ E1 U1) as [X|(v & X & L)].
    + cbn [snd] in X. subst fx. destruct x as [e|].
      * destruct (accepts e); cbn [negb snd]; [|injection H as <- <-; auto].
        destruct (IHp2 _ _ _ H U2) as [Y|(v & Y & L)]; eauto 6.
      * cbn [snd]. destruct (IHp2 _ _ _ H U2) as [Y|(v & Y & L)]; eauto 6.
    + subst x. rewrite (U0 _ L) in H. injection H as <- <-. right; eauto 6.
Qed.

(** The sections decide which sections are entered. *)
Variable cf' : config.
Lemma shape_enter s s' st r st' r' e e' : section_enter cf s st = Ok (st', e) -> section_enter cf' s' r = Ok (r', e') -> shape st = shape r ->
  e = e' /\ shape st' = shape r'.
Proof.
  unfold section_enter. rewrite !inf_notify. unfold shape at 1 2. intros H H' E. injection E as E1 E2 E3.
  bstep H as lv L. bstep H' as lv' L'. assert (lv = lv').
  { rewrite E1, E2 in L. destruct (length (levels (inf r)) <=? depth (inf r)); [|congruence].
    destruct (_ <=? _); [discriminate|]. destruct (_ <=? _); [discriminate|]. apply push_back_app in L. apply push_back_app in L'. congruence. }
  subst lv'. rewrite E2 in H. bstep H as lev V. bstep H' as lev' V'. injection V' as <-.
  bstep H as lv1 P. bstep H' as lv1' P'. injection P' as <-. rewrite E3 in H.
  destruct (leaf_executed (inf r)) eqn:LE.
  { injection H as <- <-. injection H' as <- <-. unfold shape. cbn. rewrite ?E3, ?LE. auto. }
  destruct (negb _ && negb _).
  { injection H as <- <-. injection H' as <- <-. unfold shape. cbn. rewrite ?E3, ?LE. auto. }
  bstep H as lv2 Q. bstep H' as lv2' Q'. injection Q' as <-.
  bstep H as cs C. bstep H' as cs' C'. bstep H as st3 S3. bstep H' as r3 S3'. injection H as <- <-. injection H' as <- <-. split; [reflexivity|].
  apply shape_push in S3. unfold push_location in S3'. bstep S3' as ls LS. injection S3' as <-.
  assert (G : forall c (b : bool) x y, shape (if b then report_section_started c x y else y) = shape y)
    by (intros c [] x y; [apply shape_inf, inf_report|reflexivity]).
  rewrite !G, S3. unfold shape. cbn. now rewrite E3, LE.
Qed.

Lemma shape_exit e u u' st r st' r' : section_exit cf e u st = Ok st' -> section_exit cf' e u' r = Ok r' -> shape st = shape r ->
  shape st' = shape r'.
Proof.
  unfold section_exit. intros H H' E. bstep H as s1 A. bstep H' as r1 B. bstep H as d D. bstep H' as d' D'. injection H as <-. injection H' as <-.
  assert (G : shape s1 = shape r1).
  { destruct e; [|congruence].
    bstep A as s2 P. bstep B as r2 Q. apply shape_pop in P. apply shape_pop in Q. rewrite (shape_inf _ _ (inf_hold _ _)) in P. rewrite (shape_inf _ _ (inf_hold _ _)) in Q.
    assert (G : shape s2 = shape r2) by congruence. unfold shape in G. injection G as G1 G2 G3.
    assert (M : forall c (i : info) (st : state) (b v : bool) (st3 out : state),
      (do st3 <- (if b && negb v then do s <- back (current_section (inf (set_inf st i))) ;; Ok (report_section_ended c s (set_inf st i)) else Ok (set_inf st i)) ;;
       do cs <- pop_back (current_section (inf st3)) ;; Ok (set_inf st3 (with_current_section (inf st3) cs))) = Ok out ->
      shape out = (levels i, depth i, leaf_executed i)).
    { clear. intros c i st b v _ out H. bstep H as st3 X. bstep H as cs Y. injection H as <-. unfold shape. cbn.
      assert (I : inf st3 = i). { destruct (b && negb v); [bstep X as s Z; injection X as <-; apply inf_report|now injection X as <-]. }
      now rewrite I. }
    bstep A as x X. destruct x as [i b]. bstep B as y Y. destruct y as [j c].
    rewrite (M _ _ _ _ _ s2 _ A), (M _ _ _ _ _ r2 _ B). clear M A B. rewrite G1, G2 in X.
    destruct (depth (inf r2) =? length (levels (inf r2))).
    { injection X as <- <-. injection Y as <- <-. cbn. congruence. }
    destruct (forallb _ _).
    { bstep X as l1 L1. bstep Y as l2 L2. injection L2 as <-. injection X as <- <-. injection Y as <- <-. cbn. congruence. }
    injection X as <- <-. injection Y as <- <-. congruence. }
  unfold shape in *. cbn. injection G as G1 G2 G3. rewrite G1, G3, G2 in *. congruence.
Qed.

Lemma follows_path pass p : forall st st' x f rest r R, exec cf id pass p st = Ok (st', x) -> never_caught pass p -> visits pass p f rest ->
  shape st = shape r -> exec cf' id pass f r = Ok R ->
  (exists y, x = Some y /\ leaving pass p y) \/
  (x = snd (flow pass p) /\ exists r', shape st' = shape r' /\ exec cf' id pass rest r' = Ok R).
Proof.
  induction p; intros st st' z f rest r R H U G SH EX; cbn [exec] in H; cbn [never_caught] in U; cbn [flow leaving]; cbn [visits] in G.
  - injection H as <- <-. subst. right. eauto.
  - eapply IHp; [exact H|exact U|exact G| |exact EX]. rewrite <- SH. apply shape_inf, inf_report.
  - destruct (when pass); [injection H as <- <-; subst; right; eauto|]. eapply IHp; eauto.
  - bstep H as st1 E1. bstep H as q E2. destruct q as [st2 x]. bstep H as q E3. destruct q as [st3 y]. bstep H as st4 E4.
    destruct U as (U0 & U1 & U2). apply shape_conclude in E3. destruct E3 as [E3 Y]. apply shape_check_begin in E1. apply shape_check_end in E4.
    destruct G as (f' & G1 & G2).
    destruct (IHp1 _ _ _ _ _ _ _ E2 U1 G1 (eq_trans E1 SH) EX) as [(v & X & L)|(X & r2 & SH2 & EX2)].
    + subst x. left. destruct w; try (exfalso; exact (U0 _ L)). cbn [holds] in Y. subst y. injection H as <- <-. eauto.
    + rewrite <- X in G2 |- *. assert (SH4 : shape st4 = shape r2) by congruence. destruct (holds pass w x) as [ok|] eqn:HO.
      * destruct (negb ok && abort); subst y; [injection H as <- <-; subst; right; eauto|]. cbn [snd].
        destruct (IHp2 _ _ _ _ _ _ _ H U2 G2 SH4 EX2) as [(v & V & L)|V]; eauto 6.
      * apply holds_none in HO. destruct HO as (what & outcome & e & -> & ->). subst y f'. injection H as <- <-. right. eauto.
  - bstep H as st1 E1. bstep H as st2 E2. bstep H as st3 E3. apply shape_check_begin in E1. apply shape_skipped in E2. apply shape_check_end in E3.
    assert (SH3 : shape st3 = shape r) by congruence.
    destruct abort; [injection H as <- <-; subst; right; eauto|]. cbn [snd].
    destruct (IHp _ _ _ _ _ _ _ H U G SH3 EX) as [(v & V & L)|V]; eauto 6.
  - bstep H as q E1. destruct q as [st1 entered]. destruct U as [U1 U2]. destruct G as (g & f' & -> & G1 & G2).
    cbn [exec] in EX. bstep EX as q F1. destruct q as [r1 entered']. destruct (shape_enter _ _ _ _ _ _ _ _ E1 F1 SH) as [<- SH1]. destruct entered.
    + bstep H as q E2. destruct q as [st2 x]. bstep H as st3 E3. bstep EX as q F2. destruct q as [r2 y]. bstep EX as r3 F3.
      destruct (ends_as _ _ _ _ _ E2 U1) as [X|(v & X & L)]; [|subst x; injection H as <- <-; left; eauto].
      destruct x as [e|]; [injection H as <- <-; left; eauto|]. specialize (G1 (eq_sym X)).
      destruct (IHp1 _ _ _ _ _ _ _ E2 U1 G1 SH1 F2) as [(v & V & _)|(_ & r2' & SH2 & Q)]; [discriminate|].
      cbn [exec] in Q. injection Q as <- <-. assert (SH3 := shape_exit _ _ _ _ _ _ _ E3 F3 SH2).
      destruct (IHp2 _ _ _ _ _ _ _ H U2 G2 SH3 EX) as [(v & V & L)|V]; eauto 6.
    + bstep H as st3 E3. bstep EX as r3 F3. assert (SH3 := shape_exit _ _ _ _ _ _ _ E3 F3 SH1).
      destruct (IHp2 _ _ _ _ _ _ _ H U2 G2 SH3 EX) as [(v & V & L)|V]; eauto 6.
  - bstep H as st1 E1. bstep H as q E2. destruct q as [st2 x]. bstep H as st3 E3. destruct U as [U1 U2]. destruct G as (f' & G1 & G2).
    apply shape_add_captures in E1. apply shape_capture_end in E3.
    destruct (IHp1 _ _ _ _ _ _ _ E2 U1 G1 (eq_trans E1 SH) EX) as [(v & X & L)|(X & r2 & SH2 & EX2)].
    + subst x. injection H as <- <-. left; eauto.
    + destruct (flow pass p1) as [c fx]. cbn [snd] in *. subst fx. assert (SH3 : shape st3 = shape r2) by congruence.
      destruct x as [e|]; [injection H as <- <-; subst; right; eauto|]. cbn [snd].
      destruct (IHp2 _ _ _ _ _ _ _ H U2 G2 SH3 EX2) as [(v & V & L)|V]; eauto 6.
  - bstep H as q E1. destruct q as [st1 x]. destruct U as (U0 & U1 & U2). destruct G as (f' & G1 & G2).
    destruct (IHp1 _ _ _ _ _ _ _ E1 U1 G1 SH EX) as [(v & X & L)|(X & r2 & SH2 & EX2)].
    + subst x. rewrite (U0 _ L) in H. injection H as <- <-. left; eauto 6.
    + destruct (flow pass p1) as [c fx]. cbn [snd] in *. subst fx. destruct x as [e|].
      * destruct (accepts e); cbn [negb snd] in *; [|injection H as <- <-; subst; right; eauto].
        assert (SH3 : shape (if notify then notify_exception_handled cf st1 else st1) = shape r2)
          by (destruct notify; [rewrite <- SH2; apply shape_inf, inf_notify|exact SH2]).
        destruct (IHp2 _ _ _ _ _ _ _ H U2 G2 SH3 EX2) as [(v & V & L)|V]; eauto 6.
      * cbn [snd]. destruct (IHp2 _ _ _ _ _ _ _ H U2 G2 SH2 EX2) as [(v & V & L)|V]; eauto 6.
Qed.
End Shape.

(** ** Outlines *)
Lemma outline_regular f : outline f -> regular f /\ capturing f = 0 /\ scopes f = nesting f.
Proof.
  induction f; cbn; try contradiction; auto. intros [H1 H2]. destruct (IHf1 H1) as (A1 & A2 & A3). destruct (IHf2 H2) as (B1 & B2 & B3).
  rewrite A2, A3, B2, B3. auto.
Qed.
Lemma outline_status cf id pass f : outline f -> forall st st' x, exec cf id pass f st = Ok (st', x) -> status st' = status st /\ x = None.
Proof.
  induction f; cbn [outline]; try contradiction; intros O st st' y H; cbn [exec] in H; [injection H as <- <-; auto|].
  destruct O as [O1 O2]. bstep H as q E1. destruct q as [st1 entered]. apply ran_section_enter in E1. destruct entered.
  - bstep H as q E2. destruct q as [st2 x]. apply IHf1 in E2; [|exact O1]. destruct E2 as [E2 ->]. bstep H as st3 E3. apply ran_section_exit in E3.
    apply IHf2 in H; [|exact O2]. destruct H as [H ->]. split; congruence.
  - bstep H as st3 E3. apply ran_section_exit in E3. apply IHf2 in H; [|exact O2]. destruct H as [H ->]. split; congruence.
Qed.

Lemma shape_after_pass st r : shape st = shape r -> shape (set_inf st (after_pass (inf st))) = shape (set_inf r (after_pass (inf r))).
Proof.
  unfold shape. intros [= E1 E2 E3]. cbn. unfold after_pass. rewrite E1. destruct (levels (inf r)) as [|c [|]] eqn:L; cbn; rewrite ?E1, ?L; try congruence.
  destruct (_ =? _); cbn; rewrite ?E1, ?L; congruence.
Qed.

Lemma path_passes cf cf' id p f : outline f -> (forall pass, never_caught pass p) -> (forall pass, snd (flow pass p) = None -> visits pass p f Nil) ->
  forall fuel pass st r R, outermost cf st -> shape st = shape r -> is_skipped (status r) = false -> passes cf' id f fuel pass r = Ok R ->
  passes cf id p fuel pass st <> Err Fuel.
Proof.
  intros OF U G. induction fuel as [|fuel IH]; intros pass st r R O SH SK H; cbn [passes] in *; [discriminate|].
  set (st1 := set_inf st _). set (r1 := set_inf r _) in H.
  assert (SH1 : shape st1 = shape r1) by (unfold shape, st1, r1 in *; cbn; injection SH; intros; congruence).
  assert (LO : looser cf cf) by (constructor; auto).
  assert (O1 : outermost cf st1).
  { destruct O as ((S0 & L & C) & D & L1 & C1). split; [|split; [|split]]; auto. split; [|split]; auto.
    destruct S0 as (A1 & A2 & A3 & A4). unfold safe. cbn. rewrite map_length. auto. }
  destruct (room_exec cf cf LO id pass p st1 (proj1 O1)) as [E|([st2 x] & E & _ & R2)]; rewrite E; cbn [bind fst] in *; [discriminate|].
  destruct x as [e|]; [discriminate|].
  bstep H as q F. destruct q as [r2 y].
  destruct (ends_as cf id pass p _ _ _ E (U pass)) as [X|(y' & Y & _)]; [|discriminate].
  destruct (follows_path cf id cf' pass p _ _ _ _ _ _ _ E (U pass) (G pass (eq_sym X)) SH1 F) as [(y' & Y & _)|(_ & r2' & SH2 & Q)]; [discriminate|].
  cbn [exec] in Q. injection Q as -> <-.
  destruct (outline_status _ _ _ _ OF _ _ _ F) as [S2 _].
  apply shape_after_pass in SH2. set (st3 := set_inf st2 _) in *. set (r3 := set_inf r2 _) in *.
  destruct (negb (length (levels (inf st3)) =? 0) && negb (is_skipped (status st3))) eqn:B; [|discriminate].
  apply andb_true_iff in B. destruct B as [B1 B2].
  assert (SK3 : is_skipped (status r3) = false) by (unfold r3, r1 in *; cbn in *; now rewrite S2).
  assert (LV : levels (inf st3) = levels (inf r3)) by (unfold shape in SH2; now injection SH2).
  rewrite <- LV, B1, SK3 in H. cbn [negb andb] in H.
  apply (IH (S pass) st3 r3 R); auto.
  assert (O2 : outermost cf st2) by (eapply outer_scope; [exact O1|exact R2|]; apply scope_exec in E; exact E).
  destruct O2 as ((S0 & L & C) & D & L1 & C1). destruct S0 as (A1 & A2 & A3 & A4).
  assert (CS : current_section (inf st2) = []) by (apply length_zero_iff_nil; lia).
  unfold st3, after_pass, outermost, room, safe. destruct (levels (inf st2)) as [|c [|]] eqn:LV2; cbn; rewrite ?LV2; cbn; auto 9.
  destruct (prev_id c =? max_id c); cbn; rewrite ?LV2; cbn; repeat split; auto; cbn in A1; lia.
Qed.

Lemma assertion_fuel cf id ok data st : report_assertion cf id ok data st <> Err Fuel.
Proof. unfold report_assertion. destruct (is_skipped _); [discriminate|]. unfold back. destruct (rev _); cbn [bind]; discriminate. Qed.
Lemma assertion2_fuel cf id ok a b st : report_assertion2 cf id ok a b st <> Err Fuel.
Proof. rewrite report_assertion2_eq. apply assertion_fuel. Qed.

Lemma ends_in_try cf fuel id line p f tr0 tags may should :
  id_tags id = tag_string tags -> well_formed (cf_max_tag_length cf) tags -> tagged tags may should ->
  outline f -> (forall pass, never_caught pass p) -> (forall pass, snd (flow pass p) = None -> visits pass p f Nil) ->
  nesting p <= cf_max_nested cf -> scopes p <= S (cf_max_nested cf) -> capturing p <= cf_max_captures cf -> Nat.max 1 (leaves f) <= fuel ->
  exists st, run cf fuel (mktest id line p) tr0 = Ok st.
Proof.
  intros E W T OF U G NE SC CA FU. destruct (limits cf fuel (mktest id line p) tr0 tags may should E W T NE SC CA) as [H|H]; [exfalso|exact H].
  pose proof (flags_of _ _ _ _ _ E W T) as FF.
  destruct (outline_regular f OF) as (RF & CF & SF).
  set (cf' := mkconfig (cf_verbosity cf) (nesting f) (cf_max_captures cf) (cf_max_capture_length cf) (cf_max_message_length cf) (cf_max_tag_length cf)).
  destruct (terminates cf' fuel id line f tr0 tags may should E W T RF ltac:(cbn; lia) ltac:(cbn; lia) ltac:(lia) FU) as [st' F].
  unfold run in F, H. cbn [t_id t_line t_body] in F, H. change (cf_max_tag_length cf') with (cf_max_tag_length cf) in F. rewrite FF in F, H. cbn [bind] in F, H.
  assert (LO : looser cf cf) by (constructor; auto).
  set (st0 := set_status _ _) in H. set (r0 := set_status _ _) in F.
  assert (I0 : inf st0 = mkinfo [] [] 0 false [] []) by (unfold st0; cbn [inf set_status]; apply inf_report).
  assert (H0 : held st0 = None) by (unfold st0; cbn [held set_status]; apply held_report).
  assert (J0 : inf r0 = mkinfo [] [] 0 false [] []) by (unfold r0; cbn [inf set_status]; apply inf_report).
  unfold push_location in F, H. rewrite I0 in H. rewrite J0 in F. cbn [locations] in F, H. rewrite !push_back_ok in F, H by (cbn; lia). cbn [bind app] in F, H.
  bstep F as q P. clear F.
  match type of H with bind (passes cf id p fuel 0 ?s) _ = _ => set (st1 := s) in * end.
  assert (NF : passes cf id p fuel 0 st1 <> Err Fuel).
  { eapply (path_passes cf cf' id p f OF U G fuel 0 st1 _ q); [| | |exact P]; auto.
    unfold st1, outermost, room, safe, held_safe. cbn [inf set_inf held set_status locations captures depth levels current_section with_locations length]. rewrite ?H0.
    repeat split; try lia; try discriminate. }
  destruct (passes cf id p fuel 0 st1) as [[st2 x]|e] eqn:PA; cbn [bind] in H; [|congruence]. clear NF PA.
  match type of H with bind ?m _ = _ => assert (NF : m <> Err Fuel); [|destruct m as [st3|e]; cbn [bind] in H; [|congruence]] end.
  { destruct x as [[|what|]|]; [discriminate|apply assertion2_fuel|apply assertion_fuel|]. pose proof (assertion_fuel cf id true (Message (lit "no exception caught")) (set_in_check st2 true)) as NF.
    destruct (report_assertion _ _ _ _ _); cbn [bind]; congruence. }
  clear NF. set (st5 := set_unhandled _ false) in H.
  match type of H with bind ?m _ = _ => assert (NF : m <> Err Fuel); [|destruct m as [st6|e]; cbn [bind] in H; [|congruence]] end.
  { destruct (should_fail st5); [|discriminate]. match goal with |- bind ?m _ <> _ => pose proof (assertion_fuel cf id _ _ _ : m <> Err Fuel) as NF; destruct m; cbn [bind]; congruence end. }
  unfold convert_to_public_state in H. destruct (status st6); cbn [bind] in H; discriminate.
Qed.

(** ** A test that does the same in every pass, and never ends *)
Definition is_other (x : exn) : bool := match x with OtherExn => true | _ => false end.
(** try { try { SECTION("A") { throw 1; } throw std::exception{}; } catch (int) {} SECTION("B") {} } catch (...) {} *)
Definition stuck : prog :=
  Catch (fun _ => true) true
    (Catch is_other true
       (InSection (sec "A" 1) (Throw (fun _ => true) OtherExn Nil) (Throw (fun _ => true) (StdExn (quote "e")) Nil))
       (InSection (sec "B" 2) Nil Nil)) Nil.

Definition looks_stuck (st : state) : bool :=
  match levels (inf st), held st with
  | [l], None => (prev_id l =? 1) && (max_id l =? 2) && (depth (inf st) =? 0) && negb (is_skipped (status st))
  | _, _ => false
  end.
Definition looks_stuck_after (r : res (state * option exn)) : bool := match r with Ok (st, None) => looks_stuck st | _ => false end.

Lemma stuck_exec cf id pass st : 1 <= cf_max_nested cf -> looks_stuck st = true ->
  looks_stuck_after (exec cf id pass stuck (set_inf st (with_levels (with_leaf_executed (inf st) false) (map reset_level (levels (inf st)))))) = true.
Proof.
  intros M. destruct st as [[cs lv d lf ca lo] h a ma sh ic un ss tr]. unfold looks_stuck at 1. cbn [inf levels held depth status].
  destruct lv as [|[c pr mx] [|]]; try discriminate. destruct h; [discriminate|]. cbn [prev_id max_id].
  rewrite !andb_true_iff, !Nat.eqb_eq. intros [[[-> ->] ->] SK].
  destruct ss; try discriminate; vm_compute; reflexivity.
Qed.

Lemma stuck_first cf id loc a may should tr : 1 <= cf_max_nested cf ->
  looks_stuck_after (exec cf id 0 stuck (mkstate (mkinfo [] [] 0 false [] [loc]) None a may should false false ISuccess tr)) = true.
Proof.
  intros M. destruct cf as [v [|[|m]] mc mcl mml mtl]; cbn [cf_max_nested] in M; [lia| |]; destruct v; vm_compute; reflexivity.
Qed.

Lemma stuck_levels st : looks_stuck st = true -> looks_stuck (set_inf st (after_pass (inf st))) = true /\
  negb (length (levels (inf (set_inf st (after_pass (inf st))))) =? 0) && negb (is_skipped (status (set_inf st (after_pass (inf st))))) = true.
Proof.
  destruct st as [[cs lv d lf ca lo] h a ma sh ic un ss tr]. unfold looks_stuck at 1. cbn [inf levels held depth status].
  destruct lv as [|[c pr mx] [|]]; try discriminate. destruct h; [discriminate|]. cbn [prev_id max_id].
  rewrite !andb_true_iff, !Nat.eqb_eq. intros [[[-> ->] ->] SK]. destruct ss; try discriminate SK; repeat split.
Qed.

Lemma stuck_passes cf id : 1 <= cf_max_nested cf -> forall fuel pass st, looks_stuck st = true -> passes cf id stuck fuel pass st = Err Fuel.
Proof.
  intros M. induction fuel as [|fuel IH]; intros pass st L; [reflexivity|]. cbn [passes]. pose proof (stuck_exec cf id pass st M L) as E.
  destruct (exec _ _ _ _ _) as [[st2 [x|]]|]; cbn [looks_stuck_after] in E; try discriminate. cbn [bind].
  apply stuck_levels in E. destruct E as [E1 E2]. rewrite E2. auto.
Qed.

Lemma stuck_run : exists p, steady p /\ forall cf id line tags may should,
  id_tags id = tag_string tags -> well_formed (cf_max_tag_length cf) tags -> tagged tags may should -> 1 <= cf_max_nested cf ->
  forall fuel tr0, run cf fuel (mktest id line p) tr0 = Err Fuel.
Proof.
  exists stuck. split; [cbn; auto 9|]. intros cf id line tags may should E W T M fuel tr0. pose proof (flags_of _ _ _ _ _ E W T) as FF.
  unfold run. cbn [t_id t_line t_body]. rewrite FF. cbn [bind]. unfold push_location, push_back.
  match goal with |- context [report cf High ?st ?e] => assert (R : exists tr, report cf High st e =
    mkstate (mkinfo [] [] 0 false [] []) None (mkcounts 0 0 0) may should false false INotRun tr) end.
  { unfold report. destruct (vlevel High <=? vlevel (cf_verbosity cf)); eexists; reflexivity. }
  destruct R as [tr R]. rewrite R. cbn [set_status inf locations length].
  replace (0 =? cf_max_nested cf + 2) with false by (symmetry; apply Nat.eqb_neq; lia). cbn [bind app].
  match goal with |- context [passes _ _ stuck _ _ ?s] => change s with (mkstate (mkinfo [] [] 0 false [] [mkloc line TestCaseScope]) None (mkcounts 0 0 0) may should false false ISuccess tr) end.
  assert (P : passes cf id stuck fuel 0 (mkstate (mkinfo [] [] 0 false [] [mkloc line TestCaseScope]) None (mkcounts 0 0 0) may should false false ISuccess tr) = Err Fuel).
  { destruct fuel as [|fuel]; [reflexivity|]. cbn [passes]. unfold set_inf at 1, with_levels, with_leaf_executed.
    cbn [inf levels map held asserts may_fail should_fail in_check unhandled status trace current_section depth captures locations leaf_executed].
    pose proof (stuck_first cf id (mkloc line TestCaseScope) (mkcounts 0 0 0) may should tr M) as S1.
    destruct (exec _ _ _ _ _) as [[st2 [x|]]|]; cbn [looks_stuck_after] in S1; try discriminate. cbn [bind].
    apply stuck_levels in S1. destruct S1 as [E1 E2]. rewrite E2. now apply stuck_passes. }
  now rewrite P.
Qed.

(** ** A test with sections in a try block, and how it is described *)
Definition tried : prog :=
  Catch (fun _ => true) true
    (InSection (sec "A" 1) (Act 1 Nil) (Catch is_other true (InSection (sec "B" 2) (Act 2 Nil) (Throw (fun _ => true) OtherExn (InSection (sec "X" 3) Nil Nil)))
      (InSection (sec "C" 4) (InSection (sec "D" 5) (Act 3 Nil) (InSection (sec "E" 6) (Act 4 Nil) Nil)) Nil))) Nil.
Definition tried_outline : prog :=
  InSection (sec "A" 1) Nil (InSection (sec "B" 2) Nil (InSection (sec "C" 4) (InSection (sec "D" 5) Nil (InSection (sec "E" 6) Nil Nil)) Nil)).
