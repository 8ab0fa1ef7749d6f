(** A failing REQUIRE, FAIL or SKIP stops the test case (C71). *)
From Verif.Spec Require Import TextSpec FilterSpec Events RunSpec VerdictSpec TreeSpec StopSpec.
From Verif.Model Require Import Base Vector StringUtil Filter Run.
From Verif.Proofs Require Import Lists RunProofs InvariantProofs ScopeProofs RunFacts.
From Coq Require Import Lia.

Section Stop.
Variable cf : config.
Variable id : test_id.
Variable L : nat.

Definition quiet (e : event) : Prop := stops L e = false.
Definition ended (e : event) : Prop := match e with SectionEnded _ _ _ => True | _ => False end.

(** Events that stop nothing are added; the events end with one that may stop the test, then ends of sections. *)
Definition goes (st st' : state) : Prop := exists ev, trace st' = trace st ++ ev /\ Forall quiet ev /\ unhandled st' = unhandled st.
Definition halts (st st' : state) : Prop :=
  exists a e b, trace st' = trace st ++ a ++ e :: b /\ Forall quiet a /\ Forall ended b /\ unhandled st' = unhandled st.
Definition stays (st st' : state) : Prop := trace st' = trace st /\ unhandled st' = unhandled st.
Definition ends (st st' : state) : Prop := exists ev, trace st' = trace st ++ ev /\ Forall ended ev /\ unhandled st' = unhandled st.

Lemma stays_goes st st' : stays st st' -> goes st st'.
Proof. intros [E U]. exists []. rewrite app_nil_r. auto. Qed.
Lemma stays_ends st st' : stays st st' -> ends st st'.
Proof. intros [E U]. exists []. rewrite app_nil_r. auto. Qed.
Lemma ends_goes st st' : ends st st' -> goes st st'.
Proof. intros (ev & E & F & U). exists ev. split; auto. split; auto. eapply Forall_impl; [|exact F]. intros []; cbn; tauto || reflexivity. Qed.
Lemma goes_refl st : goes st st.
Proof. apply stays_goes. now split. Qed.
Lemma goes_trans a b c : goes a b -> goes b c -> goes a c.
Proof.
  intros (x & X1 & X2 & X3) (y & Y1 & Y2 & Y3). exists (x ++ y). rewrite Y1, X1, <- app_assoc, Forall_app. repeat split; auto. congruence.
Qed.
Lemma ends_trans a b c : ends a b -> ends b c -> ends a c.
Proof.
  intros (x & X1 & X2 & X3) (y & Y1 & Y2 & Y3). exists (x ++ y). rewrite Y1, X1, <- app_assoc, Forall_app. repeat split; auto. congruence.
Qed.
Lemma goes_halts a b c : goes a b -> halts b c -> halts a c.
Proof.
  intros (x & X1 & X2 & X3) (y & e & z & Y1 & Y2 & Y3 & Y4). exists (x ++ y), e, z. rewrite Y1, X1, <- !app_assoc, Forall_app. repeat split; auto. congruence.
Qed.
Lemma halts_ends a b c : halts a b -> ends b c -> halts a c.
Proof.
  intros (y & e & z & Y1 & Y2 & Y3 & Y4) (x & X1 & X2 & X3). exists y, e, (z ++ x). rewrite X1, Y1, <- !app_assoc, Forall_app. cbn [app]. repeat split; auto. congruence.
Qed.
Lemma halts_stays a b c : halts a b -> stays b c -> halts a c.
Proof. intros H S. eapply halts_ends; eauto using stays_ends. Qed.

Lemma stays_push st l st' : push_location cf st l = Ok st' -> stays st st'.
Proof. unfold push_location. intros H. bstep H as ls E. injection H as <-. now split. Qed.
Lemma stays_pop st st' : pop_location st = Ok st' -> stays st st'.
Proof. unfold pop_location. intros H. bstep H as ls E. injection H as <-. now split. Qed.
Lemma stays_hold u st : stays st (hold u st).
Proof. unfold hold. destruct (held st); [now split|]. destruct u; now split. Qed.
Lemma stays_trans a b c : stays a b -> stays b c -> stays a c.
Proof. intros [] []. split; congruence. Qed.
Lemma stays_check_end u st st' : check_end u st = Ok st' -> stays st st'.
Proof.
  unfold check_end. intros H. apply stays_pop in H. eapply stays_trans; [|exact H]. eapply stays_trans; [|apply stays_hold]. now split.
Qed.
Lemma stays_capture_end u n st st' : capture_end u n st = Ok st' -> stays st st'.
Proof. unfold capture_end. intros H. bstep H as n' E. injection H as <-. apply (stays_hold u). Qed.
Lemma report_goes v st e : quiet e -> goes st (report cf v st e).
Proof. intros Q. unfold report. destruct (_ <=? _); [|apply goes_refl]. exists [e]. auto. Qed.
Lemma ends_ended s st : ends st (report_section_ended cf s st).
Proof. unfold report_section_ended, report. destruct (_ <=? _); [|apply stays_ends; now split]. eexists [_]. split; [reflexivity|]. split; [|reflexivity]. constructor; [exact I|constructor]. Qed.
Lemma ends_close l n : forall st, ends st (close_sections cf l n st).
Proof.
  induction l as [|s l IH]; intros st; cbn [close_sections]; [apply stays_ends; now split|].
  destruct (_ <? _); [|apply stays_ends; now split]. eapply ends_trans; [apply ends_ended|apply IH].
Qed.
Lemma ends_notify st : ends st (notify_exception_handled cf st).
Proof. unfold notify_exception_handled. destruct (held st); [|apply stays_ends; now split]. apply (ends_close (rev (current_section i))). Qed.
Lemma goes_check_begin line st st' : check_begin cf line st = Ok st' -> goes st st'.
Proof.
  unfold check_begin. intros H. bstep H as st2 E. injection H as <-. apply stays_push in E.
  eapply goes_trans; [apply ends_goes, ends_notify|]. apply stays_goes in E. exact E.
Qed.
Lemma goes_section_enter s st st' en : section_enter cf s st = Ok (st', en) -> goes st st'.
Proof.
  unfold section_enter. intros H. eapply goes_trans; [apply ends_goes, ends_notify|]. revert H.
  generalize (notify_exception_handled cf st) as x. intros x H.
  do 3 step H. destruct (leaf_executed _); [injection H as <- <-; apply stays_goes; now split|].
  destruct (_ && _); [injection H as <- <-; apply stays_goes; now split|]. do 3 step H. injection H as <- <-.
  match goal with E : push_location _ _ _ = Ok ?y |- _ => apply stays_push in E; apply stays_goes in E end.
  eapply goes_trans; [|eapply goes_trans; [eassumption|]]; [apply stays_goes; now split|].
  destruct (_ =? _); [|apply goes_refl]. apply report_goes. reflexivity.
Qed.
Lemma goes_section_exit e u st st' : section_exit cf e u st = Ok st' -> goes st st' /\ (u = true -> stays st st').
Proof.
  unfold section_exit. intros H. bstep H as st1 E. bstep H as d D. injection H as <-.
  enough (goes st st1 /\ (u = true -> stays st st1)) by assumption. clear - E. destruct e; [|injection E as <-; split; [apply goes_refl|now split]].
  bstep E as st2 P. apply stays_pop in P. assert (P' : stays st st2) by (eapply stays_trans; [apply (stays_hold u)|exact P]). clear P.
  bstep E as [i2 last] Q. bstep E as st3 E3. bstep E as cs C. injection E as <-.
  enough (goes st st3 /\ (u = true -> stays st st3)) by assumption. destruct (last && negb u) eqn:LU.
  - bstep E3 as sc B. injection E3 as <-. apply andb_prop in LU as [_ U]. split; [|intros ->; discriminate].
    eapply goes_trans; [apply stays_goes, P'|]. apply ends_goes. eapply ends_trans; [|apply ends_ended]. apply stays_ends. now split.
  - injection E3 as <-. assert (stays st (set_inf st2 i2)) by (eapply stays_trans; [exact P'|]; now split). split; auto using stays_goes.
Qed.
Lemma goes_add_captures l : forall st st', add_captures cf l st = Ok st' -> goes st st'.
Proof.
  induction l as [|c l IH]; intros st st' H; cbn [add_captures] in H; [injection H as <-; apply goes_refl|].
  bstep H as x E. apply IH in H. unfold add_capture in E. destruct (_ =? _); [discriminate|].
  bstep E as [c' ?] C. injection E as <-. eapply goes_trans; [apply ends_goes, ends_notify|exact H].
Qed.

(** An assertion inside a check at line [l]. *)
Definition at_line (l : nat) (st : state) : Prop := exists ls ty, locations (inf st) = ls ++ [mkloc l ty].
Lemma back_last {A} (l : list A) x : back (l ++ [x]) = Ok x.
Proof. unfold back. now rewrite rev_app_distr. Qed.

Lemma reported l st (ok : bool) data st' : unhandled st = false -> at_line l st -> report_assertion cf id ok data st = Ok st' ->
  goes st st' \/ ok = false /\ l = L /\ halts st st'.
Proof.
  intros U (ls & ty & LO) H. unfold report_assertion in H. destruct (is_skipped _); [injection H as <-; left; apply goes_refl|]. cbv zeta in H.
  destruct (register_fields ok st) as (R1 & _ & _ & _ & _ & R6 & _). assert (SC := scope_register ok st). unfold scope in SC. injection SC as _ _ S3 _.
  rewrite LO in S3. rewrite <- R6 in U. revert H R1 R6 U S3. generalize (register_assertion ok st) as z. intros z H R1 R6 U S3.
  rewrite U in H. replace (match held z with Some _ => inf z | None => inf z end) with (inf z) in H by now destruct (held z).
  rewrite S3, back_last in H. cbn [bind loc_line] in H. injection H as <-.
  assert (Z : goes st z) by (apply stays_goes; now split).
  destruct ok; [left; eapply goes_trans; [exact Z|]; apply report_goes; reflexivity|].
  match goal with |- context [report cf Quiet z ?e] => set (ev := e) end.
  destruct (Nat.eq_dec l L) as [->|N].
  - right. split; [reflexivity|]. split; [reflexivity|]. eapply goes_halts; [exact Z|]. unfold report. change (vlevel Quiet <=? _) with true. cbn iota.
    exists [], ev, []. cbn. auto.
  - left. eapply goes_trans; [exact Z|]. apply report_goes. unfold quiet, ev, stops. destruct (in_check z); cbn [loc_line]; now apply Nat.eqb_neq.
Qed.
Lemma reported2 l st (ok : bool) a b st' : unhandled st = false -> at_line l st -> report_assertion2 cf id ok a b st = Ok st' ->
  goes st st' \/ ok = false /\ l = L /\ halts st st'.
Proof. rewrite report_assertion2_eq. apply reported. Qed.

Lemma concluded l pass w abort x st st' y : unhandled st = false -> at_line l st -> conclude cf id pass w abort x st = Ok (st', y) ->
  goes st st' \/ l = L /\ halts st st' /\ y = maybe_abort abort.
Proof.
  intros U A H. unfold conclude in H.
  destruct w as [what outcome|type accepts|type accepts matches describe|source]; destruct x as [e|];
    repeat match type of H with
    | Ok _ = Ok _ => injection H as <- <-
    | (if ?c then _ else _) = Ok _ => destruct c
    | bind (match ?e with AbortExn => _ | StdExn _ => _ | OtherExn => _ end) _ = _ => destruct e
    | bind _ _ = Ok _ => step H
    end;
    repeat match goal with
    | E : report_assertion _ _ _ _ _ = Ok _ |- _ => apply (reported l) in E; auto
    | E : report_assertion2 _ _ _ _ _ _ = Ok _ |- _ => apply (reported2 l) in E; auto
    end;
    try match goal with E : _ \/ _ |- _ => destruct E as [E|(B & E1 & E2)] end;
    try discriminate; try rewrite B; auto; try (left; apply goes_refl);
    try (left; eapply goes_trans; [eassumption|apply ends_goes, ends_notify]);
    right; repeat split; auto; eapply halts_ends; eauto using ends_notify.
Qed.

Lemma skipped_at l st m st' : at_line l st -> report_skipped cf id m st = Ok st' -> goes st st' \/ l = L /\ halts st st'.
Proof.
  intros (ls & ty & LO) H. unfold report_skipped in H. cbv zeta in H.
  rewrite (inf_raise st ISkipped), LO, back_last in H. cbn [bind loc_line] in H. injection H as <-.
  assert (Z : goes st (raise_state st ISkipped)) by (apply stays_goes; unfold raise_state; destruct (_ <? _); now split).
  match goal with |- context [report cf Quiet ?z ?e] => set (ev := e) end.
  destruct (Nat.eq_dec l L) as [->|N].
  - right. split; [reflexivity|]. eapply goes_halts; [exact Z|]. unfold report. change (vlevel Quiet <=? _) with true. cbn iota.
    exists [], ev, []. cbn. auto.
  - left. eapply goes_trans; [exact Z|]. apply report_goes. unfold quiet, ev, stops. cbn [loc_line]. now apply Nat.eqb_neq.
Qed.

Lemma begin_at line st st' : check_begin cf line st = Ok st' -> at_line line st'.
Proof. intros H. apply scope_check_begin in H. unfold scope in H. injection H as _ _ H _. unfold at_line. rewrite H. eauto. Qed.
Lemma exec_at l pass p st st' x : exec cf id pass p st = Ok (st', x) -> at_line l st -> at_line l st'.
Proof. intros H (ls & ty & A). apply scope_exec in H. unfold scope in H. injection H as _ _ H _. exists ls, ty. congruence. Qed.

Lemma exec_stop pass p : forall st st' x, unhandled st = false -> exec cf id pass p st = Ok (st', x) ->
  (absent L p -> goes st st') /\ (stopping L p -> goes st st' \/ x = Some AbortExn /\ halts st st').
Proof.
  assert (UN : forall a b, goes a b -> unhandled a = false -> unhandled b = false) by (intros a b (? & _ & _ & ->); auto).
  induction p as [|n k IHp|when y k IHp|line w abort e IHe k IHp|line message abort k IHp|sec b IHp1 k IHp2|texts b IHp1 k IHp2|accepts notify b IHp1 k IHp2];
    intros st st' x U H; cbn [exec absent stopping] in *.
  - injection H as <- <-. split; auto using goes_refl.
  - assert (G : goes st (report cf Quiet st (User n))) by (apply report_goes; reflexivity).
    destruct (IHp _ _ _ (UN _ _ G U) H) as [A B]. split; intros K; [eauto using goes_trans|].
    destruct (B K) as [B'|[B1 B2]]; eauto using goes_trans, goes_halts.
  - destruct (when pass); [injection H as <- <-; split; auto using goes_refl|auto].
  - bstep H as st1 E1. pose proof (begin_at _ _ _ E1) as AT1. apply goes_check_begin in E1. pose proof (UN _ _ E1 U) as U1.
    bstep H as [st2 z] E2. pose proof (exec_at _ _ _ _ _ _ E2 AT1) as AT2. destruct (IHe _ _ _ U1 E2) as [IA IB]. clear IHe E2.
    bstep H as [st3 y] E3. bstep H as st4 E4. apply stays_check_end in E4.
    assert (S1 : goes st1 st2 -> (goes st st4 /\ (y <> None \/ unhandled st4 = false) \/ line = L /\ halts st st4 /\ y = maybe_abort abort)).
    { intros G2. destruct (concluded line pass w abort z st2 st3 y (UN _ _ G2 U1) AT2 E3) as [G3|(C1 & C2 & C3)].
      - left. assert (G4 : goes st st4) by eauto using goes_trans, stays_goes. split; [exact G4|]. right. eauto.
      - right. split; auto. split; auto. eapply halts_stays; [|exact E4]. eapply goes_halts; [exact E1|]. eapply goes_halts; [exact G2|exact C2]. }
    assert (S2 : goes st st4 -> match y with Some _ => True | None => unhandled st4 = false end) by (destruct y; eauto).
    split.
    + intros (N & A1 & A2). destruct (S1 (IA A1)) as [[G _]|(C & _)]; [|contradiction].
      destruct y; [injection H as <- <-; exact G|]. destruct (IHp _ _ _ (S2 G) H) as [KA _]. eauto using goes_trans.
    + intros (N & A1 & A2).
      assert (G : goes st1 st2 \/ (exists m o, w = IsTrue m o) /\ z = Some AbortExn /\ halts st1 st2).
      { destruct w; auto. destruct (IB A1) as [G|[G1 G2]]; auto. right. eauto. }
      destruct G as [G|((m & o & ->) & -> & G)].
      * destruct (S1 G) as [[G4 _]|(C1 & C2 & C3)].
        -- destruct y; [injection H as <- <-; auto|]. destruct (IHp _ _ _ (S2 G4) H) as [_ KB].
           destruct (KB A2) as [K|[K1 K2]]; eauto using goes_trans, goes_halts.
        -- rewrite (N C1) in C3. cbn in C3. subst y. injection H as <- <-. auto.
      * cbn [conclude] in E3. injection E3 as <- <-. injection H as <- <-. right. split; [reflexivity|].
        eapply halts_stays; [|exact E4]. eapply goes_halts; eauto.
  - bstep H as st1 E1. pose proof (begin_at _ _ _ E1) as AT1. apply goes_check_begin in E1.
    bstep H as st2 E2. bstep H as st3 E3. apply stays_check_end in E3.
    assert (S1 : goes st st3 \/ line = L /\ halts st st3).
    { destruct (skipped_at _ _ _ _ AT1 E2) as [G|[C G]]; [left; eauto using goes_trans, stays_goes|].
      right. split; auto. eapply halts_stays; [|exact E3]. eapply goes_halts; eauto. }
    split.
    + intros [N A]. destruct S1 as [G|[C _]]; [|contradiction]. destruct abort; [injection H as <- <-; exact G|].
      destruct (IHp _ _ _ (UN _ _ G U) H) as [KA _]. eauto using goes_trans.
    + intros [N A]. destruct S1 as [G|[C G]].
      * destruct abort; [injection H as <- <-; auto|]. destruct (IHp _ _ _ (UN _ _ G U) H) as [_ KB].
        destruct (KB A) as [K|[K1 K2]]; eauto using goes_trans, goes_halts.
      * rewrite (N C) in H. injection H as <- <-. auto.
  - bstep H as [st1 entered] E1. apply goes_section_enter in E1. destruct entered.
    + bstep H as [st2 z] E2. destruct (IHp1 _ _ _ (UN _ _ E1 U) E2) as [IA IB]. bstep H as st3 E3. apply goes_section_exit in E3 as [E3 E3'].
      assert (S1 : goes st1 st2 -> goes st st3) by eauto using goes_trans.
      split.
      * intros [A1 A2]. specialize (S1 (IA A1)). destruct z; [injection H as <- <-; exact S1|].
        destruct (IHp2 _ _ _ (UN _ _ S1 U) H) as [KA _]. eauto using goes_trans.
      * intros [A1 A2]. destruct (IB A1) as [G|[-> G]].
        -- specialize (S1 G). destruct z; [injection H as <- <-; auto|]. destruct (IHp2 _ _ _ (UN _ _ S1 U) H) as [_ KB].
           destruct (KB A2) as [K|[K1 K2]]; eauto using goes_trans, goes_halts.
        -- injection H as <- <-. right. split; auto. eapply halts_stays; [|exact (E3' eq_refl)]. eapply goes_halts; eauto.
    + bstep H as st3 E3. apply goes_section_exit in E3 as [E3 _]. assert (S1 : goes st st3) by eauto using goes_trans.
      destruct (IHp2 _ _ _ (UN _ _ S1 U) H) as [KA KB]. split; [intros [A1 A2]; eauto using goes_trans|].
      intros [A1 A2]. destruct (KB A2) as [K|[K1 K2]]; eauto using goes_trans, goes_halts.
  - bstep H as st1 E1. apply goes_add_captures in E1. bstep H as [st2 z] E2. destruct (IHp1 _ _ _ (UN _ _ E1 U) E2) as [IA IB].
    bstep H as st3 E3. apply stays_capture_end in E3.
    assert (S1 : goes st1 st2 -> goes st st3) by eauto using goes_trans, stays_goes.
    split.
    + intros [A1 A2]. specialize (S1 (IA A1)). destruct z; [injection H as <- <-; exact S1|].
      destruct (IHp2 _ _ _ (UN _ _ S1 U) H) as [KA _]. eauto using goes_trans.
    + intros [A1 A2]. destruct (IB A1) as [G|[-> G]].
      * specialize (S1 G). destruct z; [injection H as <- <-; auto|]. destruct (IHp2 _ _ _ (UN _ _ S1 U) H) as [_ KB].
        destruct (KB A2) as [K|[K1 K2]]; eauto using goes_trans, goes_halts.
      * injection H as <- <-. right. split; auto. eapply halts_stays; [|exact E3]. eapply goes_halts; eauto.
  - bstep H as [st1 z] E1. destruct (IHp1 _ _ _ U E1) as [IA IB].
    assert (S1 : forall st2, goes st st1 -> goes st1 st2 -> exec cf id pass k st2 = Ok (st', x) ->
      (absent L k -> goes st st') /\ (stopping L k -> goes st st' \/ x = Some AbortExn /\ halts st st')).
    { intros st2 G1 G2 E. assert (G : goes st st2) by eauto using goes_trans. destruct (IHp2 _ _ _ (UN _ _ G U) E) as [KA KB].
      split; [eauto using goes_trans|]. intros A. destruct (KB A) as [K|[K1 K2]]; eauto using goes_trans, goes_halts. }
    assert (S2 : goes st st1 -> (absent L k -> goes st st') /\ (stopping L k -> goes st st' \/ x = Some AbortExn /\ halts st st')).
    { intros G. destruct z as [y|]; [|apply (S1 st1); auto using goes_refl]. destruct (accepts y); [|injection H as <- <-; auto].
      eapply S1; [exact G| |exact H]. destruct notify; [apply ends_goes, ends_notify|apply goes_refl]. }
    split; [intros [A1 A2]; now apply S2; auto|]. intros [[A1|[A0 A1]] A2].
    + apply S2; auto.
    + destruct (IB A1) as [G|[-> G]]; [apply S2; auto|]. rewrite A0 in H. injection H as <- <-. auto.
Qed.

Lemma passes_stop p : stopping L p -> forall fuel pass st st' x, unhandled st = false -> passes cf id p fuel pass st = Ok (st', x) ->
  goes st st' \/ x = Some AbortExn /\ halts st st'.
Proof.
  intros S. induction fuel as [|fuel IH]; intros pass st st' x U H; cbn [passes] in H; [discriminate|].
  bstep H as [st2 y] E. apply exec_stop in E; [|exact U]. destruct E as [_ E]. specialize (E S).
  destruct y as [y|]; [injection H as <- <-; exact E|]. destruct E as [E|[E _]]; [|discriminate].
  cbv zeta in H. match type of H with context [after_pass ?i] => set (st3 := set_inf st2 (after_pass i)) in * end.
  assert (G : goes st st3) by exact E. destruct (_ && _); [|injection H as <- <-; auto].
  assert (U3 : unhandled st3 = false) by (destruct G as (? & _ & _ & ->); exact U).
  destruct (IH _ _ _ _ U3 H) as [K|[K1 K2]]; eauto using goes_trans, goes_halts.
Qed.
End Stop.

(** The whole test case. *)
Definition stopped (L : nat) (should : bool) (ev : list event) : Prop :=
  forall earlier e later, ev = earlier ++ e :: later -> stops L e = true -> Forall (aftermath should) later.

Lemma stopped_quiet L should a b : Forall (quiet L) a -> stopped L should b -> stopped L should (a ++ b).
Proof.
  intros Q S earlier e later E K. apply app_eq_app in E. destruct E as (l & [[E1 E2]|[E1 E2]]).
  - subst a. apply Forall_app in Q as [_ Q]. destruct l as [|y l]; cbn [app] in E2.
    + apply (S [] e later); auto.
    + injection E2 as <- _. inversion Q as [|? ? Q1 _]; subst. unfold quiet in Q1. congruence.
  - apply (S l e later); auto.
Qed.
Lemma stopped_cons L should e b : Forall (aftermath should) b -> stopped L should (e :: b).
Proof.
  intros F earlier x later E _. destruct earlier as [|y earlier]; injection E as _ E; subst; [exact F|].
  apply Forall_app in F as [_ F]. inversion F; auto.
Qed.
Lemma stopped_after L should b : Forall (aftermath should) b -> stopped L should b.
Proof. destruct b as [|e b]; intros F; [intros [] ? ? E; discriminate|]. apply stopped_cons. now inversion F. Qed.

Lemma ended_after should b : Forall ended b -> Forall (aftermath (ID := test_id) should) b.
Proof. apply Forall_impl. intros []; cbn; tauto. Qed.

Lemma one_report cf id (ok : bool) data st st' : report_assertion cf id ok data st = Ok st' ->
  exists ev, trace st' = trace st ++ ev /\ (ev = [] \/ exists s c l a b, ev = [if ok then AssertionSucceeded id s c l data else AssertionFailed id s c l data a b]) /\
    unhandled st' = unhandled st /\ should_fail st' = should_fail st.
Proof.
  intros H. unfold report_assertion in H. destruct (is_skipped _); [injection H as <-; exists []; rewrite app_nil_r; auto|]. cbv zeta in H.
  destruct (register_fields ok st) as (R1 & _ & _ & R4 & _ & R6 & _). revert H R1 R4 R6. generalize (register_assertion ok st) as z. intros z H R1 R4 R6.
  bstep H as l E. injection H as <-.
  match goal with |- context [Quiet] => idtac end.
  set (i := match held z with Some h => if unhandled z then h else inf z | None => inf z end) in *.
  assert (X : forall v e, e = (if ok then AssertionSucceeded id (map sd_id (current_section i)) (captures i) (if in_check z then mkloc (loc_line l) Exact else l) data
      else AssertionFailed id (map sd_id (current_section i)) (captures i) (if in_check z then mkloc (loc_line l) Exact else l) data (should_fail z) (may_fail z)) ->
    exists ev, trace (report cf v z e) = trace st ++ ev /\ (ev = [] \/ exists s c l a b, ev = [if ok then AssertionSucceeded id s c l data else AssertionFailed id s c l data a b]) /\
    unhandled (report cf v z e) = unhandled st /\ should_fail (report cf v z e) = should_fail st).
  { intros v e ->. unfold report. destruct (_ <=? _); cbn [trace unhandled should_fail]; rewrite ?R1.
    - eexists [_]. split; [reflexivity|]. split; [right; do 5 eexists; reflexivity|auto].
    - exists []. rewrite app_nil_r. auto. }
  destruct ok; apply X; reflexivity.
Qed.

Theorem run_stops cf fuel id line p tr0 tags may should st L :
  cf_verbosity cf = Full -> id_tags id = tag_string tags -> well_formed (cf_max_tag_length cf) tags -> tagged tags may should ->
  stopping L p -> run cf fuel (mktest id line p) tr0 = Ok st ->
  exists events, trace st = tr0 ++ events /\ stopped L should events.
Proof.
  intros V E W T S R. pose proof (flags_of _ _ _ _ _ E W T) as FF.
  unfold run in R. cbn [t_id t_line t_body] in R. rewrite FF in R. cbn [bind] in R. rewrite (report_full _ V) in R.
  cbn [trace app] in R. bstep R as st1 E1. bstep R as [st2 x] E2.
  set (tr := tr0 ++ [TestCaseStarted id line]) in *.
  assert (I1 : inv id may should tr st1).
  { eapply inv_push; [|exact E1]. exists []. cbn. rewrite app_nil_r. repeat split; auto. intros a e b Q. now destruct a. }
  pose proof (inv_passes cf V id may should tr p fuel 0 st1 (st2, x) I1 E2) as I2. cbn [fst] in I2.
  assert (SF : should_fail st2 = should) by (destruct I2 as (? & I2); apply I2).
  assert (T1 : trace st1 = tr /\ unhandled st1 = false).
  { unfold push_location in E1. bstep E1 as ls Q. injection E1 as <-. split; reflexivity. }
  destruct T1 as [T1 U1]. apply (passes_stop cf id L p S) in E2; [|exact U1].
  bstep R as st3 E3. cbv zeta in R.
  (* what follows st3 *)
  assert (REST : exists ev, trace st = trace st3 ++ ev /\ Forall (aftermath should) ev).
  { assert (SF3 : should_fail st3 = should).
    { destruct x as [[|what|]|].
      - injection E3 as <-. exact SF.
      - rewrite report_assertion2_eq in E3. apply one_report in E3. destruct E3 as (_ & _ & _ & _ & ->). exact SF.
      - apply one_report in E3. destruct E3 as (_ & _ & _ & _ & ->). exact SF.
      - bstep E3 as y E4. injection E3 as <-. apply one_report in E4. destruct E4 as (_ & _ & _ & _ & X). exact (eq_trans X SF). }
    set (st4 := if unhandled st3 then _ else _) in *.
    assert (G4 : exists ev, trace st4 = trace st3 ++ ev /\ Forall ended ev /\ should_fail st4 = should).
    { unfold st4. destruct (unhandled st3); [|exists []; rewrite app_nil_r; auto].
      destruct (ends_notify cf st3) as (ev & X1 & X2 & _). exists ev. repeat split; auto. rewrite <- SF3.
      unfold notify_exception_handled. destruct (held st3); [|reflexivity]. cbn [should_fail set_held]. clear.
      generalize (rev (current_section i)) as l, (length (current_section (inf st3))) as n. intros l n. revert st3.
      induction l as [|s l IH]; intros st3; cbn [close_sections]; auto. destruct (_ <? _); auto. rewrite IH. unfold report_section_ended, report. now destruct (_ <=? _). }
    destruct G4 as (e4 & G1 & G2 & G3). bstep R as st6 E6. bstep R as cs E7. injection R as <-.
    assert (G6 : exists ev, trace st6 = trace st4 ++ ev /\ Forall (aftermath should) ev).
    { cbn [should_fail set_unhandled] in E6. rewrite G3 in E6. destruct should; [|injection E6 as <-; exists []; rewrite app_nil_r; auto].
      bstep E6 as y E8. injection E6 as <-. apply one_report in E8. destruct E8 as (ev & X1 & X2 & _). exists ev. split; [exact X1|].
      destruct X2 as [->|(s & c & l & a & b & ->)]; [constructor|]. constructor; [|constructor].
      match goal with |- context [if ?c then _ else _] => destruct c end; cbn; auto. }
    destruct G6 as (e6 & H1 & H2). rewrite (report_full _ V). cbn [trace]. rewrite H1, G1.
    exists (e4 ++ e6 ++ [TestCaseEnded id line (asserts st6) cs]). rewrite <- !app_assoc. split; [reflexivity|].
    rewrite !Forall_app. split; [now apply ended_after|]. split; [exact H2|]. constructor; [exact I|constructor]. }
  destruct REST as (e9 & REST & AF).
  destruct E2 as [(ev & G1 & G2 & G3)|[-> (a & e & b & G1 & G2 & G3 & _)]].
  - assert (X : exists e3, trace st3 = trace st2 ++ e3 /\ (Forall (quiet L) e3 \/ length e3 = 1)).
    { destruct x as [[|what|]|].
      - injection E3 as <-. exists []. rewrite app_nil_r. cbn. auto.
      - rewrite report_assertion2_eq in E3. apply one_report in E3. destruct E3 as (e3 & X1 & X2 & _). exists e3. split; [exact X1|].
        destruct X2 as [->|(? & ? & ? & ? & ? & ->)]; auto.
      - apply one_report in E3. destruct E3 as (e3 & X1 & X2 & _). exists e3. split; [exact X1|].
        destruct X2 as [->|(? & ? & ? & ? & ? & ->)]; auto.
      - bstep E3 as y E4. injection E3 as <-. apply one_report in E4. destruct E4 as (e3 & X1 & X2 & _). exists e3. split; [exact X1|].
        left. destruct X2 as [->|(? & ? & ? & ? & ? & ->)]; [constructor|]. constructor; [reflexivity|constructor]. }
    destruct X as (e3 & X1 & X2). exists ([TestCaseStarted id line] ++ ev ++ e3 ++ e9).
    split; [rewrite REST, X1, G1, T1; unfold tr; rewrite <- !app_assoc; reflexivity|].
    apply stopped_quiet; [constructor; [reflexivity|constructor]|]. apply stopped_quiet; [exact G2|].
    destruct X2 as [X2|X2]; [apply stopped_quiet; [exact X2|now apply stopped_after]|].
    destruct e3 as [|y [|z e3]]; try discriminate X2. cbn [app]. now apply stopped_cons.
  - injection E3 as <-. cbn [trace set_unhandled] in REST. exists ([TestCaseStarted id line] ++ a ++ e :: b ++ e9).
    split; [rewrite REST, G1, T1; unfold tr; rewrite <- !app_assoc; reflexivity|].
    apply stopped_quiet; [constructor; [reflexivity|constructor]|]. apply stopped_quiet; [exact G2|].
    apply stopped_cons, Forall_app. split; [now apply ended_after|exact AF].
Qed.

(** ** Witnesses *)

(** CHECK_NOTHROW(f()) where [f] contains a failing REQUIRE: the test goes on. *)
Definition swallowed : prog :=
  Check 1 (DoesNotThrow (quote "f()")) false
    (Check 2 (IsTrue (fun _ => Message []) (fun _ => false)) true Nil Nil) (Act 7 Nil).
Lemma swallowed_goes_on :
  shown (run small 5 (mktest plain_id 0 swallowed) []) =
    Some ([TestCaseStarted plain_id 0; AssertionFailed plain_id [] [] (mkloc 2 Exact) (Message []) false false;
           AssertionFailed plain_id [] [] (mkloc 1 InCheck) (Message (quote "expected f() not to throw but it threw an unknown exception")) false false;
           User 7; AssertionSucceeded plain_id [] [] (mkloc 0 Exact) (Message (quote "no exception caught"));
           TestCaseEnded plain_id 0 (mkcounts 3 2 0) Failed], IFailed).
Proof. vm_compute. reflexivity. Qed.

Lemma swallowed_refuted :
  exists p st line cap w e k earlier x later,
    stands cap 0 p (Check line w true e k) [] [] /\ run small 5 (mktest plain_id 0 p) [] = Ok st /\
    trace st = earlier ++ x :: later /\ stops line x = true /\ In (User 7) later.
Proof.
  exists swallowed. destruct (run small 5 (mktest plain_id 0 swallowed) []) as [st|] eqn:E; [|vm_compute in E; discriminate].
  pose proof swallowed_goes_on as S. rewrite E in S. cbn [shown] in S. injection S as S _.
  exists st, 2, 0, (IsTrue (fun _ => Message []) (fun _ => false)), Nil, Nil, [TestCaseStarted plain_id 0]. do 2 eexists.
  split; [apply at_checked, at_here|]. split; [reflexivity|]. split; [rewrite S; reflexivity|]. split; [reflexivity|]. cbn. auto.
Qed.
