(** Durations (C75). *)
From Coq Require Import ZArith Sorted Lia.
From Verif.Spec Require Import TextSpec Events TimeSpec.
From Verif.Model Require Import Base Vector StringUtil Filter Run Session Timed.
From Verif.Proofs Require Import Lists RunProofs InvariantProofs ScopeProofs.
Local Open Scope nat_scope.

(** ** What the operations do to the sections *)
Definition hnames (st : state) : option (list section_id) := option_map (fun h => map sd_id (current_section h)) (held st).
Definition gone (ev : list event) : list section_id :=
  flat_map (fun e => match e with SectionEnded s _ _ => [s] | _ => [] end) ev.
Definition inner (e : event) : Prop :=
  match e with
  | TestCaseStarted _ _ | TestCaseEnded _ _ _ _ | TestRunStarted _ _ | TestRunEnded _ _ _ _ _ _ _ _ => False
  | _ => True
  end.

Definition still (st st' : state) : Prop := exists ev,
  trace st' = trace st ++ ev /\ Forall inner ev /\ names st' = names st /\ gone ev = [] /\ hnames st' = hnames st.
Definition calm (st st' : state) : Prop := exists ev,
  trace st' = trace st ++ ev /\ Forall inner ev /\ names st' = names st /\
  match hnames st, hnames st' with
  | None, None => gone ev = []
  | None, Some h' => gone ev = [] /\ h' = names st
  | Some h, Some h' => gone ev = [] /\ h' = h
  | Some h, None => gone ev = [] \/ gone ev = rev (skipn (length (names st)) h)
  end.

Lemma gone_app a b : gone (a ++ b) = gone a ++ gone b.
Proof. apply flat_map_app. Qed.

Lemma still_same st st' : trace st' = trace st -> names st' = names st -> hnames st' = hnames st -> still st st'.
Proof. intros A B C. exists []. rewrite app_nil_r. auto. Qed.
Lemma still_refl st : still st st.
Proof. now apply still_same. Qed.
Lemma still_calm st st' : still st st' -> calm st st'.
Proof.
  intros (ev & A & B & C & D & E). exists ev. rewrite E. destruct (hnames st); auto.
Qed.
Lemma still_trans a b c : still a b -> still b c -> still a c.
Proof.
  intros (x & A & B & C & D & E) (y & A' & B' & C' & D' & E'). exists (x ++ y).
  rewrite A', A, gone_app, D, D', <- app_assoc, Forall_app. repeat split; auto; congruence.
Qed.
Lemma still_then a b c : still a b -> calm b c -> calm a c.
Proof.
  intros (x & A & B & C & D & E) (y & A' & B' & C' & D'). exists (x ++ y).
  rewrite A', A, gone_app, D, <- app_assoc, Forall_app, <- E. cbn [app]. rewrite C in *. repeat split; auto; congruence.
Qed.
Lemma calm_then a b c : calm a b -> still b c -> calm a c.
Proof.
  intros (x & A & B & C & D) (y & A' & B' & C' & D' & E'). exists (x ++ y).
  rewrite A', A, gone_app, D', E', app_nil_r, <- app_assoc, Forall_app. repeat split; auto; congruence.
Qed.
Lemma calm_trans a b c : calm a b -> hnames b = None -> calm b c -> hnames c = None -> calm a c.
Proof.
  intros (x & A & B & C & D) Hb (y & A' & B' & C' & D') Hc. exists (x ++ y).
  rewrite Hb in *. rewrite Hc in *. rewrite A', A, gone_app, D', app_nil_r, <- app_assoc, Forall_app. repeat split; auto; congruence.
Qed.

Section Operations.
Variable cf : config.
Variable id : test_id.

Lemma hnames_report v st e : hnames (report cf v st e) = hnames st.
Proof. unfold report, hnames. now destruct (_ <=? _). Qed.
Lemma still_report v st e : inner e -> gone [e] = [] -> still st (report cf v st e).
Proof.
  intros I G. unfold still, names. rewrite inf_report, hnames_report. unfold report. destruct (_ <=? _); cbn [trace].
  - exists [e]. auto.
  - exists []. rewrite app_nil_r. auto.
Qed.

Lemma still_raise st s : still st (raise_state st s).
Proof. unfold raise_state. destruct (_ <? _); now apply still_same. Qed.
Lemma still_register ok st : still st (register_assertion ok st).
Proof.
  apply still_same.
  - exact (proj1 (register_fields ok st)).
  - apply (scope_eq _ _ (scope_register ok st)).
  - unfold register_assertion. cbn [held set_inf set_asserts].
    assert (X : forall s x, hnames (raise_state x s) = hnames x) by (intros; unfold raise_state; now destruct (_ <? _)).
    unfold hnames in *. destruct ok; [|destruct (_ || _)]; cbn [count]; destruct (held st) eqn:E; rewrite ?X; cbn [held set_inf set_asserts set_held option_map]; rewrite ?E; cbn; rewrite ?map_count; reflexivity.
Qed.

Lemma still_assertion ok data st st' : report_assertion cf id ok data st = Ok st' -> still st st'.
Proof.
  unfold report_assertion. intros H. destruct (is_skipped _); [injection H as <-; apply still_refl|]. bstep H as l E. injection H as <-.
  eapply still_trans; [apply still_register|]. destruct ok; now apply still_report.
Qed.
Lemma still_assertion2 ok a b st st' : report_assertion2 cf id ok a b st = Ok st' -> still st st'.
Proof. rewrite report_assertion2_eq. apply still_assertion. Qed.
Lemma still_skipped m st st' : report_skipped cf id m st = Ok st' -> still st st'.
Proof.
  unfold report_skipped. intros H. bstep H as l E. injection H as <-. eapply still_trans; [apply still_raise|]. now apply still_report.
Qed.
Lemma still_push l st st' : push_location cf st l = Ok st' -> still st st'.
Proof. unfold push_location. intros H. bstep H as ls E. injection H as <-. now apply still_same. Qed.
Lemma still_pop st st' : pop_location st = Ok st' -> still st st'.
Proof. unfold pop_location. intros H. bstep H as ls E. injection H as <-. now apply still_same. Qed.

Lemma close_gone l n : forall st, exists ev, trace (close_sections cf l n st) = trace st ++ ev /\ Forall inner ev /\
  (gone ev = [] \/ gone ev = map sd_id (firstn (length l - n) l)).
Proof.
  induction l as [|s l IH]; intros st; cbn [close_sections].
  - exists []. rewrite app_nil_r. auto.
  - destruct (Nat.ltb_spec n (length (s :: l))) as [Q|Q].
    + destruct (IH (report_section_ended cf s st)) as (ev & A & B & C). rewrite A. unfold report_section_ended, report.
      cbn [length] in *. replace (S (length l) - n) with (S (length l - n)) by lia. cbn [firstn map].
      destruct (_ <=? _) eqn:V; cbn [trace].
      * exists (SectionEnded (sd_id s) (is_skipped (status st)) (sd_counts s) :: ev). rewrite <- app_assoc. cbn [app]. split; [reflexivity|].
        split; [now constructor|]. right. cbn [gone flat_map app]. fold (gone ev). f_equal. destruct C as [C|C]; [|exact C].
        (* all sections are reported if one is *)
        assert (X : forall l st, vlevel High <=? vlevel (cf_verbosity cf) = true -> exists ev, trace (close_sections cf l n st) = trace st ++ ev /\
           gone ev = map sd_id (firstn (length l - n) l)).
        { clear - id. induction l as [|s l IH]; intros st V; cbn [close_sections].
          - exists []. rewrite app_nil_r. auto.
          - destruct (Nat.ltb_spec n (length (s :: l))) as [Q|Q].
            + destruct (IH (report_section_ended cf s st) V) as (ev & A & B). rewrite A. unfold report_section_ended, report. rewrite V. cbn [trace].
              exists (SectionEnded (sd_id s) (is_skipped (status st)) (sd_counts s) :: ev). rewrite <- app_assoc. split; [reflexivity|].
              cbn [gone flat_map app]. fold (gone ev). rewrite B. cbn [length] in *. replace (S (length l) - n) with (S (length l - n)) by lia. reflexivity.
            + exists []. rewrite app_nil_r. split; auto. cbn [length] in *. now replace (S (length l) - n) with 0 by lia. }
        destruct (X l (report_section_ended cf s st) V) as (ev' & A' & B'). rewrite A in A'. apply app_inv_head in A'. subst ev'. exact B'.
      * exists ev. repeat split; auto. left.
        assert (X : forall l st, vlevel High <=? vlevel (cf_verbosity cf) = false -> trace (close_sections cf l n st) = trace st).
        { clear. induction l as [|s l IH]; intros st V; cbn [close_sections]; auto. destruct (_ <? _); auto. rewrite IH; auto.
          unfold report_section_ended, report. now rewrite V. }
        rewrite (X _ _ V) in A. rewrite <- (app_nil_r (trace _)) in A at 1. apply app_inv_head in A. now subst ev.
    + exists []. rewrite app_nil_r. auto.
Qed.

Lemma calm_notify st : calm st (notify_exception_handled cf st).
Proof.
  unfold notify_exception_handled. destruct (held st) as [h|] eqn:E; [|apply still_calm, still_refl].
  destruct (close_gone (rev (current_section h)) (length (current_section (inf st))) st) as (ev & A & B & C).
  exists ev. cbn [trace set_held]. split; [exact A|]. split; [exact B|].
  unfold names, hnames. cbn [inf held set_held option_map]. rewrite inf_close, E. split; [reflexivity|]. cbn [option_map].
  destruct C as [C|C]; auto. right. rewrite C, map_length, rev_length, firstn_rev, map_rev.
  f_equal. rewrite skipn_map. f_equal.
  destruct (Nat.le_gt_cases (length (current_section (inf st))) (length (current_section h))) as [Q|Q]; [f_equal; lia|].
  rewrite !skipn_all2 by lia. reflexivity.
Qed.
Lemma calm_hold u st : calm st (hold u st).
Proof.
  unfold hold. destruct (held st) eqn:E; [apply still_calm, still_refl|]. destruct u; [|apply still_calm, still_refl].
  exists []. unfold hnames, names. cbn. rewrite app_nil_r, E. cbn. auto.
Qed.
Lemma notified st : hnames (notify_exception_handled cf st) = None.
Proof. unfold notify_exception_handled, hnames. destruct (held st) eqn:E; cbn; now rewrite ?E. Qed.

Lemma calm_check_begin line st st' : check_begin cf line st = Ok st' -> calm st st'.
Proof.
  unfold check_begin. intros H. bstep H as x E. injection H as <-. eapply calm_then; [apply calm_notify|].
  eapply still_trans; [eapply still_push; exact E|]. now apply still_same.
Qed.
Lemma calm_check_end u st st' : check_end u st = Ok st' -> calm st st'.
Proof.
  unfold check_end. intros H. apply still_pop in H. eapply calm_then; [|exact H]. eapply still_then; [|apply calm_hold]. now apply still_same.
Qed.
Lemma calm_conclude pass w abort x st r : conclude cf id pass w abort x st = Ok r -> calm st (fst r).
Proof.
  intros H. unfold conclude in H.
  destruct w as [what outcome|type accepts|type accepts matches describe|source]; destruct x as [e|];
    repeat match type of H with
    | Ok _ = Ok _ => injection H as <-; cbn [fst]
    | (if ?c then _ else _) = Ok _ => destruct c
    | bind (match ?e with AbortExn => _ | StdExn _ => _ | OtherExn => _ end) _ = _ => destruct e
    | bind _ _ = Ok _ => step H
    end;
    repeat match goal with
    | E : report_assertion _ _ _ _ _ = Ok _ |- _ => apply still_assertion in E
    | E : report_assertion2 _ _ _ _ _ _ = Ok _ |- _ => apply still_assertion2 in E
    end; try (now apply still_calm); try (eapply still_then; [eassumption|apply calm_notify]); apply still_calm, still_refl.
Qed.
Lemma calm_add_captures l : forall st st', add_captures cf l st = Ok st' -> calm st st'.
Proof.
  assert (X : forall c st st', add_capture cf c st = Ok st' -> calm st st' /\ hnames st' = None).
  { intros c st st' E. unfold add_capture in E. destruct (_ =? _); [discriminate|]. bstep E as [m z] Q. injection E as <-. split.
    - eapply calm_then; [apply calm_notify|]. now apply still_same.
    - apply notified. }
  assert (Y : forall l st st', add_captures cf l st = Ok st' -> hnames st = None -> calm st st' /\ hnames st' = None).
  { induction l0 as [|c l0 IH]; intros st st' H N; cbn [add_captures] in H.
    - injection H as <-. split; auto. apply still_calm, still_refl.
    - bstep H as x E. apply X in E. destruct E as [E F]. destruct (IH _ _ H F). split; auto. eapply calm_trans; eauto. }
  intros st st' H. destruct l as [|c l]; cbn [add_captures] in H.
  - injection H as <-. apply still_calm, still_refl.
  - bstep H as x E. apply X in E. destruct E as [E F]. destruct (Y _ _ _ H F). eapply calm_trans; eauto.
Qed.
Lemma calm_capture_end u n st st' : capture_end u n st = Ok st' -> calm st st'.
Proof.
  unfold capture_end. intros H. bstep H as sz E. injection H as <-. eapply calm_then; [apply calm_hold|]. now apply still_same.
Qed.

Lemma enter_effect s st st' entered : section_enter cf s st = Ok (st', entered) -> held st = None ->
  held st' = None /\ names st' = (if entered then names st ++ [s] else names st) /\
  exists ev, trace st' = trace st ++ ev /\ Forall inner ev /\ gone ev = [].
Proof.
  intros H N. pose proof (scope_section_enter cf s st st' entered H) as SC. split; [|split].
  2: { destruct entered; injection SC as SC _ _ _; exact SC. }
  all: unfold section_enter in H; rewrite notify_none in H by auto; bstep H as lv E1; bstep H as lev E2; bstep H as lv1 E3;
  (destruct (leaf_executed _); [injection H as <- <-; cbn; try exact N; exists []; rewrite app_nil_r; now auto|]);
  (destruct (_ && _); [injection H as <- <-; cbn; try exact N; exists []; rewrite app_nil_r; now auto|]);
  bstep H as lv2 E4; bstep H as cs E5; bstep H as x E6; injection H as <- <-.
  - unfold push_location in E6. bstep E6 as ls E7. injection E6 as <-. unfold report_section_started, report.
    repeat match goal with |- context [if ?c then _ else _] => destruct c end; exact N.
  - unfold push_location in E6. bstep E6 as ls E7. injection E6 as <-. unfold report_section_started, report.
    repeat match goal with |- context [if ?c then _ else _] => destruct c end; cbn [trace set_inf];
      first [exists [SectionStarted s]; split; [reflexivity|]; split; [now repeat constructor|reflexivity]
            |exists []; rewrite app_nil_r; now auto].
Qed.

Lemma exit_idle u st st' : section_exit cf false u st = Ok st' -> still st st'.
Proof. unfold section_exit. cbn [bind]. intros H. bstep H as d E. injection H as <-. now apply still_same. Qed.

Lemma exit_effect u st st' n s : section_exit cf true u st = Ok st' -> names st = n ++ [s] ->
  names st' = n /\ hnames st' = (match hnames st with Some h => Some h | None => if u then Some (names st) else None end) /\
  (trace st' = trace st \/ exists sk c, trace st' = trace st ++ [SectionEnded s sk c]).
Proof.
  unfold section_exit. intros H N. bstep H as st1 P. bstep H as d' D. injection H as <-.
  bstep P as st2 P2. bstep P as [i2 last] Q. bstep P as st3 P3. bstep P as cs C. injection P as <-.
  assert (T2 : trace st2 = trace st /\ names st2 = n ++ [s] /\ held st2 = held (hold u st)).
  { unfold pop_location in P2. bstep P2 as ls X. injection P2 as <-. unfold names in *. cbn. rewrite inf_hold. split; [|auto].
    unfold hold. destruct (held st); auto. now destruct u. }
  destruct T2 as (T2 & N2 & H2).
  assert (I2 : map sd_id (current_section i2) = n ++ [s]).
  { unfold names in N2. destruct (_ =? _); [injection Q as <- <-; exact N2|]. destruct (forallb _ _); [|injection Q as <- <-; exact N2].
    bstep Q as lv L. injection Q as <- <-. exact N2. }
  assert (I3 : names st3 = n ++ [s] /\ held st3 = held st2 /\ (trace st3 = trace st \/ exists sk c, trace st3 = trace st ++ [SectionEnded s sk c])).
  { destruct (last && negb u); [|injection P3 as <-; unfold names; cbn; auto]. bstep P3 as sc B. injection P3 as <-.
    unfold names, report_section_ended. rewrite inf_report. cbn [inf set_inf]. split; [exact I2|].
    assert (sd_id sc = s).
    { cbn [inf set_inf] in B. unfold back in B. rewrite <- (rev_involutive (current_section i2)), map_rev in I2.
      destruct (rev (current_section i2)) as [|y l]; [discriminate|]. injection B as ->. cbn [map rev] in I2. apply app_inj_tail in I2. apply I2. }
    unfold report. destruct (_ <=? _); cbn [trace held set_inf]; rewrite ?T2; [|auto]. rewrite <- H. eauto. }
  destruct I3 as (N3 & H3 & T3). apply pop_back_app in C. destruct C as [y C].
  unfold names in N3. rewrite C, map_app in N3. cbn [map] in N3. apply app_inj_tail in N3.
  split; [apply N3|]. split; [|exact T3]. unfold hnames. cbn [held set_inf]. rewrite H3, H2. unfold hold, names.
  destruct (held st) as [h|] eqn:HS; [now rewrite HS|]. destruct u; [reflexivity|now rewrite HS].
Qed.
End Operations.

(** ** Histories *)
Lemma open_app {ID} (a b : history ID) : open_blocks (a ++ b) =
  fold_left (fun l x => match snd x with Entered s => l ++ [(s, fst x)] | Left _ => removelast l | Reported _ _ => l end) b (open_blocks a).
Proof. unfold open_blocks. apply fold_left_app. Qed.
Lemma open_reported {ID} (a : history ID) t e d : open_blocks (a ++ [(t, Reported e d)]) = open_blocks a.
Proof. now rewrite open_app. Qed.
Lemma open_entered {ID} (a : history ID) t s : open_blocks (a ++ [(t, Entered s)]) = open_blocks a ++ [(s, t)].
Proof. now rewrite open_app. Qed.
Lemma open_left {ID} (a : history ID) t s : open_blocks (a ++ [(t, Left s)]) = removelast (open_blocks a).
Proof. now rewrite open_app. Qed.
Lemma open_stamp (a : history test_id) t B ev : open_blocks (a ++ stamp t B ev) = open_blocks a.
Proof.
  revert a B; induction ev as [|e ev IH]; intros a B; cbn [stamp]; [now rewrite app_nil_r|].
  assert (X : forall d B', open_blocks (a ++ (t, Reported e d) :: stamp t B' ev) = open_blocks a).
  { intros d B'. change ((t, Reported e d) :: stamp t B' ev) with ([(t, Reported e d)] ++ stamp t B' ev).
    now rewrite app_assoc, IH, open_reported. }
  destruct e; try apply X. destruct B; apply X.
Qed.
Lemma reports_app {ID} (a b : history ID) : reports (a ++ b) = reports a ++ reports b.
Proof. apply flat_map_app. Qed.
Lemma reports_stamp t ev : forall B, reports (stamp t B ev) = ev.
Proof.
  induction ev as [|e ev IH]; intros B; cbn [stamp]; auto.
  assert (X : forall d B', reports ((t, Reported e d) :: stamp t B' ev) = e :: ev) by (intros; cbn [reports flat_map snd app]; f_equal; apply IH).
  destruct e; try apply X. destruct B; apply X.
Qed.
Lemma stamp_times t ev : forall B, Forall (fun x => fst x = t) (stamp t B ev).
Proof. induction ev as [|e ev IH]; intros B; cbn [stamp]; auto. destruct e; try (constructor; auto; fail). destruct B; constructor; auto. Qed.

Definition end_ok {ID} (a : history ID) (t : Z) (s : section_id) (d : option Z) (b : history ID) : Prop :=
  exists t0, d = Some (t - t0)%Z /\
    ((exists l b', open_blocks a = l ++ [(s, t0)] /\ b = (t, Left s) :: b') \/ left_before a s t0).
Definition ends_ok {ID} (h : history ID) : Prop :=
  forall a t s k c d b, h = a ++ (t, Reported (SectionEnded s k c) d) :: b -> end_ok a t s d b.

Lemma split_last {A} (h : list A) y a x b : h ++ [y] = a ++ x :: b ->
  (exists b', b = b' ++ [y] /\ h = a ++ x :: b') \/ (b = [] /\ x = y /\ h = a).
Proof.
  destruct b as [|z b] using rev_ind; intros H.
  - apply app_inj_tail in H. destruct H. auto.
  - left. change (a ++ x :: b ++ [z]) with (a ++ (x :: b) ++ [z]) in H. rewrite app_assoc in H. apply app_inj_tail in H.
    destruct H as [-> ->]. eauto.
Qed.

Lemma end_ok_app {ID} (a : history ID) t s d b c : end_ok a t s d b -> end_ok a t s d (b ++ c).
Proof. intros (t0 & D & [(l & b' & E & ->)|L]); exists t0; split; auto. left. exists l, (b' ++ c). auto. Qed.

Lemma ends_ok_snoc {ID} (h : history ID) t x : ends_ok h ->
  (match x with Reported (SectionEnded s k c) d => end_ok h t s d [] | _ => True end) -> ends_ok (h ++ [(t, x)]).
Proof.
  intros H X a t' s k c d b E. apply split_last in E. destruct E as [(b' & -> & E)|(-> & E & ->)].
  - apply end_ok_app. eapply H; eauto.
  - injection E as -> <-. exact X.
Qed.

Lemma left_before_reported {ID} (h : history ID) t e d s t0 : left_before h s t0 -> left_before (h ++ [(t, Reported e d)]) s t0.
Proof.
  intros (a1 & a2 & l0 & l2 & -> & E). exists a1, (a2 ++ [(t, Reported e d)]), l0, l2. split; [now rewrite app_assoc|].
  now rewrite open_reported.
Qed.

Lemma stamp_ok t ev : forall (h : history test_id) B, ends_ok h -> length (gone ev) <= length B ->
  (forall s t0, In (s, t0) (List.combine (gone ev) B) -> left_before h s t0) -> ends_ok (h ++ stamp t B ev).
Proof.
  induction ev as [|e ev IH]; intros h B H L C; cbn [stamp]; [now rewrite app_nil_r|].
  assert (X : forall d B', (match e with SectionEnded s _ _ => end_ok h t s d [] | _ => True end) ->
    length (gone ev) <= length B' -> (forall s t0, In (s, t0) (List.combine (gone ev) B') -> left_before h s t0) ->
    ends_ok (h ++ (t, Reported e d) :: stamp t B' ev)).
  { intros d B' D L' C'. change ((t, Reported e d) :: stamp t B' ev) with ([(t, Reported e d)] ++ stamp t B' ev). rewrite app_assoc.
    apply IH; auto. { apply ends_ok_snoc; auto. } intros s t0 I. apply left_before_reported. auto. }
  destruct e; try (apply X; [exact I|exact L|exact C]). destruct B as [|b B]; [cbn in L; lia|].
  apply X; [|cbn [gone flat_map app length] in L; fold (gone ev) in L; lia|intros s' t0 I; apply C; now right].
  exists b. split; auto. right. apply C. now left.
Qed.

Lemma combine_skipn {A B} n : forall (a : list A) (b : list B), List.combine (skipn n a) (skipn n b) = skipn n (List.combine a b).
Proof.
  induction n; intros a b; auto. destruct a as [|x a]; [reflexivity|]. destruct b as [|y b]; [now rewrite skipn_nil; destruct (skipn (S n) (x :: a))|]. apply IHn.
Qed.
Lemma combine_snoc {A B} (a : list A) (b : list B) x y : length a = length b -> List.combine (a ++ [x]) (b ++ [y]) = List.combine a b ++ [(x, y)].
Proof. revert b; induction a as [|z a IH]; intros [|w b] L; try discriminate; auto. cbn. f_equal. apply IH. now injection L. Qed.
Lemma combine_rev {A B} (a : list A) : forall (b : list B), length a = length b -> List.combine (rev a) (rev b) = rev (List.combine a b).
Proof.
  induction a as [|x a IH]; intros [|y b] L; try discriminate; auto. cbn [rev combine]. injection L as L.
  rewrite combine_snoc by (now rewrite !rev_length). now rewrite IH.
Qed.

(** ** The invariant *)
Section Clock.
Variable clock : nat -> Z.

Record good (ts : timed) : Prop := {
  g_reports : reports (log ts) = trace (base ts);
  g_length : length (starts ts) = length (names (base ts));
  g_open : open_blocks (log ts) = List.combine (names (base ts)) (starts ts);
  g_held : match hnames (base ts) with
           | None => True
           | Some h => length (held_starts ts) = length h /\ exists a c rest, log ts = a ++ c /\
               open_blocks a = List.combine h (held_starts ts) /\ List.combine h (held_starts ts) = open_blocks (log ts) ++ rest
           end;
  g_ends : ends_ok (log ts)
}.

Lemma firstn_snoc {A} (l : list A) x n : n = length l -> firstn n (l ++ [x]) = l.
Proof. intros ->. now rewrite firstn_app, firstn_all, Nat.sub_diag, firstn_O, app_nil_r. Qed.

Lemma hnames_held st : (held st = None <-> hnames st = None).
Proof. unfold hnames. destruct (held st); cbn; split; congruence. Qed.

Lemma good_calm ts st : calm (base ts) st -> good ts -> good (steps_to clock st ts).
Proof.
  intros (ev & T & I & N & C) [G1 G2 G3 G4 G5]. unfold steps_to, step. cbn [map app]. rewrite app_nil_r, T, skipn_app, skipn_all, Nat.sub_diag.
  cbn [skipn app]. set (t := clock (instant ts)).
  assert (S : firstn (length (current_section (inf st))) (starts ts ++ [t]) = starts ts).
  { apply firstn_snoc. rewrite G2, <- N. unfold names. now rewrite map_length. }
  assert (O : open_blocks (log ts ++ stamp t (closing ts) ev) = open_blocks (log ts)) by apply open_stamp.
  constructor; cbn [log base starts held_starts]; rewrite ?S, ?N; auto.
  - now rewrite reports_app, reports_stamp, G1, T.
  - now rewrite O.
  - rewrite O. destruct (held st) as [h'|] eqn:E'; destruct (held (base ts)) as [h|] eqn:E; unfold hnames in *; rewrite ?E, ?E' in *; cbn [option_map] in *; auto.
    + destruct C as [C ->]. destruct G4 as (L & a & c & rest & X & Y & Z). split; auto.
      exists a, (c ++ stamp t (closing ts) ev), rest. rewrite X, app_assoc. rewrite <- X. auto.
    + destruct C as [C ->]. split; auto. exists (log ts), (stamp t (closing ts) ev), []. rewrite app_nil_r. auto.
  - apply stamp_ok; auto.
    + destruct (hnames (base ts)) as [h|] eqn:E; destruct (hnames st) as [h'|] eqn:E'; try (rewrite (proj1 C); cbn; lia).
      2: rewrite C; cbn; lia. destruct C as [C|C]; rewrite C; [cbn; lia|]. unfold closing. rewrite !rev_length, !skipn_length.
      destruct G4 as (L & _). unfold names. rewrite L, map_length. lia.
    + destruct (hnames (base ts)) as [h|] eqn:E; destruct (hnames st) as [h'|] eqn:E'; try (rewrite (proj1 C); cbn; tauto).
      2: rewrite C; cbn; tauto. destruct C as [C|C]; rewrite C; [cbn; tauto|]. intros s t0. unfold closing.
      destruct G4 as (L & a & c & rest & X & Y & Z).
      replace (length (current_section (inf (base ts)))) with (length (names (base ts))) by (unfold names; apply map_length).
      rewrite combine_rev by (rewrite !skipn_length; lia). rewrite <- in_rev, combine_skipn, Z. intros Q.
      rewrite skipn_app in Q. replace (length (names (base ts)) - length (open_blocks (log ts))) with 0 in Q.
      2: { rewrite G3, combine_length. lia. }
      rewrite skipn_all2 in Q by (rewrite G3, combine_length; lia). cbn [skipn app] in Q.
      apply in_split in Q. destruct Q as (l0 & l2 & Q). exists a, c, l0, l2. split; auto. now rewrite Y, Z, Q.
Qed.

Lemma good_enter cf s ts ts' entered : timed_section_enter clock cf s ts = Ok (ts', entered) -> good ts ->
  good ts' /\ names (base ts') = (if entered then names (base ts) ++ [s] else names (base ts)).
Proof.
  unfold timed_section_enter. intros H G. set (ts1 := steps_to clock _ ts) in *.
  assert (G' : good ts1) by (apply good_calm; auto; apply calm_notify).
  assert (N1 : held (base ts1) = None). { apply hnames_held. apply notified. }
  assert (M1 : names (base ts1) = names (base ts)). { unfold names. cbn [ts1 base steps_to step]. now rewrite inf_notify. }
  clearbody ts1. clear G. bstep H as [st b] E. injection H as <- <-.
  destruct (enter_effect _ _ _ _ _ E N1) as (HN & NN & ev & T & I & GE). rewrite M1 in NN. cbn [base step]. split; [|destruct b; auto].
  destruct G' as [G1 G2 G3 G4 G5]. set (t := clock (instant ts1)). unfold step. fold t.
  rewrite T, skipn_app, skipn_all, Nat.sub_diag. cbn [skipn app map]. rewrite app_nil_r, HN.
  assert (X : forall first, (first = [Entered s] /\ b = true \/ first = [] /\ b = false) -> 
    good (mktimed (S (instant ts1)) st (firstn (length (current_section (inf st))) (starts ts1 ++ [t])) []
            (log ts1 ++ map (pair t) first ++ stamp t [] ev))).
  2: { apply X. destruct b; auto. }
  intros first F. constructor; cbn [log base starts held_starts].
  - rewrite !reports_app, reports_stamp, G1, T. destruct F as [[-> _]|[-> _]]; reflexivity.
  - replace (length (current_section (inf st))) with (length (names st)) by (unfold names; apply map_length).
    rewrite firstn_length, app_length, G2, NN, M1. destruct F as [[-> ->]|[-> ->]]; rewrite ?app_length; cbn [length]; lia.
  - replace (length (current_section (inf st))) with (length (names st)) by (unfold names; apply map_length).
    destruct F as [[-> ->]|[-> ->]]; cbn [map app]; rewrite NN.
    + change ((t, Entered s) :: stamp t [] ev) with ([(t, Entered s)] ++ stamp t [] ev). rewrite app_assoc, open_stamp, open_entered, G3, M1.
      rewrite firstn_all2 by (rewrite !app_length, G2, M1; cbn [length]; lia). symmetry. apply combine_snoc. now rewrite G2, M1.
    + rewrite open_stamp, G3, M1. f_equal. symmetry. apply firstn_snoc. now rewrite G2, M1.
  - unfold hnames. now rewrite HN.
  - rewrite app_assoc. apply stamp_ok; [|rewrite GE; cbn; lia|rewrite GE; cbn; tauto].
    destruct F as [[-> _]|[-> _]]; cbn [map]; rewrite ?app_nil_r; auto. now apply ends_ok_snoc.
Qed.

Lemma good_exit_idle cf s u ts ts' : timed_section_exit clock cf s false u ts = Ok ts' -> good ts -> good ts'.
Proof.
  unfold timed_section_exit. intros H G. bstep H as st E. injection H as <-. apply exit_idle in E.
  destruct E as (ev & T & I & N & GE & HN). destruct G as [G1 G2 G3 G4 G5]. unfold step. set (t := clock (instant ts)).
  rewrite T, skipn_app, skipn_all, Nat.sub_diag. cbn [skipn app map]. rewrite app_nil_r.
  assert (S : firstn (length (current_section (inf st))) (starts ts ++ [t]) = starts ts).
  { apply firstn_snoc. rewrite G2, <- N. unfold names. now rewrite map_length. }
  assert (O : open_blocks (log ts ++ stamp t (rev (starts ts)) ev) = open_blocks (log ts)) by apply open_stamp.
  constructor; cbn [log base starts held_starts]; rewrite ?S, ?N, ?O; auto.
  - now rewrite reports_app, reports_stamp, G1, T.
  - rewrite HN. destruct (hnames (base ts)) as [h|] eqn:Q; auto.
    destruct (held st) as [h'|] eqn:E'; [|unfold hnames in *; rewrite E' in HN; discriminate].
    destruct (held (base ts)) as [h''|] eqn:E''; [|unfold hnames in *; rewrite E'' in Q; discriminate].
    destruct G4 as (L & a & c & rest & X & Y & Z). split; auto. exists a, (c ++ stamp t (rev (starts ts)) ev), rest. rewrite X, app_assoc. rewrite <- X. auto.
  - apply stamp_ok; auto; rewrite GE; cbn; tauto || lia.
Qed.

Lemma good_exit cf s u ts ts' n : timed_section_exit clock cf s true u ts = Ok ts' -> names (base ts) = n ++ [s] -> good ts ->
  good ts' /\ names (base ts') = n.
Proof.
  unfold timed_section_exit. intros H N G. bstep H as st E. injection H as <-.
  destruct (exit_effect _ _ _ _ _ _ E N) as (N' & HN & T). cbn [base step]. split; auto.
  destruct G as [G1 G2 G3 G4 G5]. set (t := clock (instant ts)).
  destruct (starts ts) as [|t0 ss _] eqn:SS using rev_ind; [rewrite N, app_length in G2; cbn in G2; lia|]. rewrite N, !app_length in G2. cbn [length] in G2.
  assert (L : length ss = length n) by lia. rewrite N, combine_snoc in G3 by auto.
  unfold step. fold t. rewrite SS, rev_app_distr. cbn [rev app map].
  set (new := skipn (length (trace (base ts))) (trace st)).
  assert (NEW : trace st = trace (base ts) ++ new /\ (new = [] \/ exists sk c, new = [SectionEnded s sk c])).
  { unfold new. destruct T as [->|(sk & c & ->)]; [rewrite skipn_all, app_nil_r; auto|]. rewrite skipn_app, skipn_all, Nat.sub_diag. cbn [skipn app]. eauto 6. }
  clearbody new. clear T. destruct NEW as [T NEW].
  assert (S : firstn (length (current_section (inf st))) ((ss ++ [t0]) ++ [t]) = ss).
  { replace (length (current_section (inf st))) with (length ss) by (rewrite L, <- N'; unfold names; now rewrite map_length).
    rewrite <- app_assoc, firstn_app, firstn_all, Nat.sub_diag. cbn [firstn]. apply app_nil_r. }
  assert (O : open_blocks (log ts ++ stamp t (t0 :: rev ss) new ++ [(t, Left s)]) = List.combine n ss).
  { rewrite app_assoc, open_left, open_stamp, G3, removelast_last. reflexivity. }
  assert (K : ends_ok (log ts ++ stamp t (t0 :: rev ss) new ++ [(t, Left s)])).
  { destruct NEW as [->|(sk & c & ->)]; cbn [stamp app]; [now apply ends_ok_snoc|].
    change [(t, Reported (SectionEnded s sk c) (Some (t - t0)%Z)); (t, Left s)] with
      ([(t, Reported (SectionEnded s sk c) (Some (t - t0)%Z))] ++ [(t, @Left test_id s)]).
    intros a t' s' k' c' d b Q. rewrite app_assoc in Q. apply split_last in Q. destruct Q as [(b' & -> & Q)|(_ & Q & _)]; [|discriminate].
    apply split_last in Q. destruct Q as [(b'' & -> & Q)|(-> & Q & QA)]; [|subst a].
    - rewrite <- app_assoc. apply end_ok_app. eapply G5; eauto.
    - injection Q as -> -> -> -> ->. exists t0. split; auto. left. exists (List.combine n ss), []. auto. }
  constructor; cbn [log base starts held_starts]; rewrite ?S, ?N', ?O; auto.
  - rewrite !reports_app, reports_stamp, G1, T. cbn. now rewrite app_nil_r.
  - rewrite HN. destruct (hnames (base ts)) as [h|] eqn:Q.
    + destruct (held st) as [h'|] eqn:E'; [|unfold hnames in *; rewrite E' in HN; discriminate].
      destruct (held (base ts)) as [h''|] eqn:E''; [|unfold hnames in *; rewrite E'' in Q; discriminate].
      destruct G4 as (L' & a & c & rest & X & Y & Z). split; auto. rewrite X. exists a, (c ++ stamp t (t0 :: rev ss) new ++ [(t, Left s)]), ((s, t0) :: rest).
      split; [now rewrite <- !app_assoc|]. split; auto. rewrite Z, G3, <- app_assoc. reflexivity.
    + destruct u; auto.
      destruct (held st) as [h'|] eqn:E'; [|unfold hnames in *; rewrite E' in HN; discriminate].
      destruct (held (base ts)) as [h''|] eqn:E''; [unfold hnames in *; rewrite E'' in Q; discriminate|].
      rewrite N. split; [rewrite !app_length; cbn; lia|]. exists (log ts), (stamp t (t0 :: rev ss) new ++ [(t, Left s)]), [(s, t0)].
      split; auto. rewrite combine_snoc by auto. auto.
Qed.

(** ** Erasure of times *)
Definition erases {A} (f : timed * A -> state * A) (m : res (timed * A)) (n : res (state * A)) : Prop :=
  n = match m with Ok r => Ok (f r) | Err e => Err e end.
Definition plain_of {A} (r : timed * A) : state * A := (base (fst r), snd r).

Lemma notify_twice cf st : notify_exception_handled cf (notify_exception_handled cf st) = notify_exception_handled cf st.
Proof. apply notify_none. apply hnames_held, notified. Qed.
Lemma enter_notified cf s st : section_enter cf s (notify_exception_handled cf st) = section_enter cf s st.
Proof. unfold section_enter. now rewrite notify_twice. Qed.

Lemma erase_enter cf s ts : erases plain_of (timed_section_enter clock cf s ts) (section_enter cf s (base ts)).
Proof.
  unfold erases, timed_section_enter. cbn [base steps_to step]. rewrite enter_notified.
  destruct (section_enter cf s (base ts)) as [[st b]|e]; reflexivity.
Qed.
Lemma erase_exit cf s e u ts : section_exit cf e u (base ts) =
  match timed_section_exit clock cf s e u ts with Ok ts' => Ok (base ts') | Err x => Err x end.
Proof. unfold timed_section_exit. destruct (section_exit cf e u (base ts)); reflexivity. Qed.

Lemma erase_exec cf id pass p : forall ts, erases plain_of (timed_exec clock cf id pass p ts) (exec cf id pass p (base ts)).
Proof.
  unfold erases.
  induction p as [|n k IHp|when y k IHp|line w abort e IHe k IHp|line message abort k IHp|sec b IHp1 k IHp2|texts b IHp1 k IHp2|accepts notify b IHp1 k IHp2];
    intros ts; cbn [exec timed_exec].
  - reflexivity.
  - apply (IHp (steps_to clock (report cf Quiet (base ts) (User n)) ts)).
  - destruct (when pass); [reflexivity|apply IHp].
  - destruct (check_begin cf line (base ts)) as [st1|]; cbn [bind]; [|reflexivity].
    specialize (IHe (steps_to clock st1 ts)). cbn [base steps_to step] in IHe. rewrite IHe. clear IHe.
    destruct (timed_exec clock cf id pass e (steps_to clock st1 ts)) as [[ts2 x]|]; cbn [bind plain_of fst snd]; [|reflexivity].
    destruct (conclude cf id pass w abort x (base ts2)) as [[st3 z]|]; cbn [bind base steps_to step]; [|reflexivity].
    destruct (check_end (is_some z) st3) as [st4|]; cbn [bind]; [|reflexivity]. destruct z; [reflexivity|]. apply (IHp (steps_to clock st4 (steps_to clock st3 ts2))).
  - destruct (check_begin cf line (base ts)) as [st1|]; cbn [bind base steps_to step]; [|reflexivity].
    destruct (report_skipped cf id (message pass) st1) as [st2|]; cbn [bind base steps_to step]; [|reflexivity].
    destruct (check_end abort st2) as [st3|]; cbn [bind]; [|reflexivity]. destruct abort; [reflexivity|].
    apply (IHp (steps_to clock st3 (steps_to clock st2 (steps_to clock st1 ts)))).
  - rewrite erase_enter. destruct (timed_section_enter clock cf sec ts) as [[ts1 entered]|]; cbn [bind plain_of fst snd]; [|reflexivity].
    destruct entered.
    + rewrite IHp1. destruct (timed_exec clock cf id pass b ts1) as [[ts2 x]|]; cbn [bind plain_of fst snd]; [|reflexivity].
      rewrite (erase_exit cf sec). destruct (timed_section_exit clock cf sec true (is_some x) ts2) as [ts3|]; cbn [bind]; [|reflexivity].
      destruct x; [reflexivity|apply IHp2].
    + rewrite (erase_exit cf sec). destruct (timed_section_exit clock cf sec false false ts1) as [ts3|]; cbn [bind]; [|reflexivity]. apply IHp2.
  - destruct (add_captures cf (map (fun l => l pass) texts) (base ts)) as [st1|]; cbn [bind]; [|reflexivity].
    specialize (IHp1 (steps_to clock st1 ts)). cbn [base steps_to step] in IHp1. rewrite IHp1. clear IHp1.
    destruct (timed_exec clock cf id pass b (steps_to clock st1 ts)) as [[ts2 x]|]; cbn [bind plain_of fst snd]; [|reflexivity].
    destruct (capture_end (is_some x) (length texts) (base ts2)) as [st3|]; cbn [bind]; [|reflexivity].
    destruct x; [reflexivity|]. apply (IHp2 (steps_to clock st3 ts2)).
  - rewrite IHp1. destruct (timed_exec clock cf id pass b ts) as [[ts1 x]|]; cbn [bind plain_of fst snd]; [|reflexivity].
    destruct x as [e|]; [|apply IHp2]. destruct (accepts e); [|reflexivity]. destruct notify; [|apply IHp2].
    apply (IHp2 (steps_to clock (notify_exception_handled cf (base ts1)) ts1)).
Qed.

Lemma erase_passes cf id p : forall fuel pass ts, erases plain_of (timed_passes clock cf id p fuel pass ts) (passes cf id p fuel pass (base ts)).
Proof.
  unfold erases. induction fuel as [|fuel IH]; intros pass ts; cbn [passes timed_passes]; [reflexivity|].
  set (st1 := set_inf (base ts) _). pose proof (erase_exec cf id pass p (steps_to clock st1 ts)) as E. unfold erases in E. cbn [base steps_to step] in E. rewrite E. clear E.
  destruct (timed_exec clock cf id pass p (steps_to clock st1 ts)) as [[ts2 x]|]; cbn [bind plain_of fst snd]; [|reflexivity].
  destruct x; [reflexivity|]. cbn [base steps_to step]. destruct (_ && _); [|reflexivity]. apply (IH (S pass) (steps_to clock _ ts2)).
Qed.

Lemma erase_run cf fuel t tr n before : run cf fuel t tr =
  match timed_run clock cf fuel t tr n before with Ok ts => Ok (base ts) | Err e => Err e end.
Proof.
  unfold run, timed_run. destruct (fail_flags _ _) as [[may should]|]; cbn [bind base steps_to step]; [|reflexivity].
  destruct (push_location cf _ _) as [st1|]; cbn [bind]; [|reflexivity].
  match goal with |- context [timed_passes clock cf ?i ?b fuel 0 ?x] => pose proof (erase_passes cf i b fuel 0 x) as E; destruct (timed_passes clock cf i b fuel 0 x) as [[ts2 x2]|] end;
    unfold erases in E; cbn [base steps_to step] in E; rewrite E; clear E; cbn [bind plain_of fst snd]; [|reflexivity].
  destruct (match x2 with Some AbortExn => _ | _ => _ end) as [st3|]; cbn [bind base steps_to step]; [|reflexivity].
  destruct (if should_fail _ then _ else _) as [st6|]; cbn [bind]; [|reflexivity].
  destruct (convert_to_public_state _); reflexivity.
Qed.

(** ** The invariant holds *)
Lemma erased_exec cf id pass p ts ts' x : timed_exec clock cf id pass p ts = Ok (ts', x) -> names (base ts') = names (base ts).
Proof.
  intros H. pose proof (erase_exec cf id pass p ts) as E. unfold erases in E. rewrite H in E. cbn in E. apply scope_exec in E. apply (scope_eq _ _ E).
Qed.

Lemma good_exec cf id pass p : forall ts ts' x, timed_exec clock cf id pass p ts = Ok (ts', x) -> good ts -> good ts'.
Proof.
  induction p as [|n k IHp|when y k IHp|line w abort e IHe k IHp|line message abort k IHp|sec b IHp1 k IHp2|texts b IHp1 k IHp2|accepts notify b IHp1 k IHp2];
    intros ts ts' x' H G; cbn [timed_exec] in H.
  - now injection H as <- <-.
  - eapply IHp; [exact H|]. apply good_calm; auto. apply still_calm. now apply still_report.
  - destruct (when pass); [now injection H as <- <-|eauto].
  - bstep H as st1 E1. apply calm_check_begin in E1. bstep H as [ts2 x] E2. apply IHe in E2; [|now apply good_calm].
    bstep H as [st3 z] E3. apply calm_conclude in E3. bstep H as st4 E4. apply calm_check_end in E4.
    pose proof (good_calm _ _ E4 (good_calm _ _ E3 E2)). destruct z; [now injection H as <- <-|eauto].
  - bstep H as st1 E1. apply calm_check_begin in E1. bstep H as st2 E2. apply still_skipped, still_calm in E2.
    bstep H as st3 E3. apply calm_check_end in E3. pose proof (good_calm _ _ E3 (good_calm _ _ E2 (good_calm _ _ E1 G))).
    destruct abort; [now injection H as <- <-|eauto].
  - bstep H as [ts1 entered] E1. apply good_enter in E1; auto. destruct E1 as [G1 N1]. destruct entered.
    + bstep H as [ts2 x] E2. pose proof (erased_exec _ _ _ _ _ _ _ E2) as N2. rewrite N1 in N2. apply IHp1 in E2; auto.
      bstep H as ts3 E3. eapply good_exit in E3; eauto. destruct E3 as [G3 _]. destruct x; [now injection H as <- <-|eauto].
    + bstep H as ts3 E3. apply good_exit_idle in E3; eauto.
  - bstep H as st1 E1. apply calm_add_captures in E1. bstep H as [ts2 x] E2. apply IHp1 in E2; [|now apply good_calm].
    bstep H as st3 E3. apply calm_capture_end in E3. pose proof (good_calm _ _ E3 E2). destruct x; [now injection H as <- <-|eauto].
  - bstep H as [ts1 x] E1. apply IHp1 in E1; auto. destruct x as [e|]; [|eauto]. destruct (accepts e); [|now injection H as <- <-].
    eapply IHp2; [exact H|]. destruct notify; auto. apply good_calm; auto. apply calm_notify.
Qed.

Lemma good_passes cf id p : forall fuel pass ts ts' x, timed_passes clock cf id p fuel pass ts = Ok (ts', x) -> names (base ts) = [] -> good ts ->
  good ts' /\ names (base ts') = [].
Proof.
  induction fuel as [|fuel IH]; intros pass ts ts' x H N G; cbn [timed_passes] in H; [discriminate|].
  set (ts1 := steps_to clock _ ts) in H. assert (G1 : good ts1) by (apply good_calm; auto; now apply still_calm, still_same).
  assert (N1 : names (base ts1) = []) by exact N. clearbody ts1.
  bstep H as [ts2 y] E. pose proof (erased_exec _ _ _ _ _ _ _ E) as N2. rewrite N1 in N2. apply good_exec in E; auto.
  destruct y; [injection H as <- <-; auto|]. set (ts3 := steps_to clock _ ts2) in H.
  assert (N3 : names (base ts3) = []).
  { cbn. unfold names, after_pass in *. cbn [inf set_inf]. destruct (levels (inf (base ts2))) as [|c [|]]; auto. now destruct (_ =? _). }
  assert (G3 : good ts3). { apply good_calm; auto. apply still_calm. apply still_same; auto. now rewrite N2. }
  clearbody ts3. destruct (_ && _); [eauto|]. injection H as <- <-. auto.
Qed.

(** ** Times *)
Variable monotone : forall k, (clock k <= clock (S k))%Z.

Definition seen_inner (x : Z * seen test_id) : Prop :=
  match snd x with Reported e d => inner e /\ (timed_event e = false -> d = None) | _ => True end.
Definition grows (ts ts' : timed) : Prop := instant ts <= instant ts' /\ exists l, log ts' = log ts ++ l /\
  during (clock (instant ts)) (clock (instant ts')) l /\ ordered l /\ Forall seen_inner l.

Lemma clock_le a b : a <= b -> (clock a <= clock b)%Z.
Proof. induction 1; [lia|]. pose proof (monotone m). lia. Qed.

Lemma ordered_app {ID} (a b : history ID) m : ordered a -> ordered b -> Forall (fun x => (fst x <= m)%Z) a -> Forall (fun x => (m <= fst x)%Z) b -> ordered (a ++ b).
Proof.
  unfold ordered. intros A B FA FB. rewrite map_app. induction a as [|x a IH]; cbn [map app]; auto.
  apply StronglySorted_inv in A. destruct A as [A1 A2]. inversion FA; subst. constructor; [now apply IH|]. apply Forall_app. split; auto.
  apply Forall_map. eapply Forall_impl; [|exact FB]. cbn. intros. lia.
Qed.

Lemma grows_refl ts : grows ts ts.
Proof. split; auto. exists []. rewrite app_nil_r. repeat split; constructor. Qed.
Lemma grows_trans a b c : grows a b -> grows b c -> grows a c.
Proof.
  intros [I (l & L & D & O & S)] [I' (l' & L' & D' & O' & S')]. split; [lia|]. exists (l ++ l'). rewrite L', L, app_assoc. split; auto.
  pose proof (clock_le _ _ I). pose proof (clock_le _ _ I'). unfold during in *. rewrite !Forall_app. repeat split; auto.
  - eapply Forall_impl; [|exact D]. cbn. intros; lia.
  - eapply Forall_impl; [|exact D']. cbn. intros; lia.
  - apply (ordered_app _ _ (clock (instant b))); auto; [eapply Forall_impl; [|exact D]|eapply Forall_impl; [|exact D']]; cbn; intros; lia.
Qed.

Lemma ordered_same {ID} (l : history ID) t : Forall (fun x => fst x = t) l -> ordered l.
Proof.
  unfold ordered. induction 1 as [|x l E F IH]; cbn [map]; constructor; auto. apply Forall_map. eapply Forall_impl; [|exact F]. cbn. intros. lia.
Qed.

Lemma inner_stamp t ev : Forall inner ev -> forall B, Forall seen_inner (stamp t B ev).
Proof.
  induction 1 as [|e ev I F IH]; intros B; cbn [stamp]; auto.
  assert (X : forall d B', (timed_event e = false -> d = None) -> Forall seen_inner ((t, Reported e d) :: stamp t B' ev)).
  { intros d B' D. constructor; auto. split; auto. }
  destruct e; try (apply X; auto; fail). destruct B; apply X; auto; discriminate.
Qed.

Lemma grows_step ts st B first last ev : trace st = trace (base ts) ++ ev -> Forall inner ev ->
  Forall (fun x => match x with Reported _ _ => False | _ => True end) (first ++ last) -> grows ts (step clock B first last st ts).
Proof.
  intros T I M. unfold grows, step. cbn [instant log]. rewrite T, skipn_app, skipn_all, Nat.sub_diag. cbn [skipn app]. set (t := clock (instant ts)).
  split; [lia|]. eexists. split; [reflexivity|]. apply Forall_app in M. destruct M as [M1 M2].
  assert (E : Forall (fun x => fst x = t) (map (pair t) first ++ stamp t B ev ++ map (pair t) last)).
  { rewrite !Forall_app, !Forall_map. repeat split; try apply stamp_times; apply Forall_forall; reflexivity. }
  split; [|split].
  - eapply Forall_impl; [|exact E]. cbn. intros x ->. subst t. pose proof (monotone (instant ts)). lia.
  - eapply ordered_same; eauto.
  - rewrite !Forall_app, !Forall_map. repeat split; [|now apply inner_stamp|].
    + eapply Forall_impl; [|exact M1]. intros [] Q; cbn in *; tauto.
    + eapply Forall_impl; [|exact M2]. intros [] Q; cbn in *; tauto.
Qed.
Lemma grows_calm ts st : calm (base ts) st -> grows ts (steps_to clock st ts).
Proof. intros (ev & T & I & _). eapply grows_step; eauto. cbn. constructor. Qed.
Lemma grows_enter cf s ts ts' entered : timed_section_enter clock cf s ts = Ok (ts', entered) -> grows ts ts'.
Proof.
  unfold timed_section_enter. intros H. eapply grows_trans; [apply grows_calm, calm_notify|].
  bstep H as [st b] E. injection H as <- <-. destruct (enter_effect _ _ _ _ _ E) as (_ & _ & ev & T & I & _).
  { apply hnames_held. apply notified. }
  eapply grows_step; eauto. rewrite app_nil_r. destruct b; repeat constructor.
Qed.
Lemma grows_exit cf s u ts ts' n : timed_section_exit clock cf s true u ts = Ok ts' -> names (base ts) = n ++ [s] -> grows ts ts'.
Proof.
  unfold timed_section_exit. intros H N. bstep H as st E. injection H as <-. destruct (exit_effect _ _ _ _ _ _ E N) as (_ & _ & T).
  assert (exists ev, trace st = trace (base ts) ++ ev /\ Forall inner ev) as (ev & T' & I).
  { destruct T as [->|(sk & c & ->)]; [exists []; rewrite app_nil_r; auto|eexists; split; [reflexivity|repeat constructor]]. }
  eapply grows_step; eauto. repeat constructor.
Qed.
Lemma grows_exit_idle cf s u ts ts' : timed_section_exit clock cf s false u ts = Ok ts' -> grows ts ts'.
Proof.
  unfold timed_section_exit. intros H. bstep H as st E. injection H as <-. apply exit_idle in E. destruct E as (ev & T & I & _).
  eapply grows_step; eauto. constructor.
Qed.

Lemma grows_exec cf id pass p : forall ts ts' x, timed_exec clock cf id pass p ts = Ok (ts', x) -> grows ts ts'.
Proof.
  induction p as [|n k IHp|when y k IHp|line w abort e IHe k IHp|line message abort k IHp|sec b IHp1 k IHp2|texts b IHp1 k IHp2|accepts notify b IHp1 k IHp2];
    intros ts ts' x' H; cbn [timed_exec] in H.
  - injection H as <- <-. apply grows_refl.
  - eapply grows_trans; [|eapply IHp; exact H]. apply grows_calm, still_calm. now apply still_report.
  - destruct (when pass); [injection H as <- <-; apply grows_refl|eauto].
  - bstep H as st1 E1. apply calm_check_begin in E1. bstep H as [ts2 x] E2. apply IHe in E2.
    bstep H as [st3 z] E3. apply calm_conclude in E3. bstep H as st4 E4. apply calm_check_end in E4.
    pose proof (grows_trans _ _ _ (grows_calm _ _ E1) (grows_trans _ _ _ E2 (grows_trans _ _ _ (grows_calm _ _ E3) (grows_calm _ _ E4)))).
    destruct z; [now injection H as <- <-|eauto using grows_trans].
  - bstep H as st1 E1. apply calm_check_begin in E1. bstep H as st2 E2. apply still_skipped, still_calm in E2.
    bstep H as st3 E3. apply calm_check_end in E3.
    pose proof (grows_trans _ _ _ (grows_calm _ _ E1) (grows_trans _ _ _ (grows_calm _ _ E2) (grows_calm _ _ E3))).
    destruct abort; [now injection H as <- <-|eauto using grows_trans].
  - bstep H as [ts1 entered] E1. pose proof (erase_enter cf sec ts) as E1'. unfold erases in E1'. rewrite E1 in E1'. cbn in E1'.
    apply scope_section_enter in E1'. apply grows_enter in E1. destruct entered.
    + injection E1' as N1 _ _ _. bstep H as [ts2 x] E2. pose proof (erased_exec _ _ _ _ _ _ _ E2) as N2. unfold names in N2 at 2. rewrite N1 in N2. apply IHp1 in E2.
      bstep H as ts3 E3. eapply grows_exit in E3; eauto. pose proof (grows_trans _ _ _ E1 (grows_trans _ _ _ E2 E3)).
      destruct x; [now injection H as <- <-|eauto using grows_trans].
    + bstep H as ts3 E3. apply grows_exit_idle in E3. eauto using grows_trans.
  - bstep H as st1 E1. apply calm_add_captures in E1. bstep H as [ts2 x] E2. apply IHp1 in E2.
    bstep H as st3 E3. apply calm_capture_end in E3. pose proof (grows_trans _ _ _ (grows_calm _ _ E1) (grows_trans _ _ _ E2 (grows_calm _ _ E3))).
    destruct x; [now injection H as <- <-|eauto using grows_trans].
  - bstep H as [ts1 x] E1. apply IHp1 in E1. destruct x as [e|]; [|eauto using grows_trans]. destruct (accepts e); [|now injection H as <- <-].
    apply IHp2 in H. eapply grows_trans; [exact E1|]. destruct notify; auto. eapply grows_trans; [|exact H]. apply grows_calm, calm_notify.
Qed.

Lemma grows_passes cf id p : forall fuel pass ts ts' x, timed_passes clock cf id p fuel pass ts = Ok (ts', x) -> names (base ts) = [] -> grows ts ts'.
Proof.
  induction fuel as [|fuel IH]; intros pass ts ts' x H N; cbn [timed_passes] in H; [discriminate|].
  match type of H with context [timed_exec clock cf id pass p (steps_to clock ?s ts)] => assert (G1 : grows ts (steps_to clock s ts)) by
    (apply grows_calm; now apply still_calm, still_same); assert (N1 : names (base (steps_to clock s ts)) = []) by exact N;
    generalize dependent (steps_to clock s ts) end. intros ts1 H G1 N1.
  bstep H as [ts2 y] E. pose proof (erased_exec _ _ _ _ _ _ _ E) as N2. rewrite N1 in N2. apply grows_exec in E.
  destruct y; [injection H as <- <-; eauto using grows_trans|].
  assert (N3 : names (set_inf (base ts2) (after_pass (inf (base ts2)))) = []).
  { clear - N2. unfold names, after_pass in *. cbn [inf set_inf]. destruct (levels (inf (base ts2))) as [|c [|]]; auto. now destruct (prev_id c =? max_id c). }
  assert (G3 : grows ts2 (steps_to clock (set_inf (base ts2) (after_pass (inf (base ts2)))) ts2)).
  { apply grows_calm, still_calm, still_same; auto. now rewrite N2. }
  destruct (_ && _).
  - apply IH in H; [|exact N3]. eauto using grows_trans.
  - injection H as <- <-. eauto using grows_trans.
Qed.

End Clock.
