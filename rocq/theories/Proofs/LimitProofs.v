(** The limits on nested sections and captures (C25, C28). *)
From Verif.Spec Require Import TextSpec FilterSpec Events RunSpec TreeSpec.
From Verif.Model Require Import Base Vector StringUtil Filter Run.
From Verif.Proofs Require Import Lists AppendProofs LevelProofs RunProofs InvariantProofs ScopeProofs SafetyProofs.

(** ** Larger limits only remove failed assertions *)
Definition stops {A} (r r' : res A) : Prop := r = Err Assert \/ r = r'.
Lemma stops_refl {A} (r : res A) : stops r r.
Proof. now right. Qed.
Lemma stops_bind {A B} (r r' : res A) (f f' : A -> res B) : stops r r' -> (forall x, stops (f x) (f' x)) -> stops (bind r f) (bind r' f').
Proof. intros [->| ->] H; [now left|]. destruct r'; [apply H|now right]. Qed.

Record looser (cf cf' : config) : Prop := {
  lo_verbosity : cf_verbosity cf' = cf_verbosity cf;
  lo_nested : cf_max_nested cf <= cf_max_nested cf';
  lo_captures : cf_max_captures cf <= cf_max_captures cf';
  lo_capture_length : cf_max_capture_length cf' = cf_max_capture_length cf;
  lo_message_length : cf_max_message_length cf' = cf_max_message_length cf;
  lo_tag_length : cf_max_tag_length cf' = cf_max_tag_length cf
}.

Section Looser.
Variables cf cf' : config.
Hypothesis LO : looser cf cf'.
Variable id : test_id.

Lemma lo_report v st e : report cf' v st e = report cf v st e.
Proof using LO. unfold report. now rewrite (lo_verbosity _ _ LO). Qed.
Lemma lo_close l n : forall st, close_sections cf' l n st = close_sections cf l n st.
Proof using LO. induction l as [|s l IH]; intros st; cbn [close_sections]; auto. unfold report_section_ended. rewrite lo_report. now rewrite IH. Qed.
Lemma lo_notify st : notify_exception_handled cf' st = notify_exception_handled cf st.
Proof using LO. unfold notify_exception_handled. destruct (held st); auto. now rewrite lo_close. Qed.
Lemma lo_assertion ok data st : report_assertion cf' id ok data st = report_assertion cf id ok data st.
Proof using LO.
  unfold report_assertion. destruct (is_skipped _); auto. destruct (back _); cbn [bind]; auto. now rewrite !lo_report.
Qed.
Lemma lo_assertion2 ok a b st : report_assertion2 cf' id ok a b st = report_assertion2 cf id ok a b st.
Proof using LO.
  unfold report_assertion2. destruct (is_skipped _); auto. rewrite (lo_message_length _ _ LO).
  destruct (append_or_truncate _ _) as [[m x]|]; cbn [bind]; auto using lo_assertion.
Qed.
Lemma lo_skipped m st : report_skipped cf' id m st = report_skipped cf id m st.
Proof using LO. unfold report_skipped. destruct (back _); cbn [bind]; [now rewrite lo_report|reflexivity]. Qed.
Lemma lo_conclude pass w abort x st : conclude cf' id pass w abort x st = conclude cf id pass w abort x st.
Proof using LO.
  unfold conclude. destruct w as [what outcome|type accepts|type accepts matches describe|source]; destruct x as [e|];
    repeat match goal with
    | |- context[if accepts ?e then _ else _] => destruct (accepts e)
    | |- context[if matches ?e then _ else _] => destruct (matches e)
    | |- context[match ?e with AbortExn => _ | StdExn _ => _ | OtherExn => _ end] => destruct e
    end; rewrite ?lo_assertion, ?lo_assertion2; auto;
    match goal with |- context[bind ?r _] => destruct r end; cbn [bind]; now rewrite ?lo_notify.
Qed.
Lemma lo_section_exit e u st : section_exit cf' e u st = section_exit cf e u st.
Proof using LO.
  unfold section_exit. destruct e; auto. destruct (pop_location _); cbn [bind]; auto.
  match goal with |- context[bind (if ?c then _ else _)] => destruct c; [|destruct (forallb _ _); [destruct (pop_back _)|]] end; cbn [bind]; auto;
    destruct u; cbn [negb andb]; auto; cbn [bind]; auto; destruct (back _); cbn [bind]; auto; unfold report_section_ended; now rewrite lo_report.
Qed.

(** Either the framework's assertion fails, or the looser limits give the same result. *)
Definition tracks {A} (r r' : res A) (P : A -> Prop) : Prop := r = Err Assert \/ exists x, r = Ok x /\ r' = Ok x /\ P x.
Lemma tracks_bind {A B} (r r' : res A) (f f' : A -> res B) P Q :
  tracks r r' P -> (forall x, r = Ok x -> P x -> tracks (f x) (f' x) Q) -> tracks (bind r f) (bind r' f') Q.
Proof. intros [->|(x & -> & -> & H)] F; [now left|]. cbn [bind]. auto. Qed.
Lemma tracks_same {A} (r : res A) P : (exists x, r = Ok x /\ P x) -> tracks r r P.
Proof. intros (x & E & H). right. eauto. Qed.
Lemma tracks_ok {A} (x : A) (P : A -> Prop) : P x -> tracks (Ok x) (Ok x) P.
Proof. right. eauto. Qed.

Definition room (st : state) : Prop := safe cf st /\ length (locations (inf st)) <= cf_max_nested cf + 2 /\ length (captures (inf st)) <= cf_max_captures cf.
Lemma room_scope st st' : room st -> safe cf st' -> scope st' = scope st -> room st'.
Proof. unfold room. intros (H1 & H2 & H3) H4 H5. apply scope_lens in H5. destruct H5 as (_ & -> & ->). auto. Qed.

Lemma room_locs st : room st -> locations (inf st) <> [].
Proof. intros ((_ & H & _) & _). exact H. Qed.

Lemma push_cases {A} n n' (l : list A) x : n <= n' -> length l <= n ->
  push_back n l x = Err Assert \/ (push_back n l x = Ok (l ++ [x]) /\ push_back n' l x = Ok (l ++ [x]) /\ length l < n).
Proof.
  intros L M. unfold push_back. destruct (Nat.eqb_spec (length l) n); [now left|]. destruct (Nat.eqb_spec (length l) n'); [lia|right; repeat split; lia].
Qed.

Lemma room_push l st : room st -> tracks (push_location cf st l) (push_location cf' st l) room.
Proof using LO.
  intros (H1 & H2 & H3). pose proof (lo_nested _ _ LO). unfold push_location.
  destruct (push_cases (cf_max_nested cf + 2) (cf_max_nested cf' + 2) (locations (inf st)) l) as [->|(E1 & -> & L)]; [lia|lia|now left|].
  destruct (safe_push cf l st H1 L) as (st1 & E & S1). unfold push_location in E. rewrite E1 in *. cbn [bind] in *. injection E as <-.
  apply tracks_ok. split; [exact S1|]. cbn. rewrite app_length. cbn. lia.
Qed.

Lemma room_check_begin line st : room st -> tracks (check_begin cf line st) (check_begin cf' line st) room.
Proof using LO.
  intros (H1 & H2 & H3). unfold check_begin. rewrite lo_notify. eapply tracks_bind.
  - apply room_push. unfold room. rewrite inf_notify. repeat split; auto; try apply safe_notify; auto; apply H1.
  - intros x _ X. apply tracks_ok. exact X.
Qed.

Lemma room_section_enter s st : room st ->
  tracks (section_enter cf s st) (section_enter cf' s st)
   (fun r => depth (inf st) < cf_max_nested cf /\
     let '(st', e) := r in (e = true /\ room st') \/
     (e = false /\ held_safe st' /\ S (depth (inf st)) <= length (levels (inf st')) <= cf_max_nested cf /\ length (current_section (inf st')) = depth (inf st))).
Proof using LO.
  intros (H0 & L & C). pose proof (lo_nested _ _ LO) as LN. pose proof (safe_notify cf _ H0) as H. unfold section_enter. rewrite lo_notify. rewrite inf_notify in *.
  destruct H as (H1 & H2 & H3 & H4). rewrite inf_notify in *.
  destruct (Nat.eq_dec (depth (inf st)) (cf_max_nested cf)) as [D|D].
  { left. destruct (Nat.leb_spec (length (levels (inf st))) (depth (inf st))); [|lia].
    destruct (Nat.leb_spec (cf_max_nested cf) (depth (inf st))); [|lia]. reflexivity. }
  assert (X : exists lv, (if length (levels (inf st)) <=? depth (inf st)
      then if cf_max_nested cf <=? depth (inf st) then Err Assert else push_back (cf_max_nested cf) (levels (inf st)) (mklevel 0 0 0)
      else Ok (levels (inf st))) = Ok lv /\ (if length (levels (inf st)) <=? depth (inf st)
      then if cf_max_nested cf' <=? depth (inf st) then Err Assert else push_back (cf_max_nested cf') (levels (inf st)) (mklevel 0 0 0)
      else Ok (levels (inf st))) = Ok lv /\ S (depth (inf st)) <= length lv <= cf_max_nested cf).
  { destruct (Nat.leb_spec (length (levels (inf st))) (depth (inf st))).
    - destruct (Nat.leb_spec (cf_max_nested cf) (depth (inf st))); [lia|]. destruct (Nat.leb_spec (cf_max_nested cf') (depth (inf st))); [lia|]. unfold push_back.
      destruct (Nat.eqb_spec (length (levels (inf st))) (cf_max_nested cf)); [lia|]. destruct (Nat.eqb_spec (length (levels (inf st))) (cf_max_nested cf')); [lia|].
      eexists. repeat split; try reflexivity; rewrite app_length; cbn; lia.
    - eexists. split; [reflexivity|]. split; [reflexivity|]. lia. }
  destruct X as (lv & -> & -> & X1). cbn [bind]. replace (S (depth (inf st)) - 1) with (depth (inf st)) by lia.
  destruct (nth_ok lv (depth (inf st))) as [lev E]; [lia|]. unfold at_index. rewrite E. cbn [bind].
  destruct (put_ok lv (depth (inf st)) (mklevel (S (cur_id lev)) (prev_id lev) (if max_id lev <? S (cur_id lev) then S (cur_id lev) else max_id lev)))
    as (lv1 & -> & L1); [lia|]. cbn [bind].
  match goal with |- tracks ?r ?r' ?P => assert (N : tracks (Ok (set_inf (notify_exception_handled cf st) (with_depth (with_levels (inf st) lv1) (S (depth (inf st)))), false))
    (Ok (set_inf (notify_exception_handled cf st) (with_depth (with_levels (inf st) lv1) (S (depth (inf st)))), false)) P) end.
  { apply tracks_ok. split; [lia|]. right. repeat split; auto; cbn; lia. }
  destruct (leaf_executed _); [exact N|]. destruct (negb _ && negb _); [exact N|].
  match goal with |- context[put_index lv1 ?i ?x] => destruct (put_ok lv1 i x) as (lv2 & -> & L2); [lia|] end. cbn [bind].
  cbn [inf set_inf with_depth with_levels current_section].
  rewrite (push_back_ok (cf_max_nested cf)), (push_back_ok (cf_max_nested cf')) by lia. cbn [bind].
  eapply tracks_bind; [apply room_push|].
  - unfold room, safe. cbn. rewrite app_length. cbn. repeat split; auto; try lia.
  - intros st3 _ R3. unfold report_section_started. rewrite lo_report. apply tracks_ok. split; [lia|]. left. split; [reflexivity|]. destruct (_ =? _); auto.
    unfold room. rewrite inf_report. destruct R3 as (R & R1 & R2). repeat split; auto; try apply safe_report; auto; apply R.
Qed.

Lemma room_add_captures l : forall st, room st -> tracks (add_captures cf l st) (add_captures cf' l st) room.
Proof using LO.
  pose proof (lo_captures _ _ LO) as LC.
  induction l as [|c l IH]; intros st (H1 & H2 & H3); cbn [add_captures]; [apply tracks_ok; split; auto|].
  unfold add_capture. destruct (Nat.eqb_spec (length (captures (inf st))) (cf_max_captures cf)); [now left|].
  destruct (Nat.eqb_spec (length (captures (inf st))) (cf_max_captures cf')); [lia|]. rewrite lo_notify, (lo_capture_length _ _ LO).
  destruct (append_or_truncate_spec (new_string (cf_max_capture_length cf)) c (wf_new _)) as (m & E1 & _). rewrite E1. cbn [bind].
  apply IH. apply (safe_notify cf) in H1. unfold room. cbn. rewrite inf_notify, app_length. cbn.
  unfold safe in *. rewrite inf_notify in H1. split; [exact H1|lia].
Qed.

Lemma room_exec pass p : forall st, room st -> tracks (exec cf id pass p st) (exec cf' id pass p st) (fun r => room (fst r)).
Proof using LO.
  assert (G : forall (r : res (state * option exn)) st, room st -> (forall st' x, r = Ok (st', x) -> scope st' = scope st) ->
    (exists st' x, r = Ok (st', x) /\ safe cf st') -> tracks r r (fun r => room (fst r))).
  { intros r st R SC (st' & x & E & S1). apply tracks_same. exists (st', x). split; [exact E|]. eapply room_scope; eauto. }
  induction p as [|n k IHp|when y k IHp|line w abort e IHe k IHp|line message abort k IHp|sec b IHp1 k IHp2|texts b IHp1 k IHp2|accepts notify b IHp1 k IHp2];
    intros st R; cbn [exec].
  - apply tracks_ok. exact R.
  - rewrite lo_report. apply IHp. eapply room_scope; [exact R|apply safe_report, R|apply scope_report].
  - destruct (when pass); [apply tracks_ok; exact R|]. auto.
  - eapply tracks_bind; [apply room_check_begin, R|]. intros st1 E1 R1.
    eapply tracks_bind; [apply IHe, R1|]. intros [st2 x] E2 R2. cbn [fst] in R2.
    rewrite lo_conclude. destruct (safe_conclude cf id pass w abort x st2 (proj1 R2)) as (st3 & z & E3 & S3). rewrite E3. cbn [bind].
    apply scope_check_begin in E1. apply scope_exec in E2. pose proof (scope_conclude _ _ _ _ _ _ _ _ E3) as E3'. cbn [fst] in E3'.
    assert (SC : scope st3 = (names st, captures (inf st), locs st ++ [mkloc line InCheck], depth (inf st))) by congruence.
    destruct (safe_check_end cf (is_some z) st3 (locs st) (mkloc line InCheck) S3) as (st4 & E4 & S4).
    { unfold scope in SC. now injection SC. } { exact (room_locs _ R). }
    rewrite E4. cbn [bind]. eapply scope_check_end in E4; [|exact SC].
    assert (R4 : room st4) by (eapply room_scope; [exact R|exact S4|exact E4]).
    destruct z; [apply tracks_ok; exact R4|]. auto.
  - eapply tracks_bind; [apply room_check_begin, R|]. intros st1 E1 R1. rewrite lo_skipped.
    destruct (safe_skipped cf id (message pass) st1 (proj1 R1)) as (st3 & E3 & S3). rewrite E3. cbn [bind].
    apply scope_check_begin in E1. apply scope_skipped in E3.
    assert (SC : scope st3 = (names st, captures (inf st), locs st ++ [mkloc line InCheck], depth (inf st))) by congruence.
    destruct (safe_check_end cf abort st3 (locs st) (mkloc line InCheck) S3) as (st4 & E4 & S4).
    { unfold scope in SC. now injection SC. } { exact (room_locs _ R). }
    rewrite E4. cbn [bind]. eapply scope_check_end in E4; [|exact SC].
    assert (R4 : room st4) by (eapply room_scope; [exact R|exact S4|exact E4]).
    destruct abort; [apply tracks_ok; exact R4|]. auto.
  - eapply tracks_bind; [apply room_section_enter, R|]. intros [st1 entered] E1 (D & S1).
    apply scope_section_enter in E1. destruct S1 as [[-> R1]|(-> & S1 & S2 & S3)].
    + eapply tracks_bind; [apply IHp1, R1|]. intros [st2 x] E2 R2. cbn [fst] in R2. apply scope_exec in E2. rewrite E1 in E2.
      rewrite lo_section_exit.
      assert (SC : scope st2 = (names st ++ [sec], captures (inf st2), locs st ++ [mkloc (sec_line sec) SectionScope], S (depth (inf st)))).
      { rewrite E2. unfold scope in E2. injection E2 as _ -> _ _. reflexivity. }
      destruct (safe_section_exit cf (is_some x) st2 _ _ _ _ (proj1 R2) SC) as (st3 & E3 & S3); [exact (room_locs _ R)|]. rewrite E3. cbn [bind].
      eapply (scope_section_exit cf true) in E3; [|exact E2].
      assert (R4 : room st3) by (eapply room_scope; [exact R|exact S3|exact E3]).
      destruct x; [apply tracks_ok; exact R4|]. auto.
    + rewrite lo_section_exit. unfold scope in E1. injection E1 as EN EC EL ED.
      destruct (safe_section_skip cf st1 (depth (inf st)) S1) as (st3 & E3 & S4); auto; [rewrite EL; exact (room_locs _ R)|]. rewrite E3. cbn [bind].
      apply (scope_section_exit cf false false _ _ (names st) sec (captures (inf st)) (locs st) (mkloc 0 Exact) (depth (inf st))) in E3;
        [|unfold scope; rewrite EN, EC, EL, ED; reflexivity].
      apply IHp2. eapply room_scope; [exact R|exact S4|exact E3].
  - eapply tracks_bind; [apply room_add_captures, R|]. intros st1 E1 R1.
    eapply tracks_bind; [apply IHp1, R1|]. intros [st2 x] E2 R2. cbn [fst] in R2. apply scope_add_captures in E1. apply scope_exec in E2. rewrite E1 in E2.
    assert (CE : exists st3, capture_end (is_some x) (length texts) st2 = Ok st3 /\ safe cf st3).
    { unfold capture_end. pose proof E2 as E2'. unfold scope in E2'. injection E2' as _ EC _ _. rewrite inf_hold, EC, app_length, !map_length.
      rewrite csub_ok by (unfold text, str in *; lia). cbn [bind]. eexists. split; [reflexivity|].
      pose proof (safe_hold cf (is_some x) st2 (proj1 R2)) as S2. destruct S2 as (A1 & A2 & A3 & A4). rewrite inf_hold in *. unfold safe. cbn. auto. }
    destruct CE as (st3 & E3 & S3). rewrite E3. cbn [bind].
    eapply scope_capture_end in E3; [|exact E2|rewrite !map_length; reflexivity].
    assert (R4 : room st3) by (eapply room_scope; [exact R|exact S3|exact E3]).
    destruct x; [apply tracks_ok; exact R4|]. auto.
  - eapply tracks_bind; [apply IHp1, R|]. intros [st1 x] E1 R1. cbn [fst] in R1.
    destruct x as [e|]; [|auto]. destruct (accepts e); [|apply tracks_ok; exact R1]. rewrite lo_notify. apply IHp2.
    destruct notify; auto. eapply room_scope; [exact R1|apply safe_notify, R1|apply scope_inf, inf_notify].
Qed.
Definition within (p : prog) : Prop := nesting p <= cf_max_nested cf /\ scopes p <= S (cf_max_nested cf) /\ capturing p <= cf_max_captures cf.
Definition outermost (st : state) : Prop := room st /\ depth (inf st) = 0 /\ length (locations (inf st)) = 1 /\ captures (inf st) = [].

Lemma outer_scope st st' : outermost st -> room st' -> scope st' = scope st -> outermost st'.
Proof. unfold outermost. intros (_ & H1 & H2 & H3) R E. apply scope_lens in E. destruct E as (-> & -> & ->). auto. Qed.

Lemma room_passes p : forall fuel pass st, outermost st ->
  (passes cf id p fuel pass st = Err Assert /\ ~ within p) \/
  (passes cf id p fuel pass st = Err Fuel /\ passes cf' id p fuel pass st = Err Fuel) \/
  (exists st' x, passes cf id p fuel pass st = Ok (st', x) /\ passes cf' id p fuel pass st = Ok (st', x) /\ outermost st').
Proof using LO.
  induction fuel as [|fuel IH]; intros pass st O; cbn [passes]; [auto|].
  set (st1 := set_inf st _).
  assert (O1 : outermost st1).
  { destruct O as ((S0 & L & C) & D & L1 & C1). split; [|split; [|split]]; auto. split; [|split]; auto.
    destruct S0 as (A1 & A2 & A3 & A4). unfold safe. cbn. rewrite map_length. auto. }
  destruct (room_exec pass p st1 (proj1 O1)) as [E|([st2 x] & E & E' & R2)].
  - left. rewrite E. split; [reflexivity|]. intros (N1 & N2 & N3). destruct O1 as ((S0 & L & C) & D & L1 & C1).
    destruct (safe_exec cf id pass p st1 S0) as (st2 & x & F & _); try congruence.
    + rewrite D. lia. + rewrite L1. lia. + rewrite C1. cbn. lia.
  - rewrite E, E'. cbn [bind fst] in *. apply scope_exec in E.
    assert (O2 : outermost st2) by (eapply outer_scope; eauto).
    destruct x as [e|]; [right; right; eauto|].
    set (st3 := set_inf st2 (after_pass (inf st2))).
    assert (O3 : outermost st3).
    { destruct O2 as ((S0 & L & C) & D & L1 & C1). destruct S0 as (A1 & A2 & A3 & A4).
      assert (CS : current_section (inf st2) = []) by (apply length_zero_iff_nil; lia).
      unfold st3, after_pass, outermost, room, safe. destruct (levels (inf st2)) as [|c [|]] eqn:LV; cbn; rewrite ?LV; cbn; auto 9.
      destruct (_ =? _); cbn; rewrite ?LV; cbn; repeat split; auto; cbn in A1; lia. }
    destruct (_ && _); [apply (IH (S pass) st3 O3)|right; right; eauto].
Qed.

Lemma room_run fuel t tr0 may should : id = t_id t -> fail_flags (cf_max_tag_length cf) (id_tags (t_id t)) = Ok (may, should) ->
  (run cf fuel t tr0 = Err Assert /\ ~ within (t_body t)) \/
  (run cf fuel t tr0 = Err Fuel /\ run cf' fuel t tr0 = Err Fuel) \/
  (exists st, run cf fuel t tr0 = Ok st /\ run cf' fuel t tr0 = Ok st).
Proof using LO.
  intros EI FF. unfold run. rewrite <- EI in *. rewrite (lo_tag_length _ _ LO), FF. cbn [bind]. rewrite lo_report.
  set (st0 := set_status _ _).
  assert (E0 : exists st1, push_location cf st0 (mkloc (t_line t) TestCaseScope) = Ok st1 /\
                           push_location cf' st0 (mkloc (t_line t) TestCaseScope) = Ok st1 /\ outermost st1).
  { assert (I0 : inf st0 = mkinfo [] [] 0 false [] []) by (unfold st0; cbn [inf set_status]; apply inf_report).
    assert (H0 : held st0 = None) by (unfold st0; cbn [held set_status]; apply held_report).
    unfold push_location. rewrite I0. cbn [locations]. rewrite !push_back_ok by (cbn; lia). cbn [bind app]. eexists. split; [reflexivity|]. split; [reflexivity|].
    unfold outermost, room, safe, held_safe. cbn [inf set_inf held set_status locations captures depth levels current_section with_locations length]. rewrite ?H0.
    repeat split; try lia; try discriminate. }
  assert (ST0 : ran st0) by discriminate.
  destruct E0 as (st1 & E1 & -> & O1). rewrite E1. cbn [bind]. apply ran_push in E1. apply (ran_status _ _ E1) in ST0.
  destruct (room_passes (t_body t) fuel 0 st1 O1) as [[-> NW]|[[-> ->]|(st2 & x & EP & -> & O2)]]; cbn [bind]; auto.
  rewrite EP. cbn [bind]. apply ran_passes in EP; [|exact ST0].
  right; right.
  destruct O2 as ((S2 & _) & _).
  assert (K : forall a b, a = b -> safe cf a -> safe cf b) by congruence.
  assert (E3 : exists st3, (match x with
     | None =>
       do st' <- report_assertion cf id true (Message (lit "no exception caught")) (set_in_check st2 true) ;;
       Ok (set_in_check st' false)
     | Some AbortExn => Ok (set_unhandled st2 true)
     | Some (StdExn what) =>
       report_assertion2 cf id false (lit "unexpected std::exception caught; message: ") what (set_unhandled st2 true)
     | Some OtherExn =>
       report_assertion cf id false (Message (lit "unexpected unknown exception caught")) (set_unhandled st2 true)
     end) = Ok st3 /\ safe cf st3 /\ ran st3).
  { destruct x as [[|what|]|].
    - eexists. split; [reflexivity|]. split; [exact S2|exact EP].
    - destruct (safe_assertion2 cf id false (lit "unexpected std::exception caught; message: ") what (set_unhandled st2 true) S2) as (st3 & E3 & S3).
      rewrite E3. apply ran_assertion2 in E3; [eauto|exact EP].
    - destruct (safe_assertion cf id false (Message (lit "unexpected unknown exception caught")) (set_unhandled st2 true) S2) as (st3 & E3 & S3).
      rewrite E3. apply ran_assertion in E3; [eauto|exact EP].
    - destruct (safe_assertion cf id true (Message (lit "no exception caught")) (set_in_check st2 true) S2) as (st3 & E3 & S3).
      rewrite E3. cbn [bind]. apply ran_assertion in E3; [|exact EP]. eexists. split; [reflexivity|]. split; [exact S3|exact E3]. }
  destruct E3 as (st3 & E3 & S3 & R3).
  assert (E3' : (match x with
     | None =>
       do st' <- report_assertion cf' id true (Message (lit "no exception caught")) (set_in_check st2 true) ;;
       Ok (set_in_check st' false)
     | Some AbortExn => Ok (set_unhandled st2 true)
     | Some (StdExn what) =>
       report_assertion2 cf' id false (lit "unexpected std::exception caught; message: ") what (set_unhandled st2 true)
     | Some OtherExn =>
       report_assertion cf' id false (Message (lit "unexpected unknown exception caught")) (set_unhandled st2 true)
     end) = Ok st3).
  { rewrite !lo_assertion. rewrite <- E3. destruct x as [[|what|]|]; auto. apply lo_assertion2. }
  rewrite E3, E3'. cbn [bind]. rewrite lo_notify.
  set (st5 := set_unhandled _ false).
  assert (S5 : safe cf st5).
  { unfold st5. destruct (unhandled st3); [|exact S3]. apply (safe_notify cf) in S3. exact S3. }
  assert (R5 : ran st5) by (unfold st5; destruct (unhandled st3); [|exact R3]; apply (ran_status _ _ (status_notify cf st3)) in R3; exact R3).
  rewrite !lo_assertion.
  assert (E6 : exists st6, (if should_fail st5 then
       do st' <- report_assertion cf id (match status st5 with IAllowedFail => true | _ => false end)
                   (Message (lit "expected test to fail"))
                   (set_in_check (set_should_fail st5 false) true) ;;
       Ok (set_should_fail (set_in_check st' false) true)
     else Ok st5) = Ok st6 /\ ran st6).
  { destruct (should_fail st5); [|eauto].
    destruct (safe_assertion cf id (match status st5 with IAllowedFail => true | _ => false end) (Message (lit "expected test to fail"))
                (set_in_check (set_should_fail st5 false) true) S5) as (st6 & E6 & _). rewrite E6.
    cbn [bind]. eexists. split; [reflexivity|]. apply ran_assertion in E6; [exact E6|exact R5]. }
  destruct E6 as (st6 & -> & R6). cbn [bind]. unfold ran in R6.
  destruct (status st6); [congruence| | | |]; cbn [convert_to_public_state bind]; rewrite lo_report; eauto.
Qed.
End Looser.
