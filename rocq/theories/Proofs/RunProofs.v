(** Execution of a test case: the model behaves as specified in Spec/RunSpec.v. *)
From Verif.Spec Require Import TextSpec Events RunSpec.
From Verif.Model Require Import Base Vector StringUtil Filter Run.
From Verif.Proofs Require Import Lists VectorProofs AppendProofs LevelProofs.

(** ** Counters *)
Definition plus_counts (a b : counts) : counts :=
  mkcounts (n_all a + n_all b) (n_failed a + n_failed b) (n_allowed a + n_allowed b).

Lemma counts_eq a b : n_all a = n_all b -> n_failed a = n_failed b -> n_allowed a = n_allowed b -> a = b.
Proof. destruct a, b; simpl; congruence. Qed.

Lemma tally1_plus {ID} (e : Events.event ID) c : tally1 e c = plus_counts c (tally1 e (mkcounts 0 0 0)).
Proof.
  destruct e; try (apply counts_eq; simpl; lia).
  simpl. destruct (expected || allowed); apply counts_eq; simpl; lia.
Qed.

Lemma plus_assoc a b c : plus_counts a (plus_counts b c) = plus_counts (plus_counts a b) c.
Proof. apply counts_eq; simpl; lia. Qed.
Lemma plus_comm a b : plus_counts a b = plus_counts b a.
Proof. apply counts_eq; simpl; lia. Qed.
Lemma plus_0 a : plus_counts a (mkcounts 0 0 0) = a.
Proof. apply counts_eq; simpl; lia. Qed.
Lemma plus_0_l a : plus_counts (mkcounts 0 0 0) a = a.
Proof. apply counts_eq; simpl; lia. Qed.

Lemma tally_from {ID} (l : list (Events.event ID)) c : fold_right tally1 c l = plus_counts c (tally l).
Proof.
  induction l as [|e l IH]; simpl; [now rewrite plus_0|].
  rewrite IH, (tally1_plus e), (tally1_plus e (tally l)). now rewrite plus_assoc.
Qed.

Lemma tally_app {ID} (a b : list (Events.event ID)) : tally (a ++ b) = plus_counts (tally a) (tally b).
Proof. unfold tally at 1. rewrite fold_right_app. fold (tally b). now rewrite tally_from, plus_comm. Qed.

(** ** States *)
Definition bump (k : counts) (l : list section_data) : list section_data :=
  map (fun s => mksd (sd_id s) (plus_counts (sd_counts s) k)) l.

Lemma bump_bump a b l : bump b (bump a l) = bump (plus_counts a b) l.
Proof. unfold bump. rewrite map_map. apply map_ext; intros s; simpl. now rewrite plus_assoc. Qed.
Lemma bump_0 l : bump (mkcounts 0 0 0) l = l.
Proof. unfold bump. rewrite <- (map_id l) at 2. apply map_ext. intros [i c]. cbn [sd_id sd_counts]. now rewrite plus_0. Qed.
Lemma bump_ids k l : map sd_id (bump k l) = map sd_id l.
Proof. unfold bump. now rewrite map_map. Qed.
Lemma bump_length k l : length (bump k l) = length l.
Proof. apply map_length. Qed.
Lemma bump_app k a b : bump k (a ++ b) = bump k a ++ bump k b.
Proof. apply map_app. Qed.

Definition intern (s : case_state) : istate :=
  match s with Success => ISuccess | Failed => IFailed | AllowedFail => IAllowedFail | Skipped => ISkipped end.

Lemma is_skipped_intern s : is_skipped (intern s) = skipped s.
Proof. now destruct s. Qed.

(** The state after [ev] has happened, seen from the scope in which the state was [st]. *)
Definition upd (st : state) (ev : list event) (s : case_state) (lv : list level) (lf : bool) (h : option info)
  : state :=
  mkstate (mkinfo (bump (tally ev) (current_section (inf st))) lv (depth (inf st)) lf
                  (captures (inf st)) (locations (inf st)))
          h (plus_counts (asserts st) (tally ev)) (may_fail st) (should_fail st) (in_check st) (unhandled st)
          (intern s) (trace st ++ ev).

Lemma upd_upd st e1 s1 lv1 lf1 h1 e2 s2 lv2 lf2 h2 :
  upd (upd st e1 s1 lv1 lf1 h1) e2 s2 lv2 lf2 h2 = upd st (e1 ++ e2) s2 lv2 lf2 h2.
Proof.
  unfold upd; cbn [inf current_section depth captures locations asserts may_fail should_fail in_check unhandled trace].
  now rewrite tally_app, bump_bump, plus_assoc, app_assoc.
Qed.

Lemma upd_id st s : status st = intern s ->
  upd st [] s (levels (inf st)) (leaf_executed (inf st)) (held st) = st.
Proof.
  intros E. unfold upd. rewrite <- E. change (tally []) with (mkcounts 0 0 0).
  rewrite bump_0, plus_0, app_nil_r. destruct st as [[] ? ? ? ? ? ? ? ?]; reflexivity.
Qed.

Section Run.
Variable cf : config.
Hypothesis verbose : cf_verbosity cf = Full.
Variable id : test_id.
Variables may should : bool.

Lemma report_full v st e : report cf v st e =
  mkstate (inf st) (held st) (asserts st) (may_fail st) (should_fail st) (in_check st) (unhandled st)
               (status st) (trace st ++ [e]).
Proof using verbose. unfold report. rewrite verbose. now destruct v. Qed.

(** What is known of the state outside of stack unwinding, in context [cx] and state [s]. *)
Record normal (st : state) (cx : context) (s : case_state) : Prop := {
  n_held : held st = None;
  n_unhandled : unhandled st = false;
  n_status : status st = intern s;
  n_sections : map sd_id (current_section (inf st)) = enclosing cx;
  n_captures : captures (inf st) = captured cx;
  n_location : exists l, locations (inf st) = l ++ [where_ cx];
  n_depth : depth (inf st) = length (current_section (inf st));
  n_may : may_fail st = may;
  n_should : should_fail st = should
}.

Lemma normal_upd st cx s ev s' lv lf : normal st cx s -> normal (upd st ev s' lv lf None) cx s'.
Proof.
  intros []. constructor; unfold upd;
    cbn [held unhandled status inf current_section captures locations depth in_check];
    rewrite ?bump_ids, ?bump_length; auto.
Qed.

(** Exceptions in flight: what has been saved of the context in which they were thrown. *)
Definition held_ok (st : state) (cx : context) (ev : list event) (from : context) (gone : list (section_id * counts))
  (h : option info) : Prop :=
  enclosing from = enclosing cx ++ map fst gone /\
  match h with
  | None => gone = [] /\ from = cx
  | Some i =>
    current_section i = bump (tally ev) (current_section (inf st)) ++ map (fun sc => mksd (fst sc) (snd sc)) gone /\
    captures i = captured from /\
    exists l, locations i = l ++ [where_ from]
  end.

Lemma back_last {A} (l : list A) x : back (l ++ [x]) = Ok x.
Proof. unfold back. now rewrite rev_app_distr. Qed.
Lemma pop_back_last {A} (l : list A) x : pop_back (l ++ [x]) = Ok l.
Proof. unfold pop_back. rewrite removelast_last. now destruct l. Qed.
Lemma push_back_ok {A} n (l : list A) x : length l < n -> push_back n l x = Ok (l ++ [x]).
Proof. intros H. unfold push_back. destruct (Nat.eqb_spec (length l) n); [lia|auto]. Qed.

Lemma notify_none st : held st = None -> notify_exception_handled cf st = st.
Proof. intros H. unfold notify_exception_handled. now rewrite H. Qed.

Lemma close_sections_none l n st : length l <= n -> close_sections cf l n st = st.
Proof. destruct l; auto. intros H. cbn [close_sections]. destruct (Nat.ltb_spec n (length (s :: l))); [lia|auto]. Qed.

Lemma notify_same st h : held st = Some h -> length (current_section h) = length (current_section (inf st)) ->
  notify_exception_handled cf st = set_held st None.
Proof.
  intros H L. unfold notify_exception_handled. rewrite H. rewrite close_sections_none; auto.
  rewrite rev_length. lia.
Qed.

(** ** Assertions *)
Definition tag_of (st : state) (ok : bool) : verdict :=
  if ok then Passed else if may_fail st || should_fail st then AllowedFailure else Failure.

Definition assertion_event (st : state) (cx : context) (ok : bool) (what : payload) : event :=
  if ok then AssertionSucceeded id (enclosing cx) (captured cx) (where_ cx) what
  else AssertionFailed id (enclosing cx) (captured cx) (where_ cx) what (should_fail st) (may_fail st).

Lemma tally_assertion st cx ok what c :
  plus_counts c (tally [assertion_event st cx ok what]) = count (tag_of st ok) c.
Proof.
  unfold assertion_event, tag_of. destruct ok; [|rewrite (orb_comm (may_fail st)); destruct (should_fail st || may_fail st) eqn:E];
    apply counts_eq; simpl; rewrite ?E; simpl; lia.
Qed.

Lemma count_bump st cx ok what l :
  map (count_section (tag_of st ok)) l = bump (tally [assertion_event st cx ok what]) l.
Proof. apply map_ext. intros s. unfold count_section. now rewrite tally_assertion. Qed.

Lemma raise_worsen st s ok : status st = intern s -> s <> Skipped -> forall st',
  status st' = status st ->
  match tag_of st ok with
  | Passed => st' | AllowedFailure => raise_state st' IAllowedFail | Failure => raise_state st' IFailed
  end = set_status st' (intern (worsen (may_fail st) (should_fail st) ok s)).
Proof.
  intros E N st' E'. unfold tag_of, worsen, raise_state. rewrite E', E.
  assert (D : set_status st' (intern s) = st') by (rewrite <- E, <- E'; destruct st'; reflexivity).
  destruct ok; [now rewrite D|]. destruct (may_fail st || should_fail st); destruct s; try easy; simpl; now rewrite D.
Qed.

(** The general form: [i] is the part of the state from which the context is taken. *)
Lemma report_assertion_eq st s ok what i cx0 : status st = intern s -> s <> Skipped ->
  (if unhandled st then match held st with Some h => h | None => inf st end else inf st) = i ->
  (exists l, locations i = l ++ [where_ cx0]) ->
  map sd_id (current_section i) = enclosing cx0 -> captures i = captured cx0 ->
  let cx := mkctx (enclosing cx0) (captured cx0)
                  (if in_check st then mkloc (loc_line (where_ cx0)) Exact else where_ cx0) in
  let e := assertion_event st cx ok what in
  report_assertion cf id ok what st =
  Ok (upd st [e] (worsen (may_fail st) (should_fail st) ok s) (levels (inf st)) (leaf_executed (inf st))
          (option_map (count_info (tag_of st ok)) (held st))).
Proof using verbose.
  intros E N I (l & Hl) Hs Hc cx e. unfold report_assertion. rewrite E, is_skipped_intern.
  assert (SK : skipped s = false) by (destruct s; auto; congruence). rewrite SK.
  assert (R : register_assertion ok st =
    mkstate (count_info (tag_of st ok) (inf st)) (option_map (count_info (tag_of st ok)) (held st))
      (count (tag_of st ok) (asserts st)) (may_fail st) (should_fail st) (in_check st) (unhandled st)
      (intern (worsen (may_fail st) (should_fail st) ok s)) (trace st)).
  { unfold register_assertion. change (if ok then Passed else if may_fail st || should_fail st then AllowedFailure else Failure)
      with (tag_of st ok). cbv zeta.
    rewrite (raise_worsen st s ok E N).
    - destruct st as [? [] ? ? ? ? ? ? ?]; reflexivity.
    - destruct st as [? [] ? ? ? ? ? ? ?]; reflexivity. }
  rewrite R. cbn [held unhandled inf in_check should_fail may_fail].
  set (i' := match option_map _ _ with Some _ => _ | None => _ end).
  assert (Hi : i' = count_info (tag_of st ok) i).
  { unfold i'. rewrite <- I. destruct (held st), (unhandled st); reflexivity. }
  clearbody i'. subst i'. unfold count_info at 1. cbn [locations with_current_section]. rewrite Hl, back_last. cbn [bind].
  f_equal. unfold upd. unfold count_info at 1.
  assert (G : forall v ev, report cf v (mkstate (count_info (tag_of st ok) (inf st))
       (option_map (count_info (tag_of st ok)) (held st))
       (count (tag_of st ok) (asserts st)) (may_fail st) (should_fail st) (in_check st) (unhandled st)
       (intern (worsen (may_fail st) (should_fail st) ok s)) (trace st)) ev =
       mkstate (count_info (tag_of st ok) (inf st))
       (option_map (count_info (tag_of st ok)) (held st))
       (count (tag_of st ok) (asserts st)) (may_fail st) (should_fail st) (in_check st) (unhandled st)
       (intern (worsen (may_fail st) (should_fail st) ok s)) (trace st ++ [ev])) by (intros; apply report_full).
  unfold e. rewrite tally_assertion, <- count_bump.
  replace (map sd_id (current_section (count_info (tag_of st ok) i))) with (enclosing cx0).
  2:{ rewrite <- Hs. unfold count_info. cbn [current_section with_current_section]. rewrite map_map. reflexivity. }
  replace (captures (count_info (tag_of st ok) i)) with (captured cx0) by (rewrite <- Hc; reflexivity).
  unfold assertion_event, cx. cbn [enclosing captured where_].
  destruct ok; rewrite G; unfold count_info; destruct (inf st); reflexivity.
Qed.

(** Outside of stack unwinding, for the scope of a check. *)
Lemma report_assertion_skipped st ok what : status st = ISkipped -> report_assertion cf id ok what st = Ok st.
Proof. intros E. unfold report_assertion. now rewrite E. Qed.

Lemma report_assertion2_eq st ok a b :
  report_assertion2 cf id ok a b st =
  report_assertion cf id ok (Message (fit (cf_max_message_length cf) (a ++ b))) st.
Proof.
  unfold report_assertion2. destruct (is_skipped (status st)) eqn:E; [unfold report_assertion; now rewrite E|].
  destruct (append_or_truncate_spec (new_string (cf_max_message_length cf)) [a; b] (wf_new _)) as (m & E1 & _ & _ & C).
  rewrite E1. cbn [bind]. rewrite C, vcontent_new, vcap_new. cbn [List.concat app]. rewrite app_nil_r. reflexivity.
Qed.

(** ** Scopes *)
Notation mcl := (cf_max_capture_length cf).
Notation mml := (cf_max_message_length cf).
Notation B := (behave id may should mcl mml).

Lemma hold_upd u st ev s lv lf h :
  hold u (upd st ev s lv lf h) =
  upd st ev s lv lf (match h with Some i => Some i | None => if u then Some (inf (upd st ev s lv lf None)) else None end).
Proof. unfold hold. destruct h; [reflexivity|]. destruct u; reflexivity. Qed.

(** Leaving a scope with an exception. *)
Lemma held_ok_scope st st1 cx cx1 ev from gone h s lv lf :
  current_section (inf st1) = current_section (inf st) -> enclosing cx1 = enclosing cx ->
  captures (inf st1) = captured cx1 -> (exists l, locations (inf st1) = l ++ [where_ cx1]) ->
  held_ok st1 cx1 ev from gone h ->
  held_ok st cx ev from gone (Some (match h with Some i => i | None => inf (upd st1 ev s lv lf None) end)).
Proof.
  intros C E K L [H1 H2]. split; [congruence|]. destruct h as [i|].
  - now rewrite <- C.
  - destruct H2 as [-> ->]. unfold upd; cbn [inf current_section captures locations map]. rewrite app_nil_r, C. auto.
Qed.

Lemma held_ok_upd st cx e1 e2 s lv lf h0 from gone h :
  held_ok (upd st e1 s lv lf h0) cx e2 from gone h -> held_ok st cx (e1 ++ e2) from gone h.
Proof.
  intros [H1 H2]. split; auto. destruct h; auto. destruct H2 as (H2 & H3 & H4). repeat split; auto.
  rewrite H2. unfold upd. cbn [inf current_section]. now rewrite bump_bump, tally_app.
Qed.

Lemma user_eq st cx s n : normal st cx s ->
  report cf Quiet st (User n) = upd st [User n] s (levels (inf st)) (leaf_executed (inf st)) None.
Proof using verbose.
  intros N. rewrite report_full. unfold upd. change (tally [User n]) with (mkcounts 0 0 0).
  rewrite bump_0, plus_0, <- (n_held _ _ _ N), <- (n_status _ _ _ N). destruct st as [[] ? ? ? ? ? ? ? ?]; reflexivity.
Qed.

Lemma upd_nil st cx s : normal st cx s ->
  st = upd st [] s (levels (inf st)) (leaf_executed (inf st)) None.
Proof. intros N. rewrite <- (n_held _ _ _ N). symmetry. apply upd_id, N. Qed.

(** *** Checks *)

(** Inside a check; [q]: no check has been made in it. *)
Definition open_at (q : bool) (line : nat) (st : state) : state :=
  mkstate (with_locations (inf st) (locations (inf st) ++ [mkloc line InCheck])) (held st) (asserts st) (may_fail st)
          (should_fail st) q (unhandled st) (status st) (trace st).
Notation open_check := (open_at true).
Definition ctx_check (line : nat) (cx : context) : context :=
  mkctx (enclosing cx) (captured cx) (mkloc line InCheck).

Lemma check_begin_eq line st cx s : normal st cx s -> length (locations (inf st)) < cf_max_nested cf + 2 ->
  check_begin cf line st = Ok (open_check line st) /\ normal (open_check line st) (ctx_check line cx) s.
Proof.
  intros N D. destruct N. unfold check_begin. rewrite notify_none by auto. unfold push_location.
  rewrite push_back_ok by lia. split; [reflexivity|].
  constructor; cbn [held unhandled status inf current_section captures locations depth in_check open_at with_locations
    may_fail should_fail enclosing captured where_ ctx_check]; auto.
  eauto.
Qed.

Lemma check_end_eq u q line st ev s lv lf h :
  check_end u (upd (open_at q line st) ev s lv lf h) =
  Ok (upd (set_in_check st false) ev s lv lf (match h with Some i => Some i
                         | None => if u then Some (inf (upd (open_at q line st) ev s lv lf None)) else None end)).
Proof.
  unfold check_end.
  change (set_in_check (upd (open_at q line st) ev s lv lf h) false)
    with (upd (set_in_check (open_at q line st) false) ev s lv lf h).
  rewrite hold_upd. unfold pop_location. unfold upd at 1 3.
  cbn [inf locations set_in_check open_at with_locations]. rewrite pop_back_last. cbn [bind].
  unfold set_inf, upd. reflexivity.
Qed.

Lemma set_in_check_same st q : in_check st = q -> set_in_check st q = st.
Proof. intros <-. destruct st; reflexivity. Qed.

(** *** Captures *)
Definition texts_of (texts : list (list str)) : list str := map (fun l => fit mcl (List.concat l)) texts.
Definition add_caps (texts : list (list str)) (st : state) : state :=
  set_inf st (with_captures (inf st) (captures (inf st) ++ texts_of texts)).
Definition ctx_caps (texts : list (list str)) (cx : context) : context :=
  mkctx (enclosing cx) (captured cx ++ texts_of texts) (where_ cx).

Lemma add_captures_eq texts : forall st, held st = None ->
  length (captures (inf st)) + length texts <= cf_max_captures cf ->
  add_captures cf texts st = Ok (add_caps texts st).
Proof.
  induction texts as [|t texts IH]; intros st H L; cbn [add_captures].
  - unfold add_caps. cbn [texts_of map]. rewrite app_nil_r. destruct st as [[] ? ? ? ? ? ? ? ?]; reflexivity.
  - unfold add_capture. cbn [length] in L. destruct (Nat.eqb_spec (length (captures (inf st))) (cf_max_captures cf)); [lia|].
    rewrite notify_none by auto.
    destruct (append_or_truncate_spec (new_string mcl) t (wf_new _)) as (m & E1 & _ & _ & C).
    rewrite E1. cbn [bind]. rewrite C, vcontent_new, vcap_new. cbn [app].
    rewrite IH; [|auto|cbn [inf set_inf captures with_captures]; rewrite app_length; simpl; lia].
    unfold add_caps. cbn [inf set_inf captures with_captures texts_of map]. rewrite <- app_assoc. reflexivity.
Qed.

Lemma normal_caps texts st cx s : normal st cx s -> normal (add_caps texts st) (ctx_caps texts cx) s.
Proof.
  intros []. constructor; cbn [held unhandled status inf current_section captures locations depth in_check add_caps set_inf
    with_captures may_fail should_fail enclosing captured where_ ctx_caps]; auto. now rewrite n_captures0.
Qed.

Lemma capture_end_eq u texts st ev s lv lf h :
  capture_end u (length texts) (upd (add_caps texts st) ev s lv lf h) =
  Ok (upd st ev s lv lf (match h with Some i => Some i
                         | None => if u then Some (inf (upd (add_caps texts st) ev s lv lf None)) else None end)).
Proof.
  unfold capture_end. rewrite hold_upd.
  generalize (match h with Some i => Some i
              | None => if u then Some (inf (upd (add_caps texts st) ev s lv lf None)) else None end) as h'. intros h'.
  unfold upd, add_caps. cbn [inf captures set_inf with_captures]. rewrite app_length.
  assert (L : length (texts_of texts) = length texts) by apply map_length.
  rewrite L, csub_ok by lia. cbn [bind].
  replace (length (captures (inf st)) + length texts - length texts) with (length (captures (inf st))) by lia.
  rewrite firstn_app_le, firstn_all by lia. reflexivity.
Qed.

(** ** Checks *)
Definition ctx_exact (q : bool) (line : nat) (cx : context) : context :=
  mkctx (enclosing cx) (captured cx) (mkloc line (if q then Exact else InCheck)).

Lemma conclusion_parallel q line st cx s0 ev s1 lv lf h ok what : normal st cx s0 ->
  (h = None \/ exists i, h = Some i /\ length (current_section i) = length (current_section (inf st))) ->
  let '(ea, sa, _) := assertion id may should (ctx_exact q line cx) ok what s1 in
  exists st3, report_assertion cf id ok what (upd (open_at q line st) ev s1 lv lf h) = Ok st3 /\
    notify_exception_handled cf st3 = upd (open_at q line st) (ev ++ ea) sa lv lf None /\
    (h = None -> st3 = upd (open_at q line st) (ev ++ ea) sa lv lf None).
Proof using verbose.
  intros N H. unfold assertion. destruct (skipped s1) eqn:SK.
  - destruct s1; try discriminate. eexists. rewrite report_assertion_skipped by reflexivity. split; [reflexivity|].
    rewrite app_nil_r. split; [|now intros ->].
    destruct H as [->|(i & -> & L)]; [apply notify_none; reflexivity|].
    erewrite notify_same; [reflexivity|reflexivity|]. unfold upd. cbn [inf current_section open_at with_locations].
    now rewrite bump_length.
  - assert (s1 <> Skipped) by (intros ->; discriminate).
    eexists. rewrite (report_assertion_eq _ s1 ok what
        (inf (upd (open_at q line st) ev s1 lv lf h)) (ctx_check line cx)).
    + split; [reflexivity|].
      cbn [in_check upd open_at where_ ctx_check loc_line enclosing captured may_fail should_fail held levels inf leaf_executed].
      replace (mkctx (enclosing cx) (captured cx) (if q then mkloc line Exact else mkloc line InCheck)) with (ctx_exact q line cx) by (destruct q; reflexivity).
      assert (E : assertion_event (upd (open_at q line st) ev s1 lv lf h) (ctx_exact q line cx) ok what =
        (if ok then AssertionSucceeded id (enclosing cx) (captured cx) (mkloc line (if q then Exact else InCheck)) what
         else AssertionFailed id (enclosing cx) (captured cx) (mkloc line (if q then Exact else InCheck)) what should may)).
      { unfold assertion_event. cbn [should_fail may_fail upd open_at]. now rewrite (n_may _ _ _ N), (n_should _ _ _ N). }
      unfold ctx_exact in E |- *. cbn [enclosing captured where_] in E |- *.
      rewrite <- E. rewrite (n_may _ _ _ N), (n_should _ _ _ N). split.
      * destruct H as [->|(i & -> & L)].
        -- rewrite upd_upd. apply notify_none; reflexivity.
        -- rewrite upd_upd. erewrite notify_same; [reflexivity|reflexivity|].
           unfold upd, count_info. cbn [inf current_section open_at with_locations with_current_section].
           now rewrite bump_length, map_length.
      * intros ->. rewrite upd_upd. reflexivity.
    + reflexivity.
    + auto.
    + unfold upd, open_at. cbn [unhandled held inf]. rewrite (n_unhandled _ _ _ N). reflexivity.
    + cbn [inf locations upd open_at with_locations where_ ctx_check]. eauto.
    + cbn [inf current_section upd open_at with_locations enclosing ctx_check]. rewrite bump_ids. apply N.
    + cbn [inf captures upd open_at with_locations captured ctx_check]. apply N.
Qed.

Definition same_ending (x : option exn) (y : ending) : Prop :=
  match x, y with None, Finished => True | Some e, Threw e' _ _ => e = e' | _, _ => False end.

Lemma conclude_eq q line st cx s0 ev s1 lv lf h pass w abort x y : normal st cx s0 ->
  same_ending x y ->
  (x = None -> h = None) ->
  (h = None \/ exists i, h = Some i /\ length (current_section i) = length (current_section (inf st))) ->
  match conclusion mml pass w y with
  | None => conclude cf id pass w abort x (upd (open_at q line st) ev s1 lv lf h) =
            Ok (upd (open_at q line st) ev s1 lv lf h, x) /\ x <> None
  | Some (ok, what) =>
    let '(ea, sa, _) := assertion id may should (ctx_exact q line cx) ok what s1 in
    conclude cf id pass w abort x (upd (open_at q line st) ev s1 lv lf h) =
    Ok (upd (open_at q line st) (ev ++ ea) sa lv lf None, if ok then None else maybe_abort abort)
  end.
Proof using verbose.
  intros N SE X H.
  assert (R : forall ok what, let '(ea, sa, _) := assertion id may should (ctx_exact q line cx) ok what s1 in
     (do st1 <- report_assertion cf id ok what (upd (open_at q line st) ev s1 lv lf h) ;;
     Ok (notify_exception_handled cf st1, if ok then None else maybe_abort abort)) =
     Ok (upd (open_at q line st) (ev ++ ea) sa lv lf None, if ok then None else maybe_abort abort)).
  { intros ok what. pose proof (conclusion_parallel q line st cx s0 ev s1 lv lf h ok what N H) as Q.
    destruct (assertion _ _ _ _ _ _ _) as [[ea sa] xa]. destruct Q as (st3 & E1 & E2 & _). rewrite E1. cbn [bind].
    now rewrite E2. }
  assert (R0 : x = None -> forall ok what, let '(ea, sa, _) := assertion id may should (ctx_exact q line cx) ok what s1 in
     (do st1 <- report_assertion cf id ok what (upd (open_at q line st) ev s1 lv lf h) ;;
     Ok (st1, if ok then None else maybe_abort abort)) =
     Ok (upd (open_at q line st) (ev ++ ea) sa lv lf None, if ok then None else maybe_abort abort)).
  { intros HX ok what. pose proof (conclusion_parallel q line st cx s0 ev s1 lv lf h ok what N H) as Q.
    destruct (assertion _ _ _ _ _ _ _) as [[ea sa] xa]. destruct Q as (st3 & E1 & _ & E2). rewrite E1. cbn [bind].
    now rewrite E2 by auto. }
  destruct x as [e|], y as [|e' from gone]; try contradiction; cbn [same_ending] in SE; try subst e'.
  - (* exception *)
    destruct w as [what outcome|type accepts|type accepts matches describe|source]; cbn [conclude conclusion].
    + split; [reflexivity|discriminate].
    + destruct (accepts e); [apply R|]. destruct e; rewrite ?report_assertion2_eq, <- ?app_assoc; apply R.
    + destruct (accepts e); [destruct (matches e); rewrite report_assertion2_eq; apply R|].
      destruct e; rewrite ?report_assertion2_eq; apply R.
    + destruct e; rewrite ?report_assertion2_eq; apply R.
  - destruct w as [what outcome|type accepts|type accepts matches describe|source]; cbn [conclude conclusion]; now apply R0.
Qed.

(** ** Sections *)
Definition bump_top (l : level) : level := mklevel (S (cur_id l)) (prev_id l) (Nat.max (max_id l) (S (cur_id l))).
Definition enter_top (l : level) : level := mklevel (S (cur_id l)) (S (cur_id l)) (Nat.max (max_id l) (S (cur_id l))).

Definition open_section (sec : section_id) (start : list event) (lv : list level) (st : state) : state :=
  mkstate (mkinfo (current_section (inf st) ++ [mksd sec (mkcounts 0 0 0)]) lv (S (depth (inf st)))
                  (leaf_executed (inf st)) (captures (inf st))
                  (locations (inf st) ++ [mkloc (sec_line sec) SectionScope]))
          (held st) (asserts st) (may_fail st) (should_fail st) (in_check st) (unhandled st) (status st)
          (trace st ++ start).
Definition ctx_section (sec : section_id) (cx : context) : context :=
  mkctx (enclosing cx ++ [sec]) (captured cx) (mkloc (sec_line sec) SectionScope).

Lemma normal_section sec start lv st cx s : normal st cx s -> normal (open_section sec start lv st) (ctx_section sec cx) s.
Proof.
  intros []. constructor; cbn [held unhandled status inf current_section captures locations depth in_check open_section
    may_fail should_fail enclosing captured where_ ctx_section]; auto.
  - rewrite map_app, n_sections0. reflexivity.
  - eauto.
  - rewrite app_length, n_depth0. simpl; lia.
Qed.

Lemma max_if m c : (if m <? c then c else m) = Nat.max m c.
Proof. destruct (Nat.ltb_spec m c); lia. Qed.

Lemma at_index_mid {A} (a : list A) x b : at_index (a ++ x :: b) (length a) = Ok x.
Proof. unfold at_index. rewrite nth_error_app2, Nat.sub_diag by lia. reflexivity. Qed.
Lemma put_index_mid {A} (a : list A) x b y : put_index (a ++ x :: b) (length a) y = Ok (a ++ y :: b).
Proof.
  unfold put_index. destruct (Nat.ltb_spec (length a) (length (a ++ x :: b))) as [|H].
  - rewrite firstn_app_le, firstn_all, skipn_app_ge by lia. replace (S (length a) - length a) with 1 by lia. reflexivity.
  - rewrite app_length in H. simpl in H. lia.
Qed.

Lemma section_enter_eq sec st cx s pre lvo : normal st cx s -> length (locations (inf st)) < cf_max_nested cf + 2 ->
  levels (inf st) = pre ++ lvo -> length pre = depth (inf st) -> depth (inf st) < cf_max_nested cf ->
  let t := top lvo in
  let first := cur_id t =? prev_id t in
  let again := (S (cur_id t) =? prev_id t) && (0 <? length (tl lvo)) in
  section_enter cf sec st =
  Ok (if leaf_executed (inf st) || (negb first && negb again)
      then (set_inf st (with_depth (with_levels (inf st) (pre ++ bump_top t :: tl lvo)) (S (depth (inf st)))), false)
      else (open_section sec (if first then [SectionStarted sec] else []) (pre ++ enter_top t :: tl lvo) st, true)).
Proof using verbose.
  intros N I L D M t first again. unfold section_enter. rewrite notify_none by apply N. rewrite L.
  assert (E : (if length (pre ++ lvo) <=? depth (inf st)
     then if cf_max_nested cf <=? depth (inf st) then Err Assert
          else push_back (cf_max_nested cf) (pre ++ lvo) (mklevel 0 0 0)
     else Ok (pre ++ lvo)) = Ok (pre ++ t :: tl lvo)).
  { rewrite app_length. unfold t. destruct lvo as [|l lvo]; cbn [length top tl].
    - destruct (Nat.leb_spec (length pre + 0) (depth (inf st))); [|lia].
      destruct (Nat.leb_spec (cf_max_nested cf) (depth (inf st))); [lia|].
      rewrite app_nil_r, push_back_ok by lia. reflexivity.
    - destruct (Nat.leb_spec (length pre + S (length lvo)) (depth (inf st))); [lia|]. reflexivity. }
  rewrite E. cbn [bind]. replace (S (depth (inf st)) - 1) with (length pre) by lia.
  rewrite at_index_mid. cbn [bind]. rewrite put_index_mid. cbn [bind]. rewrite max_if.
  fold (bump_top t). destruct (leaf_executed (inf st)) eqn:LF; cbn [orb]; [reflexivity|].
  assert (F : (S (cur_id t) =? S (prev_id t)) = first) by reflexivity. rewrite F.
  assert (G : (S (cur_id t) =? prev_id t) && (S (depth (inf st)) <? length (pre ++ bump_top t :: tl lvo)) = again).
  { unfold again. f_equal. rewrite app_length. cbn [length].
    destruct (Nat.ltb_spec (S (depth (inf st))) (length pre + S (length (tl lvo)))), (Nat.ltb_spec 0 (length (tl lvo))); auto; lia. }
  rewrite G. destruct (negb first && negb again); [reflexivity|].
  rewrite put_index_mid. cbn [bind inf set_inf with_depth with_levels current_section].
  rewrite push_back_ok by (rewrite <- (n_depth _ _ _ N); lia). cbn [bind].
  unfold push_location. cbn [inf set_inf with_depth with_levels with_current_section locations].
  rewrite push_back_ok by lia. cbn [bind]. do 2 f_equal.
  unfold report_section_started. rewrite report_full. cbn [inf held asserts may_fail should_fail in_check unhandled status trace set_inf
    with_locations with_current_section with_levels with_depth sd_id].
  unfold open_section. destruct first; [|rewrite app_nil_r]; destruct (inf st); reflexivity.
Qed.

Lemma exit_aux b x i sec c cs : current_section i = cs ++ [mksd sec c] ->
  (do st3 <- (if b : bool then do s0 <- back (current_section (inf (set_inf x i))) ;; Ok (report_section_ended cf s0 (set_inf x i))
              else Ok (set_inf x i)) ;;
   do cs <- pop_back (current_section (inf st3)) ;;
   Ok (set_inf st3 (with_current_section (inf st3) cs))) =
  Ok (mkstate (with_current_section i cs) (held x) (asserts x) (may_fail x) (should_fail x) (in_check x) (unhandled x)
        (status x) (trace x ++ if b then [SectionEnded sec (is_skipped (status x)) c] else [])).
Proof using verbose.
  intros Hi. destruct b; cbn [inf set_inf]; [rewrite Hi, back_last; unfold report_section_ended; cbn [bind sd_id sd_counts]; rewrite report_full|];
    cbn [bind inf set_inf]; rewrite Hi, pop_back_last; cbn [bind]; [reflexivity|].
  rewrite app_nil_r. reflexivity.
Qed.

Lemma exit_rest u x sec c cs locs l0 : current_section (inf x) = cs ++ [mksd sec c] -> locations (inf x) = locs ++ [l0] ->
  0 < depth (inf x) <= length (levels (inf x)) ->
  let is_leaf := depth (inf x) =? length (levels (inf x)) in
  let all_done := forallb complete (skipn (depth (inf x)) (levels (inf x))) in
  section_exit cf true u x =
  Ok (mkstate (mkinfo cs (if is_leaf then levels (inf x) else if all_done then removelast (levels (inf x)) else levels (inf x))
         (depth (inf x) - 1) (is_leaf || leaf_executed (inf x)) (captures (inf x)) locs)
        (held (hold u x)) (asserts x) (may_fail x) (should_fail x) (in_check x) (unhandled x) (status x)
        (trace x ++ if (is_leaf || all_done) && negb u then [SectionEnded sec (is_skipped (status x)) c] else [])).
Proof using verbose.
  intros HC HL HD is_leaf all_done. unfold section_exit, pop_location.
  assert (HI : inf (hold u x) = inf x) by (unfold hold; destruct u, (held x); reflexivity).
  rewrite HI, HL, pop_back_last. cbn [bind].
  change (fun child : level => prev_id child =? max_id child) with complete.
  change (inf (set_inf (hold u x) (with_locations (inf x) locs))) with (with_locations (inf x) locs).
  cbv zeta.
  assert (E : forall (A : Type) (f : info -> bool -> res A) (i : info), levels i = levels (inf x) -> depth i = depth (inf x) ->
     (do (i2, last_entry) <- (if depth i =? length (levels i) then Ok (with_leaf_executed i true, true)
        else if forallb complete (skipn (depth i) (levels i)) then do lv1 <- pop_back (levels i) ;; Ok (with_levels i lv1, true) else Ok (i, false)) ;; f i2 last_entry) =
     f (mkinfo (current_section i) (if is_leaf then levels (inf x) else if all_done then removelast (levels (inf x)) else levels (inf x)) (depth i)
          (is_leaf || leaf_executed i) (captures i) (locations i)) (is_leaf || all_done)).
  { intros A f i H H'. rewrite H, H'. fold is_leaf. fold all_done. clearbody is_leaf all_done. destruct is_leaf; [cbn; rewrite <- H, <- H'; reflexivity|].
    destruct all_done.
    - unfold pop_back. destruct (levels (inf x)) as [|y lv]; [simpl in HD; lia|]. unfold with_levels; rewrite H'; reflexivity.
    - cbn. rewrite <- H, <- H'. destruct i; reflexivity. }
  rewrite E by reflexivity. clear E.
  rewrite (exit_aux _ _ _ sec c cs) by exact HC.
  cbn [bind inf depth with_current_section with_locations]. rewrite csub_ok by lia. cbn [bind]. f_equal.
  unfold hold. destruct u, (held x) eqn:HE; cbn; rewrite ?HE; reflexivity.
Qed.

Lemma section_exit_eq u sec start lv0 st ev s lv lf h :
  (start = [] \/ start = [SectionStarted sec]) -> S (depth (inf st)) <= length lv ->
  let st1 := open_section sec start lv0 st in
  let is_leaf := S (depth (inf st)) =? length lv in
  let all_done := forallb complete (skipn (S (depth (inf st))) lv) in
  let stop := if (is_leaf || all_done) && negb u then [SectionEnded sec (skipped s) (tally ev)] else [] in
  section_exit cf true u (upd st1 ev s lv lf h) =
  Ok (upd st (start ++ ev ++ stop) s (if is_leaf then lv else if all_done then removelast lv else lv) (is_leaf || lf)
       (match h with Some i => Some i | None => if u then Some (inf (upd st1 ev s lv lf None)) else None end)).
Proof using verbose.
  intros ST L st1 is_leaf all_done stop.
  assert (T1 : tally start = mkcounts 0 0 0) by (destruct ST as [->| ->]; reflexivity).
  assert (T2 : tally (start ++ ev ++ stop) = tally ev).
  { rewrite !tally_app, T1, plus_0_l. unfold stop. destruct (_ && _); simpl; apply plus_0. }
  assert (HC : current_section (inf (upd st1 ev s lv lf h)) = bump (tally ev) (current_section (inf st)) ++ [mksd sec (tally ev)]).
  { unfold upd, st1, open_section. cbn [inf current_section]. rewrite bump_app. cbn [bump map sd_id sd_counts]. now rewrite plus_0_l. }
  rewrite (exit_rest u _ _ _ _ (locations (inf st)) _ HC eq_refl) by (cbn [inf upd st1 open_section depth levels]; lia).
  rewrite hold_upd.
  generalize (match h with Some i => Some i | None => if u then Some (inf (upd st1 ev s lv lf None)) else None end) as h'.
  intros h'. f_equal. unfold upd. rewrite T2.
  cbn [inf depth levels st1 open_section asserts may_fail should_fail in_check unhandled status trace leaf_executed captures held locations current_section].
  fold is_leaf. fold all_done. rewrite is_skipped_intern. fold stop. rewrite <- !app_assoc. f_equal. f_equal. lia.
Qed.

(** ** The main induction *)
Definition good (st : state) (cx : context) (pre : list level) (t : option nat) (A L : list prog) (lvo : list level)
  (F : Prop) (r : behaviour) (m : res (state * option exn)) : Prop :=
  let '(ev, s', x) := r in
  match x with
  | Finished => exists lvo' lf', m = Ok (upd st ev s' (pre ++ lvo') lf' None, None) /\
                  reached t A L lvo (leaf_executed (inf st)) lvo' lf'
  | Threw e from gone => exists lv lf h, m = Ok (upd st ev s' lv lf h, Some e) /\
      held_ok st cx ev from gone h /\ depth (inf st) <= length lv /\
      (F -> lv = levels (inf st) /\ lf = leaf_executed (inf st) /\ gone = [])
  end.

Definition correct (p : prog) : Prop := forall pass st cx s t pre lvo L,
  normal st cx s -> in_check st = false ->
  length (current_section (inf st)) + nesting p <= cf_max_nested cf ->
  length (locations (inf st)) + scopes p <= cf_max_nested cf + 2 ->
  length (captures (inf st)) + capturing p <= cf_max_captures cf ->
  levels (inf st) = pre ++ lvo -> length pre = depth (inf st) ->
  seek t (secs p ++ L) lvo (leaf_executed (inf st)) ->
  good st cx pre t (secs p) L lvo (flat p) (B pass cx t p s) (exec cf id pass p st).

Lemma continue k : correct k -> forall pass st cx s t pre lvo L A ev1 s1 lvo1 lf1 (F : Prop) t1,
  normal st cx s -> in_check st = false ->
  length (current_section (inf st)) + nesting k <= cf_max_nested cf ->
  length (locations (inf st)) + scopes k <= cf_max_nested cf + 2 ->
  length (captures (inf st)) + capturing k <= cf_max_captures cf ->
  levels (inf st) = pre ++ lvo -> length pre = depth (inf st) ->
  seek t (A ++ secs k ++ L) lvo (leaf_executed (inf st)) ->
  reached t A (secs k ++ L) lvo (leaf_executed (inf st)) lvo1 lf1 ->
  (F -> A = [] /\ flat k) -> t1 = pass_over t A ->
  good st cx pre t (A ++ secs k) L lvo F (after (ev1, s1, Finished) (B pass cx t1 k))
    (exec cf id pass k (upd st ev1 s1 (pre ++ lvo1) lf1 None)).
Proof.
  intros IH pass st cx s t pre lvo L A ev1 s1 lvo1 lf1 F t1 N I NE SC K LV D SK R HF ->.
  pose proof (normal_upd _ _ _ ev1 s1 (pre ++ lvo1) lf1 N) as N1.
  specialize (IH pass _ _ _ (pass_over t A) pre lvo1 L N1 I).
  cbn [inf upd current_section captures levels depth leaf_executed locations] in IH. rewrite bump_length in IH.
  specialize (IH NE SC K eq_refl D (seek_after _ _ _ _ _ _ _ SK R)).
  cbn [after]. unfold good in IH |- *. destruct (B pass cx (pass_over t A) k s1) as [[ev2 s2] x2].
  destruct x2 as [|e from gone].
  - destruct IH as (lvo' & lf' & E & R2). exists lvo', lf'. rewrite E, upd_upd. split; [reflexivity|].
    eapply reached_app; eauto.
  - destruct IH as (lv & lf & h & E & HO & DL & G). exists lv, lf, h. rewrite E, upd_upd. split; [reflexivity|].
    split; [eapply held_ok_upd; eauto|]. split; [auto|]. intros HFl. destruct (HF HFl) as [-> FK].
    destruct (G FK) as (-> & -> & ->). cbn [inf levels leaf_executed upd]. rewrite LV.
    destruct t as [j|]; cbn [reached] in R.
    + change (j <? total []) with false in R. cbn in R. destruct R as [-> ->]. auto.
    + cbn in R. destruct R as [-> ->]. auto.
Qed.

Lemma skip_eq line message st cx s : normal st cx s ->
  report_skipped cf id message (open_check line st) =
  Ok (upd (open_check line st) [TestCaseSkipped id (enclosing cx) (captured cx) (mkloc line Exact) message] (skip_state s)
        (levels (inf st)) (leaf_executed (inf st)) None).
Proof using verbose.
  intros N. unfold report_skipped.
  assert (E : raise_state (open_check line st) ISkipped = set_status (open_check line st) (intern (skip_state s))).
  { unfold raise_state. cbn [status open_at]. rewrite (n_status _ _ _ N).
    destruct s; cbn [intern skip_state irank]; try reflexivity;
      unfold set_status, open_at; cbn; rewrite (n_status _ _ _ N); reflexivity. }
  rewrite E. cbn [inf set_status open_at with_locations locations current_section captures].
  rewrite back_last. cbn [bind loc_line]. rewrite report_full. f_equal.
  rewrite (n_sections _ _ _ N), (n_captures _ _ _ N). unfold upd.
  change (tally [TestCaseSkipped id (enclosing cx) (captured cx) (mkloc line Exact) message]) with (mkcounts 0 0 0).
  cbn [inf set_status open_at held asserts may_fail should_fail in_check unhandled status trace with_locations
    current_section captures locations depth].
  rewrite bump_0, plus_0, (n_held _ _ _ N). destruct st as [[] ? ? ? ? ? ? ? ?]; reflexivity.
Qed.

(** ** Code with no section, possibly inside a check *)
Definition fine (st : state) (cx : context) (c : bool) (y : option exn) (r : behaviour) (m : res (state * option exn)) : Prop :=
  let '(ev, s', x) := r in
  exists h, m = Ok (upd (set_in_check st (in_check st && negb c)) ev s' (levels (inf st)) (leaf_executed (inf st)) h, y) /\
    same_ending y x /\
    match x with Finished => h = None | Threw _ from gone => held_ok st cx ev from gone h /\ gone = [] end.

Definition flat_correct (p : prog) : Prop := forall pass st cx s, normal st cx s ->
  length (locations (inf st)) + scopes p <= cf_max_nested cf + 2 ->
  length (captures (inf st)) + capturing p <= cf_max_captures cf ->
  fine st cx (fst (flow pass p)) (snd (flow pass p)) (B pass cx None p s) (exec cf id pass p st).

Lemma normal_in_check st cx s q : normal st cx s -> normal (set_in_check st q) cx s.
Proof. intros []. constructor; auto. Qed.

Lemma flat_continue k : flat_correct k -> forall pass st cx s c ev1 s1, normal st cx s ->
  length (locations (inf st)) + scopes k <= cf_max_nested cf + 2 ->
  length (captures (inf st)) + capturing k <= cf_max_captures cf ->
  fine st cx (c || fst (flow pass k)) (snd (flow pass k)) (after (ev1, s1, Finished) (B pass cx None k))
    (exec cf id pass k (upd (set_in_check st (in_check st && negb c)) ev1 s1 (levels (inf st)) (leaf_executed (inf st)) None)).
Proof.
  intros IH pass st cx s c ev1 s1 N SC K. set (st1 := set_in_check st (in_check st && negb c)).
  pose proof (normal_upd _ _ _ ev1 s1 (levels (inf st)) (leaf_executed (inf st)) (normal_in_check _ _ _ (in_check st && negb c) N)) as N1.
  fold st1 in N1. specialize (IH pass _ _ _ N1 SC K). unfold fine in IH |- *. cbn [after].
  destruct (B pass cx None k s1) as [[ev2 s2] x2]. destruct IH as (h & E & SE & H). exists h. split; [|split; [exact SE|]].
  - rewrite E. cbn [upd in_check st1 set_in_check inf levels leaf_executed].
    change (set_in_check (upd st1 ev1 s1 (levels (inf st)) (leaf_executed (inf st)) None) (in_check st && negb c && negb (fst (flow pass k))))
      with (upd (set_in_check st (in_check st && negb c && negb (fst (flow pass k)))) ev1 s1 (levels (inf st)) (leaf_executed (inf st)) None).
    rewrite upd_upd, negb_orb, andb_assoc. reflexivity.
  - destruct x2; auto. destruct H as [H ->]. split; auto. change (held_ok (upd st ev1 s1 (levels (inf st)) (leaf_executed (inf st)) None) cx ev2 from [] h) in H.
    eapply held_ok_upd; eauto.
Qed.

Lemma holds_conclusion pass w x y : same_ending y x -> holds pass w y = option_map fst (conclusion mml pass w x).
Proof.
  intros S. destruct x as [|e from gone], y as [e'|]; try contradiction; cbn [same_ending] in S; try subst e';
    destruct w; cbn [holds conclusion option_map fst]; auto.
  - destruct (accepts e); reflexivity.
  - destruct (accepts e); [destruct (matches e)|]; reflexivity.
  - destruct e; reflexivity.
Qed.

(** A check, up to what follows it. *)
Definition checked_as (st : state) (ev : list event) (s : case_state) (h : option info) : state :=
  upd (set_in_check st false) ev s (levels (inf st)) (leaf_executed (inf st)) h.

Lemma check_step line w abort e : flat_correct e -> forall pass st cx s, normal st cx s ->
  length (locations (inf st)) + S (scopes e) <= cf_max_nested cf + 2 ->
  length (captures (inf st)) + capturing e <= cf_max_captures cf ->
  let m := do st1 <- check_begin cf line st ;;
           do (st2, x) <- exec cf id pass e st1 ;;
           do (st3, y) <- conclude cf id pass w abort x st2 ;;
           do st4 <- check_end (is_some y) st3 ;; Ok (st4, y) in
  let '(ev, s1, x) := B pass (ctx_check line cx) None e s in
  same_ending (snd (flow pass e)) x /\
  match conclusion mml pass w x with
  | None => exists y from h, x = Threw y from [] /\ m = Ok (checked_as st ev s1 h, Some y) /\ held_ok st cx ev from [] h
  | Some (ok, what) =>
    let '(ea, sa, _) := assertion id may should (mkctx (enclosing cx) (captured cx) (mkloc line (precision pass e))) ok what s1 in
    if negb ok && abort
    then exists h, m = Ok (checked_as st (ev ++ ea) sa h, Some AbortExn) /\ held_ok st cx (ev ++ ea) (ctx_check line cx) [] h
    else m = Ok (checked_as st (ev ++ ea) sa None, None)
  end.
Proof using verbose.
  intros CE pass st cx s N SC K. cbv zeta.
  destruct (check_begin_eq line st cx s N ltac:(lia)) as [E1 N1]. rewrite E1. cbn [bind].
  specialize (CE pass _ _ _ N1). cbn [inf open_at with_locations captures locations] in CE. rewrite app_length in CE. cbn [length] in CE.
  specialize (CE ltac:(lia) ltac:(lia)). unfold fine in CE. cbn [in_check open_at inf with_locations levels leaf_executed andb] in CE.
  destruct (B pass (ctx_check line cx) None e s) as [[ev s1] x]. destruct CE as (h & EX & SE & HX). split; [exact SE|].
  set (q := negb (fst (flow pass e))) in *.
  change (set_in_check (open_check line st) q) with (open_at q line st) in EX. rewrite EX. cbn [bind].
  assert (XN : snd (flow pass e) = None -> h = None).
  { intros F. rewrite F in SE. destruct x; [exact HX|contradiction]. }
  assert (HH : h = None \/ exists i, h = Some i /\ length (current_section i) = length (current_section (inf st))).
  { destruct x as [|y from gone]; [auto|]. destruct HX as [HO ->]. destruct h as [i|]; [right|left; auto]. exists i. split; auto.
    destruct HO as (_ & H2 & _). rewrite H2. cbn [map]. rewrite app_nil_r, bump_length. reflexivity. }
  pose proof (conclude_eq q line st cx s ev s1 (levels (inf st)) (leaf_executed (inf st)) h pass w abort (snd (flow pass e)) x N SE XN HH) as C.
  assert (EC : ctx_exact q line cx = mkctx (enclosing cx) (captured cx) (mkloc line (precision pass e))).
  { unfold ctx_exact, precision, q. now destruct (fst (flow pass e)). }
  rewrite EC in C. destruct (conclusion mml pass w x) as [[ok what]|].
  - destruct (assertion _ _ _ _ _ _ _) as [[ea sa] xa]. rewrite C. cbn [bind]. rewrite check_end_eq. cbn [bind].
    destruct ok; cbn [negb andb is_some]; [reflexivity|]. unfold maybe_abort. destruct abort; cbn [is_some]; [|reflexivity].
    eexists. split; [reflexivity|].
    apply (held_ok_scope st (open_at q line st) cx (ctx_check line cx) (ev ++ ea) (ctx_check line cx) [] None); auto; try apply N1.
    split; [cbn [map]; now rewrite app_nil_r|auto].
  - destruct C as [C XS]. rewrite C. cbn [bind]. rewrite check_end_eq. cbn [bind].
    destruct (snd (flow pass e)) as [y|]; [|congruence]. destruct x as [|y' from gone]; [contradiction|]. cbn [same_ending] in SE. subst y'.
    destruct HX as [HO ->]. cbn [is_some]. eexists y, from, _. split; [reflexivity|]. split; [reflexivity|].
    replace (match h with Some i => Some i | None => _ end) with
      (Some (match h with Some i => i | None => inf (upd (open_at q line st) ev s1 (levels (inf st)) (leaf_executed (inf st)) None) end)) by (destruct h; reflexivity).
    apply (held_ok_scope st (open_at q line st) cx (ctx_check line cx)); auto; apply N1.
Qed.

Lemma check_then {A} (line : nat) (w : expectation) abort e pass st (f : state * option exn -> res A) :
  (do st1 <- check_begin cf line st ;;
   do (st2, x) <- exec cf id pass e st1 ;;
   do (st3, y) <- conclude cf id pass w abort x st2 ;;
   do st4 <- check_end (is_some y) st3 ;; f (st4, y)) =
  (do r <- (do st1 <- check_begin cf line st ;;
            do (st2, x) <- exec cf id pass e st1 ;;
            do (st3, y) <- conclude cf id pass w abort x st2 ;;
            do st4 <- check_end (is_some y) st3 ;; Ok (st4, y)) ;; f r).
Proof.
  destruct (check_begin cf line st) as [st1|]; [|reflexivity]. cbn [bind].
  destruct (exec cf id pass e st1) as [[st2 x]|]; [|reflexivity]. cbn [bind].
  destruct (conclude cf id pass w abort x st2) as [[st3 y]|]; [|reflexivity]. cbn [bind].
  destruct (check_end (is_some y) st3); reflexivity.
Qed.

Lemma skip_step line message st cx s abort : normal st cx s -> length (locations (inf st)) < cf_max_nested cf + 2 ->
  let ev := [TestCaseSkipped id (enclosing cx) (captured cx) (mkloc line Exact) message] in
  exists h, (do st1 <- check_begin cf line st ;; do st2 <- report_skipped cf id message st1 ;; check_end abort st2) =
      Ok (checked_as st ev (skip_state s) h) /\
    if abort then held_ok st cx ev (ctx_check line cx) [] h else h = None.
Proof using verbose.
  intros N D ev. destruct (check_begin_eq line st cx s N D) as [E1 N1]. rewrite E1. cbn [bind].
  rewrite (skip_eq _ _ _ _ _ N). cbn [bind]. rewrite check_end_eq. fold ev. destruct abort; (eexists; split; [reflexivity|]); [|reflexivity].
  apply (held_ok_scope st (open_at true line st) cx (ctx_check line cx) ev (ctx_check line cx) [] None); auto; try apply N1.
  split; [cbn [map]; now rewrite app_nil_r|auto].
Qed.

Lemma skip_then {A} line message st abort (f : state -> res A) :
  (do st1 <- check_begin cf line st ;; do st2 <- report_skipped cf id message st1 ;; do st3 <- check_end abort st2 ;; f st3) =
  (do st3 <- (do st1 <- check_begin cf line st ;; do st2 <- report_skipped cf id message st1 ;; check_end abort st2) ;; f st3).
Proof.
  destruct (check_begin cf line st) as [st1|]; [|reflexivity]. cbn [bind].
  destruct (report_skipped cf id message st1) as [st2|]; reflexivity.
Qed.

Lemma fine_left st cx c y ev s' from h m : 
  m = Ok (upd (set_in_check st (in_check st && negb c)) ev s' (levels (inf st)) (leaf_executed (inf st)) h, Some y) ->
  held_ok st cx ev from [] h -> fine st cx c (Some y) (ev, s', Threw y from []) m.
Proof. intros E H. exists h. repeat split; auto; apply H. Qed.

Lemma exec_flat p : flat p -> regular p -> flat_correct p.
Proof using verbose.
  induction p as [|n k IHp|when y k IHp|line w abort e IHe k IHp|line message abort k IHp|sec b IHp1 k IHp2|texts b IHp1 k IHp2|accepts notify b IHp1 k IHp2];
    cbn [flat regular]; intros F R pass st cx s N SC K; try contradiction; cbn [behave exec flow]; cbn [capturing scopes] in *.
  - exists None. cbn [fst snd same_ending negb]. rewrite andb_true_r, set_in_check_same by reflexivity. repeat split; auto. do 2 f_equal. eapply upd_nil; eauto.
  - (* Act *)
    rewrite (user_eq _ _ _ n N).
    pose proof (flat_continue k (IHp F R) pass st cx s false [User n] s N SC K) as X. cbn [orb negb] in X.
    rewrite andb_true_r, set_in_check_same in X by reflexivity. exact X.
  - (* Throw *)
    destruct (when pass); [|apply IHp; auto]. apply (fine_left _ _ _ _ _ _ _ None).
    + cbn [fst negb]. rewrite andb_true_r, set_in_check_same by reflexivity. do 2 f_equal. eapply upd_nil; eauto.
    + repeat split; auto. now rewrite app_nil_r.
  - (* Check *)
    destruct F as [F1 F2], R as (_ & R1 & R2).
    pose proof (check_step line w abort e (IHe F1 R1) pass st cx s N ltac:(lia) ltac:(lia)) as C. cbv zeta in C.
    rewrite (check_then line w abort e pass st (fun '(st4, y) => match y with Some _ => Ok (st4, y) | None => exec cf id pass k st4 end)).
    change (mkctx (enclosing cx) (captured cx) (mkloc line InCheck)) with (ctx_check line cx).
    destruct (B pass (ctx_check line cx) None e s) as [[ev s1] x]. destruct C as [SE C].
    rewrite (holds_conclusion pass w x _ SE).
    destruct (conclusion mml pass w x) as [[ok what]|]; cbn [option_map fst].
    + cbn [after]. destruct (assertion id may should _ ok what s1) as [[ea sa] xa] eqn:EA.
      assert (xa = Finished) as -> by (unfold assertion in EA; destruct (skipped s1); injection EA; auto).
      cbn [after]. destruct (negb ok && abort).
      * destruct C as (h & C & HO). rewrite C. cbn [bind fst snd]. rewrite app_nil_r. apply (fine_left _ _ _ _ _ _ _ h); auto.
        cbn [negb]. rewrite andb_false_r. reflexivity.
      * rewrite C. cbn [bind fst snd].
        pose proof (flat_continue k (IHp F2 R2) pass st cx s true (ev ++ ea) sa N ltac:(lia) ltac:(lia)) as X. cbn [orb negb] in X.
        rewrite andb_false_r in X. cbn [after] in X. destruct (B pass cx None k sa) as [[? ?] ?]. rewrite app_assoc. exact X.
    + destruct C as (y & from & h & -> & C & HO). rewrite C. cbn [bind fst snd].
      destruct (snd (flow pass e)) as [y'|]; [|contradiction]. cbn [same_ending] in SE. subst y'. apply (fine_left _ _ _ _ _ _ _ h); auto.
      cbn [negb]. rewrite andb_false_r. reflexivity.
  - (* Skip *)
    destruct (skip_step line (message pass) st cx s abort N ltac:(lia)) as (h & C & HO).
    rewrite skip_then, C. cbn [bind fst snd].
    change (mkctx (enclosing cx) (captured cx) (mkloc line InCheck)) with (ctx_check line cx).
    destruct abort.
    + cbn [after]. rewrite app_nil_r. apply (fine_left _ _ _ _ _ _ _ h); auto. cbn [negb]. rewrite andb_false_r. reflexivity.
    + subst h.
      pose proof (flat_continue k (IHp F R) pass st cx s true [TestCaseSkipped id (enclosing cx) (captured cx) (mkloc line Exact) (message pass)] (skip_state s) N ltac:(lia) ltac:(lia)) as X.
      cbn [orb negb] in X. rewrite andb_false_r in X. exact X.
  - (* Capture *)
    destruct F as [F1 F2], R as [R1 R2].
    assert (TL : length (map (fun l => l pass) texts) = length texts) by apply map_length.
    assert (TM : map (fun l => fit mcl (List.concat (l pass))) texts = texts_of (map (fun l => l pass) texts)) by (unfold texts_of; now rewrite map_map).
    rewrite TM. rewrite <- TL in K |- *. clear TM TL. set (tx := map (fun l => l pass) texts) in *. clearbody tx.
    rewrite add_captures_eq; [|apply N|unfold text, str in *; lia]. cbn [bind].
    pose proof (normal_caps tx _ _ _ N) as N1.
    assert (K1 : length (captures (inf (add_caps tx st))) + capturing b <= cf_max_captures cf).
    { cbn [inf captures add_caps set_inf with_captures]. unfold texts_of. rewrite app_length, map_length. unfold text, str in *; lia. }
    specialize (IHp1 F1 R1 pass _ _ _ N1 ltac:(cbn [inf add_caps set_inf with_captures locations]; lia) K1).
    change (mkctx (enclosing cx) (captured cx ++ texts_of tx) (where_ cx)) with (ctx_caps tx cx) in *.
    cbn [past]. unfold fine in IHp1. destruct (B pass (ctx_caps tx cx) None b s) as [[ev s'] x]. destruct IHp1 as (h & E & SE & H).
    rewrite E. cbn [bind]. cbn [in_check inf add_caps set_inf levels leaf_executed with_captures].
    destruct (flow pass b) as [c y]. cbn [fst snd] in *.
    change (set_in_check (add_caps tx st) (in_check st && negb c)) with (add_caps tx (set_in_check st (in_check st && negb c))).
    change (set_in_check (set_inf st (with_captures (inf st) (captures (inf st) ++ texts_of tx))) (in_check st && negb c))
      with (add_caps tx (set_in_check st (in_check st && negb c))).
    rewrite capture_end_eq. cbn [bind].
    destruct x as [|e from gone], y as [e'|]; try contradiction.
    + cbn [same_ending] in SE. subst h. cbn [is_some fst snd].
      exact (flat_continue k (IHp2 F2 R2) pass st cx s c ev s' N ltac:(lia) ltac:(lia)).
    + cbn [same_ending] in SE. subst e'. destruct H as [H ->]. cbn [is_some after fst snd]. eapply fine_left; [reflexivity|].
      match goal with |- held_ok _ _ _ _ _ (match h with Some i => Some i | None => Some ?z end) =>
        replace (match h with Some i => Some i | None => Some z end) with (Some (match h with Some i => i | None => z end)) by (destruct h; reflexivity) end.
      apply (held_ok_scope st (add_caps tx (set_in_check st (in_check st && negb c))) cx (ctx_caps tx cx)); auto; apply N1.
  - (* Catch *)
    destruct F as [F1 F2], R as (-> & _ & R1 & R2).
    specialize (IHp1 F1 R1 pass _ _ _ N ltac:(lia) ltac:(lia)). cbn [past].
    unfold fine in IHp1. destruct (B pass cx None b s) as [[ev s'] x]. destruct IHp1 as (h & E & SE & H).
    rewrite E. cbn [bind]. destruct (flow pass b) as [c y]. cbn [fst snd] in *.
    destruct x as [|e from gone], y as [e'|]; try contradiction.
    + cbn [fst snd]. subst h. exact (flat_continue k (IHp2 F2 R2) pass st cx s c ev s' N ltac:(lia) ltac:(lia)).
    + cbn [same_ending] in SE. subst e'. destruct H as [H ->]. destruct (accepts e); cbn [negb fst snd].
      * assert (EN : notify_exception_handled cf (upd (set_in_check st (in_check st && negb c)) ev s' (levels (inf st)) (leaf_executed (inf st)) h) =
          upd (set_in_check st (in_check st && negb c)) ev s' (levels (inf st)) (leaf_executed (inf st)) None).
        { destruct h as [i|]; [|apply notify_none; reflexivity].
          rewrite (notify_same _ i); [reflexivity|reflexivity|].
          destruct H as (_ & H2 & _). rewrite H2. cbn [map]. rewrite app_nil_r. reflexivity. }
        rewrite EN. exact (flat_continue k (IHp2 F2 R2) pass st cx s c ev s' N ltac:(lia) ltac:(lia)).
      * eapply fine_left; eauto.
Qed.

Lemma enter_cases b L c pv rest j : Inv (b :: L) (pv - c) rest j -> c <= pv ->
  (pv = c /\ rest = [] /\ j = 0) \/
  (pv = S c /\ rest <> [] /\ 0 < j < leaves b /\ max_id (top rest) = length (secs b) /\ Inv (secs b) (prev_id (top rest)) (tl rest) j) \/
  (pv <> c /\ (pv = S c -> rest = []) /\ weight b <= j).
Proof.
  intros V C. destruct rest as [|lv rest]; cbn [Inv] in V.
  - destruct V as [V ->]. destruct (Nat.eq_dec pv c).
    + left. subst. now rewrite Nat.sub_diag.
    + right; right. repeat split; auto. replace (pv - c) with (S (pv - c - 1)) by lia. cbn [firstn]. rewrite total_cons. lia.
  - destruct V as (m & b' & j' & V1 & V2 & -> & V3 & V4 & V5 & V6). right. destruct m.
    + left. injection V2 as <-. cbn [firstn total map list_sum top tl]. cbn. repeat split; auto; try lia. discriminate.
    + right. repeat split; try lia. cbn [firstn]. rewrite total_cons. lia.
Qed.

Lemma skipn_mid {A} n (a : list A) x b : length a = n -> skipn (S n) (a ++ x :: b) = b.
Proof. intros <-. induction a; simpl in *; auto. Qed.

Lemma section_case sec b k : correct b -> correct k -> correct (InSection sec b k).
Proof using verbose.
  intros CB CK pass st cx s t pre lvo L N I NE SC K LV D SK. cbn [behave exec]; cbn [capturing nesting scopes secs flat] in *.
  pose proof (n_depth _ _ _ N) as ND.
  assert (SE := section_enter_eq sec st cx s pre lvo N ltac:(lia) LV D ltac:(lia)). cbv zeta in SE.
  (* not entered *)
  assert (NOT : forall t1, t1 = pass_over t [b] ->
     section_enter cf sec st = Ok (set_inf st (with_depth (with_levels (inf st) (pre ++ bump_top (top lvo) :: tl lvo)) (S (depth (inf st)))), false) ->
     reached t [b] (secs k ++ L) lvo (leaf_executed (inf st)) (meet 1 lvo) (leaf_executed (inf st)) ->
     good st cx pre t (b :: secs k) L lvo False (B pass cx t1 k s)
       (do (st1, entered) <- section_enter cf sec st ;;
        (if entered : bool then do (st2, x) <- exec cf id pass b st1 ;; do st3 <- section_exit cf true (is_some x) st2 ;;
            match x with Some _ => Ok (st3, x) | None => exec cf id pass k st3 end
         else do st3 <- section_exit cf false false st1 ;; exec cf id pass k st3))).
  { intros t1 T1 -> R. cbn [bind]. unfold section_exit. cbn [bind inf set_inf depth with_depth]. rewrite csub_ok by lia. cbn [bind].
    replace (set_inf _ _) with (upd st [] s (pre ++ meet 1 lvo) (leaf_executed (inf st)) None).
    - assert (X := continue k CK pass st cx s t pre lvo L [b] [] s (meet 1 lvo) (leaf_executed (inf st)) False t1 N I ltac:(lia) ltac:(lia) ltac:(lia) LV D SK R ltac:(tauto) T1).
      cbn [after] in X. destruct (B pass cx t1 k s) as [[? ?] ?]. exact X.
    - rewrite <- (n_held _ _ _ N). unfold upd. rewrite <- (n_status _ _ _ N). change (tally []) with (mkcounts 0 0 0).
      rewrite bump_0, plus_0, app_nil_r. unfold meet, bump_top. rewrite !Nat.add_1_r.
      replace (S (depth (inf st)) - 1) with (depth (inf st)) by lia.
      destruct st as [[] ? ? ? ? ? ? ? ?]; reflexivity. }
  destruct t as [j|]; cbn [seek] in SK.
  2:{ destruct SK as [LE LN]. rewrite LE in SE. cbn [orb] in SE. apply NOT; auto. cbn. auto. }
  destruct SK as (LE & ID & CP & MX & V). rewrite LE in SE. cbn [orb] in SE.
  assert (TW : total [b] = Nat.max 1 (leaves b)) by (rewrite total_cons; change (total []) with 0; unfold weight; lia).
  assert (ENT : j < Nat.max 1 (leaves b) ->
     section_enter cf sec st = Ok (open_section sec (if j =? 0 then [SectionStarted sec] else []) (pre ++ enter_top (top lvo) :: tl lvo) st, true) ->
     seek (Some j) (secs b ++ []) (tl lvo) false -> cur_id (top (tl lvo)) = 0 -> max_id (top (tl lvo)) <= length (secs b) ->
     (leaves b = 0 -> tl lvo = []) ->
     good st cx pre (Some j) (b :: secs k) L lvo False
       (if j <? Nat.max 1 (leaves b) then
        let inside := mkctx (enclosing cx ++ [sec]) (captured cx) (mkloc (sec_line sec) SectionScope) in
        let start := if j =? 0 then [SectionStarted sec] else [] in
        let '(ev, s1, x) := B pass inside (Some j) b s in
        match x with
        | Threw x from gone => (start ++ ev, s1, Threw x from ((sec, tally ev) :: gone))
        | Finished =>
          let stop := if S j =? Nat.max 1 (leaves b) then [SectionEnded sec (skipped s1) (tally ev)] else [] in
          after (start ++ ev ++ stop, s1, Finished) (B pass cx None k)
        end
       else B pass cx (Some (j - Nat.max 1 (leaves b))) k s)
       (do (st1, entered) <- section_enter cf sec st ;;
        (if entered : bool then do (st2, x) <- exec cf id pass b st1 ;; do st3 <- section_exit cf true (is_some x) st2 ;;
            match x with Some _ => Ok (st3, x) | None => exec cf id pass k st3 end
         else do st3 <- section_exit cf false false st1 ;; exec cf id pass k st3))).
  { clear NOT SE. intros W -> SKb C0 M0 LF. cbn [bind]. destruct (Nat.ltb_spec j (Nat.max 1 (leaves b))) as [_|]; [|lia].
    cbv zeta. change (mkctx (enclosing cx ++ [sec]) (captured cx) (mkloc (sec_line sec) SectionScope)) with (ctx_section sec cx).
    set (start := if j =? 0 then [SectionStarted sec] else []).
    assert (ST : start = [] \/ start = [SectionStarted sec]) by (unfold start; destruct (j =? 0); auto).
    set (lv0 := pre ++ enter_top (top lvo) :: tl lvo).
    pose proof (normal_section sec start lv0 st cx s N) as N1.
    assert (G := CB pass _ _ _ (Some j) (pre ++ [enter_top (top lvo)]) (tl lvo) [] N1 I).
    cbn [inf open_section current_section captures levels depth leaf_executed locations] in G.
    rewrite !app_length in G. cbn [length] in G. rewrite LE in G.
    specialize (G ltac:(lia) ltac:(lia) ltac:(lia) ltac:(unfold lv0; rewrite <- app_assoc; reflexivity) ltac:(lia) SKb).
    unfold good in G. destruct (B pass (ctx_section sec cx) (Some j) b s) as [[ev s1] x].
    destruct x as [|y from gone].
    - destruct G as (lvo' & lf' & E & R). rewrite E. cbn [bind is_some].
      assert (LB := leaves_total b).
      rewrite section_exit_eq; [|exact ST|rewrite !app_length; simpl; lia]. cbn [bind].
      rewrite andb_true_r, <- app_assoc. cbn [app]. rewrite skipn_mid by auto.
      rewrite app_length. cbn [length].
      assert (FIN : forall fl, fl = (S j =? Nat.max 1 (leaves b)) -> forall lvo1,
         reached (Some j) [b] (secs k ++ L) lvo (leaf_executed (inf st)) lvo1 true ->
         good st cx pre (Some j) (b :: secs k) L lvo False
           (after (start ++ ev ++ (if S j =? Nat.max 1 (leaves b) then [SectionEnded sec (skipped s1) (tally ev)] else []), s1, Finished) (B pass cx None k))
           (exec cf id pass k (upd st (start ++ ev ++ (if fl then [SectionEnded sec (skipped s1) (tally ev)] else [])) s1 (pre ++ lvo1) true None))).
      { intros fl -> lvo1 R1.
        apply (continue k CK pass st cx s (Some j) pre lvo L [b]); auto; try lia.
        - cbn [seek]. auto.
        - cbn [pass_over]. rewrite TW. destruct (Nat.ltb_spec j (Nat.max 1 (leaves b))); [auto|lia]. }
      cbn [reached] in R. rewrite <- LB in R. destruct (Nat.ltb_spec j (leaves b)) as [JL|JL].
      + (* a section with sections *)
        destruct R as (-> & pv & rest & -> & PV & IV). rewrite C0 in *. cbn [Nat.add] in *. rewrite Nat.sub_0_r, app_nil_r in IV.
        destruct (Inv_complete _ _ _ _ IV) as [IC1 IC2]. rewrite <- LB in *.
        replace (Nat.max (max_id (top (tl lvo))) (length (secs b))) with (length (secs b)) in * by lia.
        destruct (Nat.eqb_spec (S (depth (inf st))) (length pre + S (length (mklevel (length (secs b)) pv (length (secs b)) :: rest)))) as [X|_].
        { cbn [length] in X. lia. }
        cbn [orb forallb]. unfold complete at 1 3. cbn [prev_id max_id]. rewrite IC1.
        replace (if S j =? leaves b then _ else _) with (pre ++ enter_top (top lvo) ::
           (if S j =? leaves b then [] else mklevel (length (secs b)) pv (length (secs b)) :: rest)).
        2:{ destruct (Nat.eqb_spec (S j) (leaves b)) as [X|X]; auto. rewrite (IC2 X).
            change (pre ++ [enter_top (top lvo); mklevel (length (secs b)) pv (length (secs b))])
              with (pre ++ [enter_top (top lvo)] ++ [mklevel (length (secs b)) pv (length (secs b))]).
            rewrite app_assoc, removelast_last. reflexivity. }
        apply FIN; [f_equal; lia|]. cbn [reached]. rewrite TW.
        destruct (Nat.ltb_spec j (Nat.max 1 (leaves b))) as [_|]; [|lia]. split; auto.
        eexists _, _. split; [|split].
        * unfold enter_top. cbn [length]. rewrite Nat.add_1_r. reflexivity.
        * lia.
        * replace (S (cur_id (top lvo)) - cur_id (top lvo)) with 1 by lia. cbn [app].
          destruct (Nat.eqb_spec (S j) (leaves b)) as [X|X].
          -- cbn [Inv length firstn]. split; [lia|]. rewrite TW. lia.
          -- cbn [Inv]. exists 0, b, (S j). cbn [nth_error firstn max_id prev_id]. repeat split; auto; lia.
      + (* a leaf section *)
        destruct R as (-> & ->). rewrite (LF ltac:(lia)). assert (NS : secs b = []).
        { pose proof (total_pos (secs b)) as Q. apply length_zero_iff_nil. lia. }
        rewrite NS. cbn [meet length]. destruct (Nat.eqb_spec (S (depth (inf st))) (length pre + 1)); [|lia].
        cbn [orb]. apply (FIN true); [symmetry; apply Nat.eqb_eq; lia|]. cbn [reached]. rewrite TW.
        destruct (Nat.ltb_spec j (Nat.max 1 (leaves b))) as [_|]; [|lia]. split; auto.
        eexists _, _. split; [|split].
        * unfold enter_top. cbn [length]. rewrite Nat.add_1_r. reflexivity.
        * lia.
        * replace (S (cur_id (top lvo)) - cur_id (top lvo)) with 1 by lia. cbn [app].
          cbn [Inv length firstn]. split; [lia|]. rewrite TW. lia.
    - destruct G as (lv & lf & h & E & HO & DL & _). rewrite E. cbn [bind is_some].
      rewrite section_exit_eq; [|exact ST|exact DL]. cbn [bind]. rewrite andb_false_r, app_nil_r.
      eexists _, _, _. split; [reflexivity|]. split; [|split].
      + assert (T0 : tally (start ++ ev) = tally ev).
        { rewrite tally_app. replace (tally start) with (mkcounts 0 0 0); [apply plus_0_l|]. destruct ST as [->| ->]; reflexivity. }
        destruct HO as [H1 H2]. split.
        * rewrite H1. cbn [enclosing ctx_section map fst]. now rewrite <- app_assoc.
        * rewrite T0. destruct h as [i|].
          -- destruct H2 as (H2 & H3 & H4). repeat split; auto. rewrite H2. cbn [inf current_section open_section].
             rewrite bump_app, <- app_assoc. cbn [bump map app sd_id sd_counts fst snd]. now rewrite plus_0_l.
          -- destruct H2 as [-> ->]. unfold upd. cbn [inf current_section open_section captures locations ctx_section captured where_].
             rewrite bump_app. cbn [bump map app sd_id sd_counts fst snd]. rewrite plus_0_l. repeat split; eauto. apply N.
      + cbn [inf open_section depth] in DL. destruct (S (depth (inf st)) =? length lv); [lia|]. destruct (forallb _ _); [|lia]. destruct lv as [|z lv] using rev_ind; [simpl in *; lia|].
        rewrite removelast_last. rewrite app_length in DL. simpl in DL. lia.
      + contradiction. }
  destruct (enter_cases b (secs k ++ L) _ _ _ j V CP) as [EC|[EC|EC]].
  - (* entered for the first time *)
    destruct EC as (E1 & E2 & ->). apply ENT; rewrite ?E2; cbn [top cur_id prev_id max_id tl]; auto; try lia.
    + rewrite SE, E1, Nat.eqb_refl, E2. reflexivity.
    + cbn [seek top cur_id prev_id max_id tl]. repeat split; auto; try lia. constructor.
  - (* entered again *)
    destruct EC as (E1 & E2 & E3 & E4 & E5).
    assert (C0 : cur_id (top (tl lvo)) = 0) by (destruct (tl lvo); [congruence|]; inversion ID; auto).
    apply ENT; auto; try lia.
    + rewrite SE, E1. destruct (Nat.eqb_spec (cur_id (top lvo)) (S (cur_id (top lvo)))); [lia|].
      rewrite Nat.eqb_refl. destruct (tl lvo) as [|z lvo']; [congruence|]. destruct (Nat.eqb_spec j 0); [lia|]. reflexivity.
    + cbn [seek]. rewrite C0, E4, app_nil_r, Nat.sub_0_r. repeat split; auto; try lia.
      destruct (tl lvo); [congruence|]. inversion ID; auto.
  - destruct EC as (E1 & E2 & E3).
    assert (W : (j <? Nat.max 1 (leaves b)) = false) by (apply Nat.ltb_ge; exact E3). rewrite W.
    apply NOT.
    + cbn [pass_over]. rewrite TW, W. reflexivity.
    + rewrite SE. destruct (Nat.eqb_spec (cur_id (top lvo)) (prev_id (top lvo))); [lia|].
      destruct (Nat.eqb_spec (S (cur_id (top lvo))) (prev_id (top lvo))); [|reflexivity].
      rewrite E2 by lia. reflexivity.
    + cbn [reached]. rewrite TW, W. split; reflexivity.
Qed.

Lemma exec_behave p : regular p -> correct p.
Proof using verbose.
  induction p as [|n k IHp|when y k IHp|line w abort e IHe k IHp|line message abort k IHp|sec b IHp1 k IHp2|texts b IHp1 k IHp2|accepts notify b IHp1 k IHp2];
    cbn [regular]; intros RG pass st cx s t pre lvo L N I NE SC K LV D SK; cbn [behave exec]; cbn [capturing nesting scopes secs flat] in *.
  - (* Nil *) exists lvo, (leaf_executed (inf st)). rewrite <- LV. split; [|apply reached_nil].
    do 2 f_equal. eapply upd_nil; eauto.
  - (* Act *) rewrite (user_eq _ _ _ n N), LV.
    apply (continue k (IHp RG) pass st cx s t pre lvo L [] [User n] s lvo _ (flat k)); auto using reached_nil.
    destruct t; cbn [pass_over]; [now rewrite Nat.sub_0_r|auto].
  - (* Throw *) destruct (when pass); [|apply IHp; auto].
    exists (levels (inf st)), (leaf_executed (inf st)), None. split; [|split; [|split]].
    + do 2 f_equal. eapply upd_nil; eauto.
    + repeat split; auto. now rewrite app_nil_r.
    + rewrite LV, app_length. lia.
    + auto.
  - (* Check *)
    destruct RG as (F & RE & RG). clear IHe.
    assert (SI : set_in_check st false = st) by now apply set_in_check_same.
    pose proof (check_step line w abort e (exec_flat e F RE) pass st cx s N ltac:(lia) ltac:(lia)) as C. cbv zeta in C.
    rewrite (check_then line w abort e pass st (fun '(st4, y) => match y with Some _ => Ok (st4, y) | None => exec cf id pass k st4 end)).
    change (mkctx (enclosing cx) (captured cx) (mkloc line InCheck)) with (ctx_check line cx).
    rewrite (flat_secs _ F) in *. cbn [app] in *.
    destruct (B pass (ctx_check line cx) None e s) as [[ev s1] x]. destruct C as [_ C]. unfold checked_as in C. rewrite SI in C.
    destruct (conclusion mml pass w x) as [[ok what]|].
    + cbn [after]. destruct (assertion id may should _ ok what s1) as [[ea sa] xa] eqn:EA.
      assert (xa = Finished) as -> by (unfold assertion in EA; destruct (skipped s1); injection EA; auto).
      cbn [after]. destruct (negb ok && abort).
      * destruct C as (h & C & HO). rewrite C. cbn [bind]. rewrite app_nil_r. eexists _, _, _. split; [reflexivity|]. split; [exact HO|].
        split; [rewrite LV, app_length; lia|auto].
      * rewrite C. cbn [bind]. rewrite LV.
        match goal with |- good _ _ _ _ _ _ _ _ ?r _ => replace r with (after (ev ++ ea, sa, Finished) (B pass cx t k)) end.
        -- apply (continue k (IHp RG) pass st cx s t pre lvo L []); auto using reached_nil; try lia.
           ++ tauto.
           ++ destruct t; cbn [pass_over]; [now rewrite Nat.sub_0_r|auto].
        -- cbn [after]. destruct (B pass cx t k sa) as [[? ?] ?]. now rewrite app_assoc.
    + destruct C as (y & from & h & -> & C & HO). rewrite C. cbn [bind]. eexists _, _, _. split; [reflexivity|]. split; [exact HO|].
      split; [rewrite LV, app_length; lia|auto].
  - (* Skip *)
    assert (SI : set_in_check st false = st) by now apply set_in_check_same.
    destruct (skip_step line (message pass) st cx s abort N ltac:(lia)) as (h & C & HO).
    unfold checked_as in C. rewrite SI in C. rewrite skip_then, C. cbn [bind].
    change (mkctx (enclosing cx) (captured cx) (mkloc line InCheck)) with (ctx_check line cx).
    destruct abort.
    + cbn [after]. rewrite app_nil_r. eexists _, _, _. split; [reflexivity|]. split; [exact HO|].
      split; [rewrite LV, app_length; lia|auto].
    + subst h. rewrite LV.
      apply (continue k (IHp RG) pass st cx s t pre lvo L [] _ _ lvo _ (flat k)); auto using reached_nil; try lia.
      destruct t; cbn [pass_over]; [now rewrite Nat.sub_0_r|auto].
  - (* InSection *) destruct RG as [RG1 RG2]. exact (section_case sec b k (IHp1 RG1) (IHp2 RG2) pass st cx s t pre lvo L N I NE SC K LV D SK).
  - (* Capture *)
    destruct RG as [RG1 RG2].
    assert (TL : length (map (fun l => l pass) texts) = length texts) by apply map_length.
    assert (TM : map (fun l => fit mcl (List.concat (l pass))) texts = texts_of (map (fun l => l pass) texts)) by (unfold texts_of; now rewrite map_map).
    rewrite TM. rewrite <- TL in K |- *. clear TM TL. set (tx := map (fun l => l pass) texts) in *. clearbody tx.
    rewrite add_captures_eq; [|apply N|unfold text, str in *; lia]. cbn [bind].
    pose proof (normal_caps tx _ _ _ N) as N1.
    assert (K1 : length (captures (inf (add_caps tx st))) + capturing b <= cf_max_captures cf).
    { cbn [inf captures add_caps set_inf with_captures]. unfold texts_of. rewrite app_length, map_length. unfold text, str in *; lia. }
    change (mkctx (enclosing cx) (captured cx ++ texts_of tx) (where_ cx))
      with (ctx_caps tx cx) in *.
    rewrite <- app_assoc in SK.
    assert (G1 := IHp1 RG1 pass _ _ _ t pre lvo (secs k ++ L) N1 I ltac:(cbn [inf current_section add_caps set_inf with_captures]; lia) ltac:(cbn [inf locations add_caps set_inf with_captures]; lia) K1 LV D SK).
    unfold good in G1. destruct (B pass (ctx_caps tx cx) t b s) as [[ev s'] x].
    destruct x as [|e from gone]; cbn [after].
    + destruct G1 as (lvo' & lf' & E & R). rewrite E. cbn [bind is_some]. rewrite capture_end_eq. cbn [bind].
      apply (continue k (IHp2 RG2) pass st cx s t pre lvo L (secs b) ev s' lvo' lf' (flat b /\ flat k)); auto; try lia.
      * intros [F1 F2]. split; auto using flat_secs.
      * apply past_pass_over.
    + destruct G1 as (lv & lf & h & E & HO & DL & G). rewrite E. cbn [bind is_some]. rewrite capture_end_eq. cbn [bind].
      eexists _, _, _. split; [reflexivity|]. split; [|split; [auto|intros [F1 F2]; apply G, F1]].
      replace (match h with Some i => Some i | None => _ end) with
       (Some (match h with Some i => i | None => inf (upd (add_caps tx st) ev s' lv lf None) end)) by (destruct h; reflexivity).
      eapply (held_ok_scope st (add_caps tx st) cx (ctx_caps tx cx)); auto; apply N1.
  - (* Catch *)
    destruct RG as (-> & FB & RG1 & RG2).
    rewrite <- app_assoc in SK.
    assert (G1 := IHp1 RG1 pass _ _ _ t pre lvo (secs k ++ L) N I ltac:(lia) ltac:(lia) ltac:(lia) LV D SK).
    unfold good in G1. destruct (B pass cx t b s) as [[ev s'] x].
    assert (FS := flat_secs _ FB). rewrite past_pass_over, FS in *. cbn [app] in *.
    assert (CT : forall lf, lf = leaf_executed (inf st) -> good st cx pre t (secs k) L lvo (flat b /\ flat k)
       (after (ev, s', Finished) (B pass cx (pass_over t []) k)) (exec cf id pass k (upd st ev s' (pre ++ lvo) lf None))).
    { intros lf ->. apply (continue k (IHp2 RG2) pass st cx s t pre lvo L [] ev s' lvo); auto using reached_nil; try lia. tauto. }
    destruct x as [|e from gone].
    + destruct G1 as (lvo' & lf' & E & R). rewrite E. cbn [bind].
      assert (lvo' = lvo /\ lf' = leaf_executed (inf st)) as [-> ->] by (destruct t; cbn in R; tauto).
      apply CT; auto.
    + destruct G1 as (lv & lf & h & E & HO & DL & G). rewrite E. cbn [bind]. destruct (G FB) as (-> & -> & ->).
      destruct (accepts e).
      * assert (EN : notify_exception_handled cf (upd st ev s' (levels (inf st)) (leaf_executed (inf st)) h) =
          upd st ev s' (levels (inf st)) (leaf_executed (inf st)) None).
        { destruct h as [i|]; [|apply notify_none; reflexivity].
          rewrite (notify_same _ i); [reflexivity|reflexivity|].
          destruct HO as (_ & H2 & _). rewrite H2. cbn [map]. rewrite app_nil_r. reflexivity. }
        rewrite EN, LV. apply CT; auto.
      * exists (levels (inf st)), (leaf_executed (inf st)), h. auto.
Qed.
End Run.
