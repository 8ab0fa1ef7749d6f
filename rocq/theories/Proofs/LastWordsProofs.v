(** What is said when a limit is exceeded (C88). *)
From Coq Require Import Lia NArith.
From Verif.Spec Require Import TextSpec FilterSpec PrintSpec NumberSpec Events RunSpec LastWordsSpec.
From Verif.Model Require Import Base Vector StringUtil Print Filter Run Cli Session Reporters Register LastWords.
From Verif.Proofs Require Import Lists VectorProofs AppendProofs LevelProofs FilterProofs RunProofs InvariantProofs ScopeProofs SafetyProofs LimitProofs RunFacts
  PrintProofs RegistryProofs RegisterProofs EquivalenceProofs ContinuingProofs ThrowingProofs.
Local Open Scope list_scope.
Local Open Scope nat_scope.

Definition forget {A} (f : fate A) : res A := match f with Done a => Ok a | Died _ _ _ => Err Assert | Broken e => Err e end.
Lemma forget_bind {A B} (f : fate A) (g : A -> fate B) : forget (and_then f g) = bind (forget f) (fun x => forget (g x)).
Proof. now destruct f. Qed.
Lemma forget_asserting {A} evs m (r : res A) : forget (asserting evs m r) = r.
Proof. now destruct r as [|[]]. Qed.
Lemma bind_ext {A B} (r : res A) (f g : A -> res B) : (forall x, f x = g x) -> bind r f = bind r g.
Proof. intros H. destruct r; cbn; auto. Qed.
Lemma forget_done {A} (f : fate A) x : forget f = Ok x -> f = Done x.
Proof. destruct f; cbn; congruence. Qed.
Lemma forget_if {A} (b : bool) (f g : fate A) : forget (if b then f else g) = if b then forget f else forget g.
Proof. now destruct b. Qed.

Lemma continues_refl {A} (l : list A) : continues l l.
Proof. exists []. now rewrite app_nil_r. Qed.
Lemma continues_trans {A} (a b c : list A) : continues a b -> continues b c -> continues a c.
Proof. intros [l ->] [l' ->]. exists (l ++ l'). now rewrite app_assoc. Qed.
Lemma grown_continues st st' : grown st st' -> continues (trace st) (trace st').
Proof. intros [l E]. now exists l. Qed.

(** Configurations in which the explanations can be printed. *)
Definition prints_well (cf : config) : Prop :=
  40 <= cf_max_message_length cf /\ (N.of_nat (cf_max_nested cf) < 2 ^ 64)%N /\ (N.of_nat (cf_max_captures cf) < 2 ^ 64)%N.

Section Words.
Variable color : bool.
Notation prefix := (rendered (make_colored (quote "error:") color color_fail)).

Definition explaining (cf : config) (w : limit) : str * nat :=
  match w with
  | Sections => (lit " max number of nested sections reached; please increase 'SNITCH_MAX_NESTED_SECTIONS' (currently ", cf_max_nested cf)
  | _ => (lit " max number of captures reached; please increase 'SNITCH_MAX_CAPTURES' (currently ", cf_max_captures cf)
  end.

Lemma die_spec {A} cf st w : prints_well cf -> w <> Places ->
  exists out, @die_of color A cf st (fst (explaining cf w)) (snd (explaining cf w)) (LastWordsSpec.message w) = Died (trace st) out (LastWordsSpec.message w) /\
    LastWordsSpec.explained prefix (cf_max_nested cf) (cf_max_captures cf) w out.
Proof.
  intros (ROOM & L1 & L2) NP. unfold die_of.
  assert (L : (N.of_nat (snd (explaining cf w)) < 2 ^ 64)%N) by (destruct w; auto).
  destruct (number_fits _ ROOM (snd (explaining cf w)) L) as [W F].
  match goal with |- context [registry_print ?mm ?l] => destruct (registry_print_spec mm l) as (out & E & K & _) end.
  { constructor; [now apply prefix_printable|]. constructor; [exact I|]. constructor; [exact F|]. constructor; [exact I|constructor]. }
  rewrite E. exists out. split; [reflexivity|]. set (d := decimal (snd (explaining cf w))) in *.
  destruct w; [| |now destruct NP]; exists d; (split; [exact W|]); rewrite K; cbn [map List.concat rendered]; rewrite app_nil_r; reflexivity.
Qed.

Section Same.
Variable cf : config.
Hypothesis WELL : prints_well cf.
Variable id : test_id.

Lemma forget_section_enter s st : forget (said_section_enter color cf s st) = section_enter cf s st.
Proof using WELL.
  unfold said_section_enter, section_enter. cbv zeta. rewrite forget_bind.
  assert (E : forall i, forget
     (if length (levels i) <=? depth i
      then if cf_max_nested cf <=? depth i
           then die_of color cf (notify_exception_handled cf st) (fst (explaining cf Sections)) (snd (explaining cf Sections)) (LastWordsSpec.message Sections)
           else asserting (trace (notify_exception_handled cf st)) vector_full (push_back (cf_max_nested cf) (levels i) (mklevel 0 0 0))
      else Done (levels i)) =
     (if length (levels i) <=? depth i then if cf_max_nested cf <=? depth i then Err Assert else push_back (cf_max_nested cf) (levels i) (mklevel 0 0 0) else Ok (levels i))).
  { intros i. destruct (_ <=? _); [|reflexivity]. destruct (_ <=? _); [|apply forget_asserting].
    destruct (@die_spec (list level) cf (notify_exception_handled cf st) Sections WELL) as (out & -> & _); [discriminate|reflexivity]. }
  etransitivity; [apply f_equal2; [apply E|reflexivity]|]. apply bind_ext. intros lv.
  rewrite forget_bind, forget_asserting. apply bind_ext. intros level.
  rewrite forget_bind, forget_asserting. apply bind_ext. intros lv1.
  rewrite forget_if. destruct (leaf_executed _); [reflexivity|]. rewrite forget_if. destruct (_ && _); [reflexivity|].
  rewrite forget_bind, forget_asserting. apply bind_ext. intros lv2.
  rewrite forget_bind, forget_asserting. apply bind_ext. intros cs.
  rewrite forget_bind, forget_asserting. apply bind_ext. intros st3. reflexivity.
Qed.

Lemma forget_check_begin line st : forget (said_check_begin cf line st) = check_begin cf line st.
Proof. apply forget_asserting. Qed.

Lemma forget_add_captures l : forall st, forget (said_add_captures color cf l st) = add_captures cf l st.
Proof using WELL.
  induction l as [|c l IH]; intros st; cbn [said_add_captures add_captures]; [reflexivity|]. rewrite forget_bind, forget_if, forget_asserting.
  destruct (@die_spec state cf st Captures WELL) as (out & E & _); [discriminate|]. cbn [explaining fst snd] in E. 
  change (LastWordsSpec.message Captures) with (lit "max number of captures reached") in E. rewrite E. cbn [forget].
  destruct (_ =? _) eqn:C.
  - cbn [bind]. unfold add_capture. now rewrite C.
  - apply bind_ext. exact IH.
Qed.

Lemma forget_exec pass p : forall st, forget (said_exec color cf id pass p st) = exec cf id pass p st.
Proof using WELL.
  induction p as [|n k IHp|when y k IHp|line w abort e IHe k IHp|line message abort k IHp|sec b IHp1 k IHp2|texts b IHp1 k IHp2|accepts notify b IHp1 k IHp2];
    intros st; cbn [said_exec exec]; auto.
  - destruct (when pass); auto.
  - rewrite forget_bind, forget_check_begin. apply bind_ext. intros st1. rewrite forget_bind, IHe. apply bind_ext. intros [st2 x].
    rewrite forget_bind, forget_asserting. apply bind_ext. intros [st3 y]. rewrite forget_bind, forget_asserting. apply bind_ext. intros st4. destruct y; auto.
  - rewrite forget_bind, forget_check_begin. apply bind_ext. intros st1. rewrite forget_bind, forget_asserting. apply bind_ext. intros st2.
    rewrite forget_bind, forget_asserting. apply bind_ext. intros st3. destruct abort; auto.
  - rewrite forget_bind, forget_section_enter. apply bind_ext. intros [st1 [|]].
    + rewrite forget_bind, IHp1. apply bind_ext. intros [st2 x]. rewrite forget_bind, forget_asserting. apply bind_ext. intros st3. destruct x; auto.
    + rewrite forget_bind, forget_asserting. apply bind_ext. intros st3. auto.
  - rewrite forget_bind, forget_add_captures. apply bind_ext. intros st1. rewrite forget_bind, IHp1. apply bind_ext. intros [st2 x].
    rewrite forget_bind, forget_asserting. apply bind_ext. intros st3. destruct x; auto.
  - rewrite forget_bind, IHp1. apply bind_ext. intros [st1 [e|]]; auto. destruct (accepts e); auto.
Qed.

Lemma forget_passes p : forall fuel pass st, forget (said_passes color cf id p fuel pass st) = passes cf id p fuel pass st.
Proof using WELL.
  induction fuel as [|fuel IH]; intros pass st; cbn [said_passes passes]; [reflexivity|]. cbv zeta. rewrite forget_bind, forget_exec. apply bind_ext.
  intros [st2 [e|]]; [reflexivity|]. rewrite forget_if. destruct (_ && _); auto.
Qed.

(** ** Nothing that is reported is taken back *)
Definition grows {A} (tr : A -> list event) (b : list event) (f : fate A) : Prop :=
  match f with Done x => continues b (tr x) | Died evs _ _ => continues b evs | Broken e => e <> Assert end.
Lemma grows_bind {A B} (tr : A -> list event) (tr2 : B -> list event) b (f : fate A) (h : A -> fate B) :
  grows tr b f -> (forall x, f = Done x -> grows tr2 (tr x) (h x)) -> grows tr2 b (and_then f h).
Proof.
  intros G H. destruct f as [x|evs out m|e]; cbn in *; auto. specialize (H _ eq_refl). destruct (h x); cbn in *; auto; eapply continues_trans; eauto.
Qed.
Lemma grows_from {A} (tr : A -> list event) a b (f : fate A) : continues a b -> grows tr b f -> grows tr a f.
Proof. intros C. destruct f; cbn; auto; apply continues_trans, C. Qed.
Lemma grows_asserting {A} (tr : A -> list event) b m (r : res A) : (forall x, r = Ok x -> continues b (tr x)) -> grows tr b (asserting b m r).
Proof. intros H. destruct r as [x|[]]; cbn; auto using continues_refl; discriminate. Qed.
Definition trf (r : state * option exn) : list event := trace (fst r).

Lemma grows_die {A} (tr : A -> list event) st w : w <> Places ->
  grows tr (trace st) (die_of color cf st (fst (explaining cf w)) (snd (explaining cf w)) (LastWordsSpec.message w)).
Proof using WELL. intros NP. destruct (@die_spec A cf st w WELL NP) as (out & -> & _). apply continues_refl. Qed.

Lemma grows_section_enter s st : grows (fun r => trace (fst r)) (trace st) (said_section_enter color cf s st).
Proof using WELL.
  eapply grows_from; [apply (grown_continues _ _ (proj1 (fine_notify cf st)))|].
  unfold said_section_enter. cbv zeta. set (st1 := notify_exception_handled cf st).
  assert (K : forall A m (r : res A), grows (fun _ => trace st1) (trace st1) (asserting (trace st1) m r)) by (intros; apply grows_asserting; intros; apply continues_refl).
  eapply (grows_bind (fun _ => trace st1)).
  { destruct (_ <=? _); [|apply continues_refl]. destruct (_ <=? _); [apply (grows_die _ st1 Sections); discriminate|apply K]. }
  intros lv _. eapply (grows_bind (fun _ => trace st1)); [apply K|]. intros level _.
  eapply (grows_bind (fun _ => trace st1)); [apply K|]. intros lv1 _.
  destruct (leaf_executed _); [apply (continues_refl (trace st1))|]. destruct (_ && _); [apply (continues_refl (trace st1))|].
  eapply (grows_bind (fun _ => trace st1)); [apply K|]. intros lv2 _. eapply (grows_bind (fun _ => trace st1)); [apply K|]. intros cs _.
  eapply (grows_bind trace); [apply grows_asserting; intros x E; apply fine_push in E; apply (grown_continues _ _ (proj1 E))|]. intros st3 _.
  cbn [grows fst]. destruct (_ =? _); [apply grown_continues, (fine_report cf)|apply continues_refl].
Qed.
Lemma grows_check_begin line st : grows trace (trace st) (said_check_begin cf line st).
Proof.
  unfold said_check_begin. destruct (check_begin cf line st) as [st'|e] eqn:E.
  - cbn. apply fine_begin in E. apply grown_continues, E.
  - pose proof (grown_continues _ _ (proj1 (fine_notify cf st))) as N. destruct e; cbn; auto; discriminate.
Qed.
Lemma grows_add_captures l : forall st, grows trace (trace st) (said_add_captures color cf l st).
Proof using WELL.
  induction l as [|c l IH]; intros st; cbn [said_add_captures]; [apply continues_refl|]. eapply grows_bind; [|intros x _; apply IH].
  destruct (_ =? _); [apply (grows_die _ st Captures); discriminate|]. apply grows_asserting. intros x E. assert (K : add_captures cf [c] st = Ok x) by (cbn [add_captures]; now rewrite E).
  apply fine_captures in K. apply grown_continues, K.
Qed.

Lemma grows_exec pass p : forall st, grows trf (trace st) (said_exec color cf id pass p st).
Proof using WELL.
  assert (S : forall st m r, (forall x, r = Ok x -> grown st x) -> grows trace (trace st) (asserting (trace st) m r)).
  { intros st m r H. apply grows_asserting. intros x E. apply grown_continues. auto. }
  assert (R : forall st y, grows trf (trace st) (Done (st, y))) by (intros; apply continues_refl).
  induction p as [|n k IHp|when y k IHp|line w abort e IHe k IHp|line message abort k IHp|sec b IHp1 k IHp2|texts b IHp1 k IHp2|accepts notify b IHp1 k IHp2];
    intros st; cbn [said_exec]; auto.
  - eapply grows_from; [apply grown_continues, (fine_report cf)|apply IHp].
  - destruct (when pass); auto.
  - eapply grows_bind; [apply grows_check_begin|]. intros st1 _. eapply (grows_bind trf); [apply IHe|]. intros [st2 x] _. cbn [trf fst].
    eapply (grows_bind trf); [apply grows_asserting; intros [st3 y] E; apply fine_conclude in E; apply grown_continues, E|]. intros [st3 y] _. cbn [trf fst].
    eapply grows_bind; [apply S; intros x4 E; apply fine_end in E; apply E|]. intros st4 _. destruct y; auto.
  - eapply grows_bind; [apply grows_check_begin|]. intros st1 _.
    eapply grows_bind; [apply S; intros x4 E; apply fine_skipped in E; apply E|]. intros st2 _.
    eapply grows_bind; [apply S; intros x4 E; apply fine_end in E; apply E|]. intros st4 _. destruct abort; auto.
  - eapply grows_bind; [apply grows_section_enter|]. intros [st1 [|]] _; cbn [fst].
    + eapply (grows_bind trf); [apply IHp1|]. intros [st2 x] _. cbn [trf fst].
      eapply grows_bind; [apply S; intros x4 E; apply fine_exit in E; apply E|]. intros st4 _. destruct x; auto.
    + eapply grows_bind; [apply S; intros x4 E; apply fine_exit in E; apply E|]. intros st4 _. auto.
  - eapply grows_bind; [apply grows_add_captures|]. intros st1 _. eapply (grows_bind trf); [apply IHp1|]. intros [st2 x] _. cbn [trf fst].
    eapply grows_bind; [apply S; intros x4 E; apply fine_capture_end in E; apply E|]. intros st4 _. destruct x; auto.
  - eapply (grows_bind trf); [apply IHp1|]. intros [st2 [x|]] _; [|exact (IHp2 st2)]. destruct (accepts x); [|exact (R _ _)].
    eapply grows_from; [|apply IHp2]. destruct notify; [apply grown_continues, (fine_notify cf)|apply continues_refl].
Qed.

Lemma grows_passes p : forall fuel pass st, grows trf (trace st) (said_passes color cf id p fuel pass st).
Proof using WELL.
  induction fuel as [|fuel IH]; intros pass st; cbn [said_passes]; [discriminate|]. cbv zeta.
  eapply (grows_bind trf); [apply (grows_exec pass p (set_inf st _))|]. intros [st2 [e|]] _; cbn [trf fst]; [apply continues_refl|].
  destruct (_ && _); [apply (IH _ (set_inf st2 _))|apply continues_refl].
Qed.
End Same.

Lemma forget_run cf fuel t tr : prints_well cf -> forget (said_run color cf fuel t tr) = run cf fuel t tr.
Proof.
  intros WELL. unfold said_run, run. cbv zeta. rewrite forget_bind, forget_asserting. apply bind_ext. intros [may should].
  rewrite forget_bind, forget_asserting. apply bind_ext. intros st1. rewrite forget_bind, (forget_passes cf WELL). apply bind_ext. intros [st2 x].
  rewrite forget_bind, forget_asserting. apply bind_ext. intros st3. rewrite forget_bind, forget_asserting. apply bind_ext. intros st6.
  rewrite forget_bind, forget_asserting. apply bind_ext. reflexivity.
Qed.

(** ** Which limit it is, and what larger limits would have given *)
Section Main.
Variables cf cf' : config.
Hypothesis LO : looser cf cf'.
Hypothesis WELL : prints_well cf.
Hypothesis WELL' : prints_well cf'.
Variable id : test_id.

Definition dies {A} (tr : A -> list event) (f f' : fate A) (Q : limit -> Prop) : Prop :=
  match f with
  | Died evs out m => (exists w, m = LastWordsSpec.message w /\ LastWordsSpec.explained prefix (cf_max_nested cf) (cf_max_captures cf) w out /\ Q w) /\ grows tr evs f'
  | _ => True
  end.
Lemma dies_bind {A B} (tr : A -> list event) (tr2 : B -> list event) (f f' : fate A) (h h' : A -> fate B) P (Q1 Q : limit -> Prop) :
  dies tr f f' Q1 -> tracks (forget f) (forget f') P -> (forall w, Q1 w -> Q w) -> (forall x, f' = Done x -> grows tr2 (tr x) (h' x)) ->
  (forall x, P x -> forget f = Ok x -> dies tr2 (h x) (h' x) Q) -> dies tr2 (and_then f h) (and_then f' h') Q.
Proof.
  intros D T I G H. destruct f as [x|evs out m|e]; cbn [and_then dies] in *; auto.
  - destruct T as [T|(y & T & T' & Py)]; [discriminate|]. injection T as ->. apply forget_done in T'. subst f'. cbn [and_then]. apply H; auto.
  - destruct D as [(w & D1 & D2 & D3) D]. split; [exists w; auto|]. eapply grows_bind; eauto.
Qed.
Lemma dies_same {A B} (tr : A -> list event) (tr2 : B -> list event) evs m (r : res A) (h h' : A -> fate B) x Q :
  r = Ok x -> dies tr2 (h x) (h' x) Q -> dies tr2 (and_then (asserting evs m r) h) (and_then (asserting evs m r) h') Q.
Proof. intros -> H. exact H. Qed.
Lemma dies_weak {A} (tr : A -> list event) f f' (Q Q' : limit -> Prop) : (forall w, Q w -> Q' w) -> dies tr f f' Q -> dies tr f f' Q'.
Proof. intros I. destruct f; cbn; auto. intros [(w & H1 & H2 & H3) G]. split; [exists w; auto|exact G]. Qed.
Lemma dies_full {A} (tr : A -> list event) evs r f' (Q : limit -> Prop) : Q Places -> grows tr evs f' -> dies tr (asserting evs vector_full r) f' Q.
Proof. intros H G. destruct r as [x|[]]; cbn; auto. split; [|exact G]. exists Places. repeat split; auto. Qed.

Lemma dies_check_begin line st : room cf st ->
  dies trace (said_check_begin cf line st) (said_check_begin cf' line st) (fun w => w = Places /\ length (locations (inf st)) = cf_max_nested cf + 2).
Proof using LO.
  intros R. unfold said_check_begin. destruct (Nat.eq_dec (length (locations (inf st))) (cf_max_nested cf + 2)) as [E|E].
  - apply dies_full; [auto|]. rewrite (lo_notify _ _ LO).
    apply grows_asserting. intros x K. unfold check_begin in K. rewrite (lo_notify _ _ LO) in K. bstep K as s K1. injection K as <-.
    apply fine_push in K1. apply grown_continues, K1.
  - unfold check_begin, push_location. rewrite inf_notify, push_back_ok; [exact I|]. destruct R as (_ & R & _). lia.
Qed.

Lemma notify_again c st : notify_exception_handled c (notify_exception_handled c st) = notify_exception_handled c st.
Proof. unfold notify_exception_handled at 2 3. destruct (held st) eqn:H; [|now rewrite notify_none]. apply notify_none. reflexivity. Qed.
Lemma enter_notified c s st : said_section_enter color c s (notify_exception_handled c st) = said_section_enter color c s st.
Proof. unfold said_section_enter. now rewrite notify_again. Qed.

Lemma dies_section_enter s st : room cf st ->
  dies (fun r => trace (fst r)) (said_section_enter color cf s st) (said_section_enter color cf' s st)
    (fun w => w = Sections /\ depth (inf st) = cf_max_nested cf \/ w = Places /\ length (locations (inf st)) = cf_max_nested cf + 2).
Proof using LO WELL WELL'.
  intros (H0 & L & C). pose proof (grows_section_enter cf' WELL' s (notify_exception_handled cf' st)) as G. rewrite enter_notified, (lo_notify _ _ LO) in G.
  revert G. generalize (said_section_enter color cf' s st) as f'. intros f' G.
  pose proof (safe_notify cf _ H0) as H. unfold said_section_enter. cbv zeta. 
  destruct H as (H1 & H2 & H3 & H4). rewrite inf_notify in *.
  destruct (Nat.eq_dec (depth (inf st)) (cf_max_nested cf)) as [D|D].
  { destruct (Nat.leb_spec (length (levels (inf st))) (depth (inf st))); [|lia].
    destruct (Nat.leb_spec (cf_max_nested cf) (depth (inf st))); [|lia].
    destruct (@die_spec (list level) cf (notify_exception_handled cf st) Sections WELL) as (out & E & X); [discriminate|]. cbn [explaining fst snd] in E.
    change (LastWordsSpec.message Sections) with (lit "max number of nested sections reached") in E. rewrite E. cbn [and_then dies]. split; [|exact G].
    exists Sections. auto. }
  assert (X : exists lv, (if length (levels (inf st)) <=? depth (inf st)
      then if cf_max_nested cf <=? depth (inf st)
           then die_of color cf (notify_exception_handled cf st) (fst (explaining cf Sections)) (snd (explaining cf Sections)) (LastWordsSpec.message Sections)
           else asserting (trace (notify_exception_handled cf st)) vector_full (push_back (cf_max_nested cf) (levels (inf st)) (mklevel 0 0 0))
      else Done (levels (inf st))) = Done lv /\ S (depth (inf st)) <= length lv <= cf_max_nested cf).
  { destruct (Nat.leb_spec (length (levels (inf st))) (depth (inf st))).
    - destruct (Nat.leb_spec (cf_max_nested cf) (depth (inf st))); [lia|]. unfold push_back.
      destruct (Nat.eqb_spec (length (levels (inf st))) (cf_max_nested cf)); [lia|].
      eexists. split; [reflexivity|]; rewrite app_length; cbn; lia.
    - eexists. split; [reflexivity|]. lia. }
  destruct X as (lv & E & X1). cbn [explaining fst snd] in E.
  change (LastWordsSpec.message Sections) with (lit "max number of nested sections reached") in E. rewrite E. cbn [and_then]. clear E.
  replace (S (depth (inf st)) - 1) with (depth (inf st)) by lia.
  destruct (nth_ok lv (depth (inf st))) as [lev E]; [lia|]. unfold at_index. rewrite E. cbn [and_then asserting].
  destruct (put_ok lv (depth (inf st)) (mklevel (S (cur_id lev)) (prev_id lev) (if max_id lev <? S (cur_id lev) then S (cur_id lev) else max_id lev)))
    as (lv1 & -> & L1); [lia|]. cbn [and_then asserting].
  destruct (leaf_executed _); [exact I|]. destruct (negb _ && negb _); [exact I|].
  match goal with |- context[put_index lv1 ?i ?x] => destruct (put_ok lv1 i x) as (lv2 & -> & L2); [lia|] end. cbn [and_then asserting].
  cbn [inf set_inf with_depth with_levels current_section].
  rewrite (push_back_ok (cf_max_nested cf)) by lia. cbn [and_then asserting].
  match goal with |- dies _ (and_then (asserting ?t ?m (push_location ?c ?x ?l)) _) _ _ =>
    change t with (trace (notify_exception_handled cf st)); destruct (push_location c x l) as [st3|e] eqn:PL end; [exact I|].
  unfold push_location in PL. cbn [inf set_inf with_current_section with_levels with_depth locations] in PL.
  unfold push_back in PL. destruct (Nat.eqb_spec (length (locations (inf st))) (cf_max_nested cf + 2)); cbn [bind] in PL; [|discriminate].
  injection PL as <-. cbn [asserting and_then dies]. split; [|exact G]. exists Places. repeat split; auto.
Qed.

Lemma dies_add_captures l : forall st, room cf st ->
  dies trace (said_add_captures color cf l st) (said_add_captures color cf' l st) (fun w => w = Captures /\ cf_max_captures cf < length (captures (inf st)) + length l).
Proof using LO WELL WELL'.
  pose proof (lo_captures _ _ LO) as LC.
  induction l as [|c l IH]; intros st R; [exact I|].
  pose proof (grows_add_captures cf' WELL' (c :: l) st) as G. revert G.
  assert (N : length (captures (inf st)) <> cf_max_captures cf -> dies trace (said_add_captures color cf (c :: l) st) (said_add_captures color cf' (c :: l) st)
    (fun w => w = Captures /\ cf_max_captures cf < length (captures (inf st)) + length (c :: l))).
  { intros NE. cbn [said_add_captures].
    destruct (Nat.eqb_spec (length (captures (inf st))) (cf_max_captures cf)) as [E|_]; [lia|]. pose proof (proj2 (proj2 R)) as R2.
    destruct (Nat.eqb_spec (length (captures (inf st))) (cf_max_captures cf')) as [E|_]; [lia|].
    pose proof (room_add_captures cf cf' LO [c] st R) as T. cbn [add_captures] in T.
    destruct T as [T|(x & T & T' & RX)].
    { exfalso. revert T. unfold add_capture. destruct (Nat.eqb_spec (length (captures (inf st))) (cf_max_captures cf)) as [E|_]; [lia|].
      match goal with |- context [append_or_truncate ?a ?b] => destruct (append_or_truncate_spec a b (wf_new _)) as (m & E1 & _); rewrite E1 end. cbn [bind]. discriminate. }
    bstep T as y A. injection T as ->. bstep T' as z A'. injection T' as ->. rewrite ?A. rewrite ?A'. cbn [asserting and_then].
    eapply dies_weak; [|apply IH, RX]. intros w [-> K]. split; [reflexivity|]. revert K.
    assert (AC : add_captures cf [c] st = Ok x) by (cbn [add_captures]; now rewrite A). apply scope_add_captures in AC. unfold scope in AC. injection AC as _ AC _ _.
    rewrite AC, app_length. cbn [map length]. intros K. clear - K. unfold text, str in *. lia. }
  destruct (Nat.eq_dec (length (captures (inf st))) (cf_max_captures cf)) as [E|E]; [|auto]. clear N.
  generalize (said_add_captures color cf' (c :: l) st) as f'. intros f' G. cbn [said_add_captures]. rewrite E, Nat.eqb_refl.
  destruct (@die_spec state cf st Captures WELL) as (out & K & X); [discriminate|]. cbn [explaining fst snd] in K.
  change (LastWordsSpec.message Captures) with (lit "max number of captures reached") in K. rewrite K. cbn [and_then dies]. split; [|exact G].
  exists Captures. repeat split; auto. cbn [length]. lia.
Qed.

Definition over (p : prog) (st : state) (w : limit) : Prop :=
  match w with
  | Sections => cf_max_nested cf < depth (inf st) + nesting p
  | Captures => cf_max_captures cf < length (captures (inf st)) + capturing p
  | Places => cf_max_nested cf + 2 < length (locations (inf st)) + scopes p
  end.
Lemma over_scope p st st' w : scope st' = scope st -> over p st' w -> over p st w.
Proof. intros E. apply scope_lens in E. destruct E as (E1 & E2 & E3). unfold over. now rewrite E1, E2, E3. Qed.
Lemma over_le p q st w : nesting p <= nesting q -> capturing p <= capturing q -> scopes p <= scopes q -> over p st w -> over q st w.
Proof. intros H1 H2 H3. destruct w; cbn; lia. Qed.
Lemma scope_parts st n c l d : scope st = (n, c, l, d) -> captures (inf st) = c /\ locations (inf st) = l /\ depth (inf st) = d.
Proof. unfold scope. intros [= _ -> -> ->]. auto. Qed.

Lemma dies_exec pass p : forall st, room cf st -> dies trf (said_exec color cf id pass p st) (said_exec color cf' id pass p st) (over p st).
Proof using LO WELL WELL'.
  assert (T1 : forall line st, room cf st -> tracks (forget (said_check_begin cf line st)) (forget (said_check_begin cf' line st)) (room cf)).
  { intros line st R. rewrite !forget_check_begin. apply room_check_begin; assumption. }
  assert (R' : forall q st st' x, room cf st -> room cf st' -> scope st' = scope st -> dies trf (said_exec color cf id pass q st') (said_exec color cf' id pass q st') (over q st') ->
    dies trf (match x with Some _ => Done (st', x) | None => said_exec color cf id pass q st' end)
      (match x with Some _ => Done (st', x) | None => said_exec color cf' id pass q st' end) (over q st)).
  { intros q st st' x RS RS' SC H. destruct x; [exact I|]. eapply dies_weak; [|exact H]. intros w. apply over_scope, SC. }
  assert (G' : forall q st' x, grows trf (trace st') (match x with Some _ => Done (st', x) | None => said_exec color cf' id pass q st' end)).
  { intros q st' [x|]; [apply continues_refl|apply (grows_exec cf' WELL')]. }
  assert (GA : forall q st2 x m r, (forall st3, r = Ok st3 -> grown st2 st3) -> grows trf (trace st2) (and_then (asserting (trace st2) m r)
     (fun st3 => match x with Some _ => Done (st3, x) | None => said_exec color cf' id pass q st3 end))).
  { intros q st2 x m r H. eapply grows_bind; [apply grows_asserting; intros y E; apply grown_continues, (H _ E)|]. intros y _. apply G'. }
  induction p as [|n k IHp|when y k IHp|line w abort e IHe k IHp|line message abort k IHp|sec b IHp1 k IHp2|texts b IHp1 k IHp2|accepts notify b IHp1 k IHp2];
    intros st R; cbn [said_exec].
  - exact I.
  - rewrite (lo_report _ _ LO). eapply dies_weak; [|apply IHp; eapply room_scope; [exact R|apply safe_report, R|apply scope_report]].
    intros w H. apply over_scope with (st := st) in H; [exact H|apply scope_report].
  - destruct (when pass); [exact I|]. exact (IHp st R).
  - eapply dies_bind; [apply dies_check_begin, R|apply T1, R| | |].
    { intros w' [-> E]. cbn [over nesting capturing scopes]. lia. }
    { intros st1 _. eapply (grows_bind trf); [apply (grows_exec cf' WELL')|]. intros [st2 x] _. cbn [trf fst].
      eapply (grows_bind trf); [apply grows_asserting; intros [st3 y] E; apply fine_conclude in E; apply grown_continues, E|]. intros [st3 y] _. cbn [trf fst].
      apply GA. intros st4 E. apply fine_end in E. apply E. }
    intros st1 R1 E1. rewrite forget_check_begin in E1. apply scope_check_begin in E1.
    eapply (dies_bind trf); [apply IHe, R1|rewrite !forget_exec by assumption; apply room_exec; assumption| | |].
    { intros w'. apply scope_parts in E1. destruct E1 as (E1 & E2 & E3). unfold locs in *. destruct w'; cbn [over nesting capturing scopes]; rewrite ?E1, ?E2, ?E3, ?app_length; cbn [length]; lia. }
    { intros [st2 x] _. cbn [trf fst].
      eapply (grows_bind trf); [apply grows_asserting; intros [st3 y] E; apply fine_conclude in E; apply grown_continues, E|]. intros [st3 y] _. cbn [trf fst].
      apply GA. intros st4 E. apply fine_end in E. apply E. }
    intros [st2 x] R2 E2. cbn [fst] in R2. rewrite forget_exec in E2 by assumption. apply scope_exec in E2.
    rewrite (lo_conclude _ _ LO). destruct (safe_conclude cf id pass w abort x st2 (proj1 R2)) as (st3 & z & E3 & S3). rewrite E3. cbn [and_then asserting].
    pose proof (scope_conclude _ _ _ _ _ _ _ _ E3) as E3'. cbn [fst] in E3'.
    assert (SC : scope st3 = (names st, captures (inf st), locs st ++ [mkloc line InCheck], depth (inf st))) by congruence.
    destruct (safe_check_end cf (is_some z) st3 (locs st) (mkloc line InCheck) S3) as (st4 & E4 & S4).
    { unfold scope in SC. now injection SC. } { exact (room_locs _ _ R). }
    rewrite E4. cbn [and_then asserting]. eapply scope_check_end in E4; [|exact SC].
    assert (R4 : room cf st4) by (eapply room_scope; [exact R|exact S4|exact E4]).
    eapply dies_weak; [|apply (R' k st st4 z R R4 E4), IHp, R4]. intros w'. apply over_le; cbn [nesting capturing scopes]; lia.
  - eapply dies_bind; [apply dies_check_begin, R|apply T1, R| | |].
    { intros w' [-> E]. cbn [over nesting capturing scopes]. lia. }
    { intros st1 _. eapply grows_bind; [apply grows_asserting; intros st2 E; apply fine_skipped in E; apply grown_continues, E|]. intros st2 _.
      eapply grows_bind; [apply grows_asserting; intros st3 E; apply fine_end in E; apply grown_continues, E|]. intros st3 _. destruct abort; [apply continues_refl|apply (grows_exec cf' WELL')]. }
    intros st1 R1 E1. rewrite forget_check_begin in E1. apply scope_check_begin in E1. rewrite (lo_skipped _ _ LO).
    destruct (safe_skipped cf id (message pass) st1 (proj1 R1)) as (st3 & E3 & S3). rewrite E3. cbn [and_then asserting].
    apply scope_skipped in E3.
    assert (SC : scope st3 = (names st, captures (inf st), locs st ++ [mkloc line InCheck], depth (inf st))) by congruence.
    destruct (safe_check_end cf abort st3 (locs st) (mkloc line InCheck) S3) as (st4 & E4 & S4).
    { unfold scope in SC. now injection SC. } { exact (room_locs _ _ R). }
    rewrite E4. cbn [and_then asserting]. eapply scope_check_end in E4; [|exact SC].
    assert (R4 : room cf st4) by (eapply room_scope; [exact R|exact S4|exact E4]).
    destruct abort; [exact I|]. eapply dies_weak; [|apply IHp, R4]. intros w' H. apply over_scope with (st := st) in H; [|exact E4]. revert H. apply over_le; cbn [nesting capturing scopes]; lia.
  - eapply dies_bind; [apply dies_section_enter, R|rewrite !forget_section_enter by assumption; apply (room_section_enter cf cf' LO), R| | |].
    { intros w' [[-> E]|[-> E]]; cbn [over nesting capturing scopes]; lia. }
    { intros [st1 [|]] _; cbn [fst].
      - eapply (grows_bind trf); [apply (grows_exec cf' WELL')|]. intros [st2 x] _. cbn [trf fst]. apply GA. intros st4 E. apply fine_exit in E. apply E.
      - eapply grows_bind; [apply grows_asserting; intros st3 E; apply fine_exit in E; apply grown_continues, E|]. intros st3 _. apply (grows_exec cf' WELL'). }
    intros [st1 entered] (D & S1) E1. rewrite forget_section_enter in E1 by assumption.
    apply scope_section_enter in E1. destruct S1 as [[-> R1]|(-> & S1 & S2 & S3)].
    + eapply (dies_bind trf); [apply IHp1, R1|rewrite !forget_exec by assumption; apply room_exec; assumption| | |].
      { intros w'. apply scope_parts in E1. destruct E1 as (E1 & E2 & E3). unfold locs in *. destruct w'; cbn [over nesting capturing scopes]; rewrite ?E1, ?E2, ?E3, ?app_length; cbn [length]; lia. }
      { intros [st2 x] _. cbn [trf fst]. apply GA. intros st4 E. apply fine_exit in E. apply E. }
      intros [st2 x] R2 E2. cbn [fst] in R2. rewrite forget_exec in E2 by assumption. apply scope_exec in E2. rewrite E1 in E2.
      rewrite (lo_section_exit _ _ LO).
      assert (SC : scope st2 = (names st ++ [sec], captures (inf st2), locs st ++ [mkloc (sec_line sec) SectionScope], S (depth (inf st)))).
      { rewrite E2. unfold scope in E2. injection E2 as _ -> _ _. reflexivity. }
      destruct (safe_section_exit cf (is_some x) st2 _ _ _ _ (proj1 R2) SC) as (st3 & E3 & S3); [exact (room_locs _ _ R)|]. rewrite E3. cbn [and_then asserting].
      eapply (scope_section_exit cf true) in E3; [|exact E2].
      assert (R4 : room cf st3) by (eapply room_scope; [exact R|exact S3|exact E3]).
      eapply dies_weak; [|apply (R' k st st3 x R R4 E3), IHp2, R4]. intros w'. apply over_le; cbn [nesting capturing scopes]; lia.
    + rewrite (lo_section_exit _ _ LO). unfold scope in E1. injection E1 as EN EC EL ED.
      destruct (safe_section_skip cf st1 (depth (inf st)) S1) as (st3 & E3 & S4); auto; [rewrite EL; exact (room_locs _ _ R)|]. rewrite E3. cbn [and_then asserting].
      apply (scope_section_exit cf false false _ _ (names st) sec (captures (inf st)) (locs st) (mkloc 0 Exact) (depth (inf st))) in E3;
        [|unfold scope; rewrite EN, EC, EL, ED; reflexivity].
      assert (R4 : room cf st3) by (eapply room_scope; [exact R|exact S4|exact E3]).
      eapply dies_weak; [|apply (R' k st st3 None R R4 E3), IHp2, R4]. intros w'. apply over_le; cbn [nesting capturing scopes]; lia.
  - eapply dies_bind; [apply dies_add_captures, R|rewrite !forget_add_captures by assumption; apply (room_add_captures cf cf' LO), R| | |].
    { intros w' [-> E]. rewrite map_length in E. cbn. lia. }
    { intros st1 _. eapply (grows_bind trf); [apply (grows_exec cf' WELL')|]. intros [st2 x] _. cbn [trf fst]. apply GA. intros st4 E. apply fine_capture_end in E. apply E. }
    intros st1 R1 E1. rewrite forget_add_captures in E1 by assumption. apply scope_add_captures in E1.
    eapply (dies_bind trf); [apply IHp1, R1|rewrite !forget_exec by assumption; apply room_exec; assumption| | |].
    { intros w'. apply scope_parts in E1. destruct E1 as (E1 & E2 & E3). unfold locs in *. destruct w'; cbn [over nesting capturing scopes]; rewrite ?E1, ?E2, ?E3, ?app_length, ?map_length; unfold text, str in *; lia. }
    { intros [st2 x] _. cbn [trf fst]. apply GA. intros st4 E. apply fine_capture_end in E. apply E. }
    intros [st2 x] R2 E2. cbn [fst] in R2. rewrite forget_exec in E2 by assumption. apply scope_exec in E2. rewrite E1 in E2.
    assert (CE : exists st3, capture_end (is_some x) (length texts) st2 = Ok st3 /\ SafetyProofs.safe cf st3).
    { unfold capture_end. pose proof E2 as E2'. unfold scope in E2'. injection E2' as _ EC _ _. rewrite inf_hold, EC, app_length, !map_length.
      rewrite csub_ok by (unfold text, str in *; lia). cbn [bind]. eexists. split; [reflexivity|].
      pose proof (safe_hold cf (is_some x) st2 (proj1 R2)) as S2. destruct S2 as (A1 & A2 & A3 & A4). rewrite inf_hold in *. unfold SafetyProofs.safe. cbn. auto. }
    destruct CE as (st3 & E3 & S3). rewrite E3. cbn [and_then asserting].
    eapply scope_capture_end in E3; [|exact E2|rewrite !map_length; reflexivity].
    assert (R4 : room cf st3) by (eapply room_scope; [exact R|exact S3|exact E3]).
    eapply dies_weak; [|apply (R' k st st3 x R R4 E3), IHp2, R4]. intros w'. apply over_le; cbn [nesting capturing scopes]; lia.
  - eapply (dies_bind trf); [apply IHp1, R|rewrite !forget_exec by assumption; apply room_exec; assumption| | |].
    { intros w'. apply over_le; cbn [nesting capturing scopes]; lia. }
    { intros [st1 [e|]] _; cbn [trf fst]; [|apply (grows_exec cf' WELL')]. destruct (accepts e); [|apply continues_refl]. eapply grows_from; [|apply (grows_exec cf' WELL')].
      destruct notify; [apply grown_continues, (fine_notify cf')|apply continues_refl]. }
    intros [st1 x] R1 E1. cbn [fst] in R1. rewrite forget_exec in E1 by assumption. apply scope_exec in E1.
    assert (LE : forall w', over k st1 w' -> over (Catch accepts notify b k) st w').
    { intros w' H. apply over_scope with (st := st) in H; [|exact E1]. revert H. apply over_le; cbn [nesting capturing scopes]; lia. }
    destruct x as [e|]; [|eapply dies_weak; [exact LE|apply IHp2, R1]]. destruct (accepts e); [|exact I]. rewrite (lo_notify _ _ LO).
    destruct notify; [|eapply dies_weak; [exact LE|apply IHp2, R1]].
    eapply dies_weak; [|apply IHp2; eapply room_scope; [exact R1|apply safe_notify, R1|apply scope_inf, inf_notify]].
    intros w' H. apply LE. revert H. apply over_scope. apply scope_inf, inf_notify.
Qed.

Lemma dies_passes p : forall fuel pass st, outermost cf st ->
  dies trf (said_passes color cf id p fuel pass st) (said_passes color cf' id p fuel pass st) (fun w => exceeded (cf_max_nested cf) (cf_max_captures cf) w p).
Proof using LO WELL WELL'.
  induction fuel as [|fuel IH]; intros pass st O; cbn [said_passes]; [exact I|]. cbv zeta.
  set (st1 := set_inf st _).
  assert (O1 : outermost cf st1).
  { destruct O as ((S0 & L & C) & D & L1 & C1). split; [|split; [|split]]; auto. split; [|split]; auto.
    destruct S0 as (A1 & A2 & A3 & A4). unfold SafetyProofs.safe. cbn. rewrite map_length. auto. }
  eapply (dies_bind trf); [apply dies_exec, O1|rewrite !forget_exec by assumption; apply room_exec; [exact LO|apply O1]| | |].
  { destruct O1 as (_ & D & L1 & C1). intros w. unfold over. rewrite D, L1, C1. destruct w; cbn; lia. }
  { intros [st2 [x|]] _; cbn [trf fst]; [apply continues_refl|]. destruct (_ && _); [|apply continues_refl].
    apply (grows_passes cf' WELL' id p fuel (S pass) (set_inf st2 (after_pass (inf st2)))). }
  intros [st2 x] R2 E. cbn [fst] in R2. rewrite forget_exec in E by assumption. apply scope_exec in E.
  assert (O2 : outermost cf st2) by (eapply outer_scope; eauto).
  destruct x as [e|]; [exact I|].
  set (st3 := set_inf st2 (after_pass (inf st2))).
  assert (O3 : outermost cf st3).
  { destruct O2 as ((S0 & L & C) & D & L1 & C1). destruct S0 as (A1 & A2 & A3 & A4).
    assert (CS : current_section (inf st2) = []) by (apply length_zero_iff_nil; lia).
    unfold st3, after_pass, outermost, room, SafetyProofs.safe. destruct (levels (inf st2)) as [|c [|]] eqn:LV; cbn; rewrite ?LV; cbn; auto 9.
    destruct (_ =? _); cbn; rewrite ?LV; cbn; repeat split; auto; cbn in A1; lia. }
  destruct (_ && _); [apply IH, O3|exact I].
Qed.

Lemma finish_ok line x st2 : SafetyProofs.safe cf st2 -> ran st2 -> exists st, finish cf id line x st2 = Ok st.
Proof.
  intros S2 EP. unfold finish.
  assert (E3 : exists st3, (match x with
     | None =>
       do st' <- report_assertion cf id true (Message (lit "no exception caught")) (set_in_check st2 true) ;;
       Ok (set_in_check st' false)
     | Some AbortExn => Ok (set_unhandled st2 true)
     | Some (StdExn what) =>
       report_assertion2 cf id false (lit "unexpected std::exception caught; message: ") what (set_unhandled st2 true)
     | Some OtherExn =>
       report_assertion cf id false (Message (lit "unexpected unknown exception caught")) (set_unhandled st2 true)
     end) = Ok st3 /\ SafetyProofs.safe cf st3 /\ ran st3).
  { destruct x as [[|what|]|].
    - eexists. split; [reflexivity|]. split; [exact S2|exact EP].
    - destruct (safe_assertion2 cf id false (lit "unexpected std::exception caught; message: ") what (set_unhandled st2 true) S2) as (st3 & E3 & S3).
      rewrite E3. apply ran_assertion2 in E3; [eauto|exact EP].
    - destruct (safe_assertion cf id false (Message (lit "unexpected unknown exception caught")) (set_unhandled st2 true) S2) as (st3 & E3 & S3).
      rewrite E3. apply ran_assertion in E3; [eauto|exact EP].
    - destruct (safe_assertion cf id true (Message (lit "no exception caught")) (set_in_check st2 true) S2) as (st3 & E3 & S3).
      rewrite E3. cbn [bind]. apply ran_assertion in E3; [|exact EP]. eexists. split; [reflexivity|]. split; [exact S3|exact E3]. }
  destruct E3 as (st3 & E3 & S3 & R3). rewrite E3. cbn [bind].
  set (st5 := set_unhandled _ false).
  assert (S5 : SafetyProofs.safe cf st5).
  { unfold st5. destruct (unhandled st3); [|exact S3]. apply (safe_notify cf) in S3. exact S3. }
  assert (R5 : ran st5) by (unfold st5; destruct (unhandled st3); [|exact R3]; apply (ran_status _ _ (status_notify cf st3)) in R3; exact R3).
  assert (E6 : exists st6, (if should_fail st5 then
       do st' <- report_assertion cf id (match status st5 with IAllowedFail => true | _ => false end)
                   (Message (lit "expected test to fail"))
                   (set_in_check (set_should_fail st5 false) true) ;;
       Ok (set_should_fail (set_in_check st' false) true)
     else Ok st5) = Ok st6 /\ ran st6).
  { destruct (should_fail st5); [|eauto].
    destruct (safe_assertion cf id (match status st5 with IAllowedFail => true | _ => false end) (Message (lit "expected test to fail"))
                (set_in_check (set_should_fail st5 false) true) S5) as (st6 & E6 & _). rewrite E6.
    cbn [bind]. eexists. split; [reflexivity|]. apply ran_assertion in E6; [exact E6|exact R5]. }
  destruct E6 as (st6 & -> & R6). cbn [bind]. unfold ran in R6.
  destruct (status st6); [congruence| | | |]; cbn [convert_to_public_state bind]; eauto.
Qed.
End Main.

(** The end of a test, as in the model. *)
Definition said_finish (cf : config) (id : test_id) (line : nat) (x : option exn) (st2 : state) : fate state :=
  and_then (asserting (trace st2) vector_back
    (match x with
     | None =>
       do st' <- report_assertion cf id true (Message (lit "no exception caught")) (set_in_check st2 true) ;;
       Ok (set_in_check st' false)
     | Some AbortExn => Ok (set_unhandled st2 true)
     | Some (StdExn what) =>
       report_assertion2 cf id false (lit "unexpected std::exception caught; message: ") what (set_unhandled st2 true)
     | Some OtherExn =>
       report_assertion cf id false (Message (lit "unexpected unknown exception caught")) (set_unhandled st2 true)
     end)) (fun st3 =>
  let st4 := if unhandled st3 then notify_exception_handled cf st3 else st3 in
  let st5 := set_unhandled st4 false in
  and_then (asserting (trace st5) vector_back
    (if should_fail st5 then
       do st' <- report_assertion cf id (match status st5 with IAllowedFail => true | _ => false end)
                   (Message (lit "expected test to fail"))
                   (set_in_check (set_should_fail st5 false) true) ;;
       Ok (set_should_fail (set_in_check st' false) true)
     else Ok st5)) (fun st6 =>
  and_then (asserting (trace st6) [] (convert_to_public_state (status st6))) (fun s =>
  Done (report cf High st6 (TestCaseEnded id line (asserts st6) s))))).

Lemma forget_finish cf id line x st : forget (said_finish cf id line x st) = finish cf id line x st.
Proof.
  unfold said_finish, finish. cbv zeta. rewrite forget_bind, forget_asserting. apply bind_ext. intros st3. rewrite forget_bind, forget_asserting. apply bind_ext. intros st6.
  rewrite forget_bind, forget_asserting. apply bind_ext. reflexivity.
Qed.
Lemma grows_finish cf id line x st : grows trace (trace st) (said_finish cf id line x st).
Proof.
  unfold said_finish. cbv zeta. eapply (grows_bind trace); [apply grows_asserting|].
  { intros s. destruct x as [[|what|]|].
    - intros H. injection H as <-. apply (continues_refl (trace st)).
    - intros H. apply fine_assertion2 in H. apply (grown_continues _ _ (proj1 H)).
    - intros H. apply fine_assertion in H. apply (grown_continues _ _ (proj1 H)).
    - intros H. bstep H as s1 E. injection H as <-. apply fine_assertion in E. apply (grown_continues _ _ (proj1 E)). }
  intros st3 _. set (st4 := if unhandled st3 then _ else _). apply grows_from with (b := trace st4).
  { subst st4. destruct (unhandled st3); [apply grown_continues, (fine_notify cf)|apply continues_refl]. }
  eapply (grows_bind trace); [apply (grows_asserting trace (trace st4))|].
  { intros s. destruct (should_fail _); [|intros H; injection H as <-; apply continues_refl].
    intros H. bstep H as s1 E. injection H as <-. apply fine_assertion in E. apply (grown_continues _ _ (proj1 E)). }
  intros st6 _. eapply (grows_bind (fun _ => trace st6)); [apply grows_asserting; intros; apply continues_refl|]. intros s _.
  apply grown_continues, (fine_report cf).
Qed.

Lemma dies_run cf cf' fuel t before may should : looser cf cf' -> prints_well cf -> prints_well cf' ->
  fail_flags (cf_max_tag_length cf) (id_tags (t_id t)) = Ok (may, should) ->
  dies cf trace (said_run color cf fuel t before) (said_run color cf' fuel t before) (fun w => exceeded (cf_max_nested cf) (cf_max_captures cf) w (t_body t)).
Proof.
  intros LO WELL WELL' FF. unfold said_run. cbv zeta. rewrite (lo_tag_length _ _ LO), FF. cbn [asserting and_then]. rewrite (lo_report _ _ LO).
  set (st0 := report cf High _ _).
  assert (E0 : exists st1, push_location cf (set_status st0 ISuccess) (mkloc (t_line t) TestCaseScope) = Ok st1 /\
                           push_location cf' (set_status st0 ISuccess) (mkloc (t_line t) TestCaseScope) = Ok st1 /\ outermost cf st1).
  { assert (I0 : inf st0 = mkinfo [] [] 0 false [] []) by (unfold st0; apply inf_report).
    assert (H0 : held st0 = None) by (unfold st0; apply held_report).
    unfold push_location. cbn [inf set_status]. rewrite I0. cbn [locations]. rewrite !push_back_ok by (cbn; lia). cbn [bind app]. eexists. split; [reflexivity|]. split; [reflexivity|].
    unfold outermost, room, SafetyProofs.safe, held_safe. cbn [inf set_inf held set_status locations captures depth levels current_section with_locations length]. rewrite ?H0.
    repeat split; try lia; try discriminate. }
  assert (ST0 : ran (set_status st0 ISuccess)) by discriminate.
  destruct E0 as (st1 & E1 & E1' & O1). rewrite E1, E1'. cbn [asserting and_then]. apply ran_push in E1. apply (ran_status _ _ E1) in ST0.
  pose proof (dies_passes cf cf' LO WELL WELL' (t_id t) (t_body t) fuel 0 st1 O1) as D.
  assert (T : forall a, forget (said_passes color cf (t_id t) (t_body t) fuel 0 st1) = Ok a -> exists st, finish cf (t_id t) (t_line t) (snd a) (fst a) = Ok st).
  { intros [st2 x] E. rewrite (forget_passes cf WELL) in E.
    destruct (room_passes cf cf' LO (t_id t) (t_body t) fuel 0 st1 O1) as [[E' _]|[[E' _]|(st3 & y & E' & _ & O2)]]; try congruence.
    rewrite E in E'. injection E' as <- <-. apply ran_passes in E; [|exact ST0]. cbn [fst snd]. apply finish_ok; [apply O2|exact E]. }
  change (dies cf trace
    (and_then (said_passes color cf (t_id t) (t_body t) fuel 0 st1) (fun '(st2, x) => said_finish cf (t_id t) (t_line t) x st2))
    (and_then (said_passes color cf' (t_id t) (t_body t) fuel 0 st1) (fun '(st2, x) => said_finish cf' (t_id t) (t_line t) x st2))
    (fun w => exceeded (cf_max_nested cf) (cf_max_captures cf) w (t_body t))).
  destruct (said_passes color cf (t_id t) (t_body t) fuel 0 st1) as [[st2 x]|evs out m|e] eqn:SP; [| |exact I].
  - destruct (T (st2, x) eq_refl) as [st E]. cbn [fst snd] in E. rewrite <- forget_finish in E. apply forget_done in E. cbn [and_then]. rewrite E. exact I.
  - destruct D as [D G]. cbn [and_then dies]. split; [exact D|]. eapply (grows_bind trf); [exact G|]. intros [st2 x] _. apply grows_finish.
Qed.

Lemma grows_run cf fuel t before may should : prints_well cf -> fail_flags (cf_max_tag_length cf) (id_tags (t_id t)) = Ok (may, should) ->
  grows trace before (said_run color cf fuel t before).
Proof.
  intros WELL FF. unfold said_run. cbv zeta. rewrite FF. cbn [asserting and_then].
  match goal with |- context [report cf High ?s ?e] => pose proof (grown_continues _ _ (proj1 (fine_report cf High s e))) as C0; set (st0 := report cf High s e) in * end.
  apply grows_from with (b := trace st0); [exact C0|].
  eapply grows_bind; [apply grows_asserting; intros s E; apply fine_push in E; apply (grown_continues _ _ (proj1 E))|]. intros st1 _.
  eapply (grows_bind trf); [apply (grows_passes cf WELL)|]. intros [st2 x] _. apply (grows_finish cf (t_id t) (t_line t) x st2).
Qed.
End Words.

(** ** The theorems *)
Theorem words color cf fuel t before tags may should events printed told :
  id_tags (t_id t) = tag_string tags -> well_formed (cf_max_tag_length cf) tags -> tagged tags may should ->
  40 <= cf_max_message_length cf -> (N.of_nat (cf_max_nested cf) < 2 ^ 64)%N -> (N.of_nat (cf_max_captures cf) < 2 ^ 64)%N ->
  said_run color cf fuel t before = Died events printed told ->
  continues before events /\
  exists l, exceeded (cf_max_nested cf) (cf_max_captures cf) l (t_body t) /\ told = LastWordsSpec.message l /\
    LastWordsSpec.explained (rendered (make_colored (quote "error:") color color_fail)) (cf_max_nested cf) (cf_max_captures cf) l printed.
Proof.
  intros E W T R L1 L2 H. pose proof (flags_of _ _ _ _ _ E W T) as FF. assert (WELL : prints_well cf) by (repeat split; auto).
  split.
  - pose proof (grows_run color cf fuel t before may should WELL FF) as G. rewrite H in G. exact G.
  - assert (LO : looser cf cf) by (constructor; auto). pose proof (dies_run color cf cf fuel t before may should LO WELL WELL FF) as D. rewrite H in D.
    destruct D as [(l & D1 & D2 & D3) _]. exists l. auto.
Qed.

Theorem same_fate color cf fuel t before :
  40 <= cf_max_message_length cf -> (N.of_nat (cf_max_nested cf) < 2 ^ 64)%N -> (N.of_nat (cf_max_captures cf) < 2 ^ 64)%N ->
  match said_run color cf fuel t before with
  | Done st => run cf fuel t before = Ok st
  | Died _ _ _ => run cf fuel t before = Err Assert
  | Broken e => run cf fuel t before = Err e
  end.
Proof.
  intros R L1 L2. rewrite <- (forget_run color cf fuel t before) by (repeat split; auto). now destruct (said_run color cf fuel t before).
Qed.

Theorem until color cf nested captures fuel t before tags may should events printed told :
  id_tags (t_id t) = tag_string tags -> well_formed (cf_max_tag_length cf) tags -> tagged tags may should ->
  40 <= cf_max_message_length cf -> (N.of_nat nested < 2 ^ 64)%N -> (N.of_nat captures < 2 ^ 64)%N ->
  cf_max_nested cf <= nested -> cf_max_captures cf <= captures ->
  said_run color cf fuel t before = Died events printed told ->
  match said_run color (mkconfig (cf_verbosity cf) nested captures (cf_max_capture_length cf) (cf_max_message_length cf) (cf_max_tag_length cf)) fuel t before with
  | Done st => continues events (trace st)
  | Died events' _ _ => continues events events'
  | Broken e => e = Fuel
  end.
Proof.
  intros E W T R L1 L2 M1 M2 H. pose proof (flags_of _ _ _ _ _ E W T) as FF.
  assert (WELL : prints_well cf) by (repeat split; auto; lia).
  match goal with |- context [said_run color ?c] => set (cf' := c); assert (WELL' : prints_well cf') by (repeat split; auto);
    assert (LO : looser cf cf') by (constructor; auto) end.
  pose proof (dies_run color cf cf' fuel t before may should LO WELL WELL' FF) as D. rewrite H in D. destruct D as [_ G].
  pose proof (same_fate color cf' fuel t before (proj1 WELL') (proj1 (proj2 WELL')) (proj2 (proj2 WELL'))) as SF.
  destruct (said_run color cf' fuel t before); auto.
  destruct (only_assert cf' fuel t before tags may should E W T) as [K|[K|[st K]]]; try congruence.
Qed.
