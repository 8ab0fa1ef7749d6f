(** References to functions (C79). *)
From Verif.Spec Require Import FunctionSpec.
From Verif.Model Require Import Base Function.

Section Function.
Variables (S X R : Type).
Variable free : nat -> X -> store S -> store S * option R.
Variable member : nat -> nat -> X -> store S -> store S * option R.
Variable ne : bool.
Notation execute := (execute S X R free member ne).
Notation refer := (refer S X R member).

Lemma refer_call t c x st : call S X R free ne (refer t c) x st = call_directly S X R free member ne t x st.
Proof. destruct t as [f|o f]; [reflexivity|]. destruct c; reflexivity. Qed.

(** The references are those of the past. *)
Definition follows (past : list (step S X)) (refs : nat -> option (function_ref S X R)) : Prop :=
  forall v, match bound past v with Some t => exists c, refs v = Some (refer t c) | None => refs v = None end.

Lemma direct_same p : forall past refs st, follows past refs -> forall refs', execute refs st p = execute refs' st (direct past p).
Proof.
  induction p as [|s p IH]; intros past refs st F refs'; [reflexivity|]. cbn [direct]. destruct s as [s|o|o s|v t c|v w|v x|t x].
  - cbn [Function.execute app]. apply IH. exact F.
  - cbn [Function.execute app]. apply IH. exact F.
  - cbn [Function.execute app]. apply IH. exact F.
  - cbn [Function.execute app]. apply IH. intros u. cbn [bound]. destruct (u =? v); [eauto|apply F].
  - cbn [Function.execute app]. apply IH. intros u. cbn [bound]. destruct (u =? v); apply F.
  - cbn [Function.execute]. pose proof (F v) as FV. destruct (bound past v) as [t|].
    + destruct FV as (c & ->). rewrite refer_call. cbn [app Function.execute].
      destruct (call_directly S X R free member ne t x st) as [[st' r]|]; cbn [bind]; [|reflexivity]. rewrite (IH (Call v x :: past) refs st' F refs'). reflexivity.
    + rewrite FV. cbn [app]. apply IH. exact F.
  - cbn [Function.execute app]. destruct (call_directly S X R free member ne t x st) as [[st' r]|]; cbn [bind]; [|reflexivity].
    rewrite (IH (Direct t x :: past) refs st' F refs'). reflexivity.
Qed.

Theorem as_direct p : execute (fun _ => None) [] p = execute (fun _ => None) [] (direct [] p).
Proof. apply direct_same. intros v. reflexivity. Qed.

(** ** Lifetimes *)
Definition flags (st : store S) : list bool := map present st.

Lemma flags_put st : forall o s, flags (put S st o s) = match s with Some _ => flags (put S st o s) | None => kill (flags st) o end.
Proof. intros o [s|]; [reflexivity|]. revert o. induction st as [|x st IH]; intros [|o]; cbn; try reflexivity. now rewrite <- IH. Qed.
Lemma flags_change st : forall o s, nth_error (flags st) o = Some true -> flags (put S st o (Some s)) = flags st.
Proof. induction st as [|x st IH]; intros [|o] s H; cbn in *; try discriminate; [congruence|]. now rewrite IH. Qed.
Lemma flags_nth st o : nth_error (flags st) o = Some true <-> exists s, nth_error st o = Some (Some s).
Proof.
  unfold flags. rewrite nth_error_map. destruct (nth_error st o) as [[s|]|]; cbn; split; try discriminate; eauto; intros (t & H); discriminate.
Qed.

Hypothesis free_keeps : forall f x st, flags (fst (free f x st)) = flags st.
Hypothesis member_keeps : forall f o x st, flags (fst (member f o x st)) = flags st.

Lemma direct_result t x st : ne = false ->
  ((exists r, call_directly S X R free member ne t x st = Ok r) <-> exists_for (flags st) (Some t)) /\
  forall st' r, call_directly S X R free member ne t x st = Ok (st', r) -> flags st' = flags st.
Proof.
  intros ->. unfold call_directly. destruct t as [f|o f]; cbn [exists_for].
  - destruct (free f x st) as [st1 r1] eqn:E. cbn [bind]. split; [split; [auto|destruct r1; eauto]|].
    intros st' r H. rewrite <- (free_keeps f x st), E. cbn. destruct r1; injection H as <- <-; reflexivity.
  - rewrite flags_nth. destruct (nth_error st o) as [[s|]|]; cbn [bind].
    2,3: split; [split; [intros (r & H); discriminate|intros (s & H); discriminate]|discriminate].
    destruct (member f o x st) as [st1 r1] eqn:E. cbn [bind]. split; [split; [eauto|destruct r1; eauto]|].
    intros st' r H. rewrite <- (member_keeps f o x st), E. cbn. destruct r1; injection H as <- <-; reflexivity.
Qed.

Lemma lifetimes p : ne = false -> forall past refs st, follows past refs -> flags st = living past ->
  ((exists r, execute refs st p = Ok r) <-> alive_when_called past p).
Proof.
  intros NE. induction p as [|s p IH]; intros past refs st F L; [cbn; split; eauto|]. cbn [alive_when_called].
  assert (STEP : forall t x refs' past', follows past' refs' -> living past' = living past ->
    ((exists r, (do (st', result) <- call_directly S X R free member ne t x st ;; do (st2, results) <- execute refs' st' p ;; Ok (st2, result :: results)) = Ok r) <->
     exists_for (living past) (Some t) /\ alive_when_called past' p)).
  { intros t x refs' past' F' L'. destruct (direct_result t x st NE) as [D1 D2]. rewrite <- L, <- D1.
    destruct (call_directly S X R free member ne t x st) as [[st' r]|]; cbn [bind].
    - specialize (IH past' refs' st' F'). rewrite (D2 _ _ eq_refl), L, L' in IH. specialize (IH eq_refl). rewrite <- IH.
      destruct (execute refs' st' p) as [[st2 rs]|]; cbn [bind]; (split; [intros (q & H)|intros (_ & q & H)]); try discriminate; eauto.
    - split; [intros (q & H); discriminate|intros ((q & H) & _); discriminate]. }
  destruct s as [s|o|o s|v t c|v w|v x|t x]; cbn [Function.execute].
  - rewrite (IH (Create s :: past)); [tauto|exact F|]. cbn [living]. unfold flags in *. rewrite map_app, L. reflexivity.
  - rewrite (IH (Destroy o :: past)); [tauto|exact F|]. cbn [living]. rewrite flags_put, L. reflexivity.
  - rewrite (IH (Change o s :: past)); [tauto|exact F|]. cbn [living]. rewrite <- L. destruct (nth_error st o) as [[s'|]|] eqn:E; try reflexivity.
    apply flags_change. apply flags_nth. eauto.
  - rewrite (IH (Refer v t c :: past)); [tauto| |exact L]. intros u. cbn [bound]. destruct (u =? v); [eauto|apply F].
  - rewrite (IH (Copy v w :: past)); [tauto| |exact L]. intros u. cbn [bound]. destruct (u =? v); apply F.
  - pose proof (F v) as FV. destruct (bound past v) as [t|].
    + destruct FV as (c & ->).
      transitivity (exists r, (do (st', result) <- call_directly S X R free member ne t x st ;; do (st2, results) <- execute refs st' p ;; Ok (st2, result :: results)) = Ok r).
      { rewrite refer_call. reflexivity. }
      apply (STEP t x refs (Call v x :: past)); [exact F|reflexivity].
    + rewrite FV. cbn [exists_for]. rewrite (IH (Call v x :: past)); [tauto|exact F|exact L].
  - apply (STEP t x refs (Direct t x :: past)); [exact F|reflexivity].
Qed.
End Function.

Theorem valid_calls S X R free member p :
  (forall f x st, map present (fst (free f x st)) = map present st) -> (forall f o x st, map present (fst (member f o x st)) = map present st) ->
  ((exists r, execute S X R free member false (fun _ => None) [] p = Ok r) <-> alive_when_called [] p).
Proof. intros F M. apply lifetimes; auto. intros v. reflexivity. Qed.

Theorem dangling_undefined S X R free member p r :
  execute S X R free member false (fun _ => None) [] p = Err r -> r = UB.
Proof.
  enough (G : forall refs st, execute S X R free member false refs st p = Err r -> (forall v f, refs v = Some f -> exists t c, f = refer S X R member t c) -> r = UB).
  { intros H. eapply G; eauto. discriminate. }
  induction p as [|s p IH]; intros refs st H K; cbn [execute] in H; [discriminate|].
  assert (D : forall t x st, match call_directly S X R free member false t x st with Err e => e = UB | Ok _ => True end).
  { intros t x st'. unfold call_directly. destruct t as [f|o f].
    - destruct (free f x st') as [? []]; exact I.
    - destruct (nth_error st' o) as [[s'|]|]; cbn [bind]; auto. destruct (member f o x st') as [? []]; exact I. }
  destruct s as [s|o|o s|v t c|v w|v x|t x]; eauto.
  - eapply IH; [exact H|]. intros u f E. cbn in E. destruct (u =? v); [injection E as <-; eauto|eauto].
  - eapply IH; [exact H|]. intros u f E. cbn in E. destruct (u =? v); eauto.
  - destruct (refs v) as [f|] eqn:E; [|eauto]. destruct (K v f E) as (t & c & ->). rewrite refer_call in H. specialize (D t x st).
    destruct (call_directly S X R free member false t x st) as [[st' q]|]; cbn [bind] in H; [|congruence].
    destruct (execute S X R free member false refs st' p) as [[? ?]|] eqn:E2; cbn [bind] in H; [discriminate|]. injection H as <-. eauto.
  - specialize (D t x st). destruct (call_directly S X R free member false t x st) as [[st' q]|]; cbn [bind] in H; [|congruence].
    destruct (execute S X R free member false refs st' p) as [[? ?]|] eqn:E2; cbn [bind] in H; [discriminate|]. injection H as <-. eauto.
Qed.
