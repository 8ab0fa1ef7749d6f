(** Type-erased storages (C46). *)
From Verif.Spec Require Import AnySpec.
From Verif.Model Require Import Base Any.
Local Open Scope list_scope.

(** ** Histories *)
Definition objects_of (x : option (option object)) : list object := match x with Some (Some o) => [o] | _ => [] end.
Definition objects (c : contents) : list object := flat_map objects_of c.
Notation number_held o c := (count_occ object_dec (objects c) o).

Lemma put_length {A} (l : list A) i x : length (put l i x) = length l.
Proof. revert i. induction l; intros [|i]; cbn; auto. Qed.
Lemma put_same {A} (l : list A) i x y : nth_error l i = Some y -> nth_error (put l i x) i = Some x.
Proof. revert i. induction l as [|a l IH]; intros [|i]; cbn; try discriminate; auto. Qed.
Lemma put_other {A} (l : list A) i j x : i <> j -> nth_error (put l i x) j = nth_error l j.
Proof. revert i j. induction l as [|a l IH]; intros [|i] [|j] N; cbn; auto; try lia. Qed.
Lemma objects_put c i x y o : nth_error c i = Some y ->
  number_held o (put c i x) + count_occ object_dec (objects_of y) o = number_held o c + count_occ object_dec (objects_of x) o.
Proof.
  unfold objects. revert i. induction c as [|z c IH]; intros [|i] E; cbn [put nth_error flat_map] in *; try discriminate.
  - injection E as ->. rewrite !count_occ_app. lia.
  - rewrite !count_occ_app. specialize (IH i E). lia.
Qed.
Lemma objects_app a b : objects (a ++ b) = objects a ++ objects b.
Proof. apply flat_map_app. Qed.
Lemma held_objects c i x : nth_error c i = Some (Some x) -> objects_of (Some x) = match held c i with Some o => [o] | None => [] end.
Proof. unfold held. intros ->. destruct x; reflexivity. Qed.
Lemma gone_occurrences x o : occurrences (Destroyed o) (gone x) = count_occ object_dec (match x with Some o => [o] | None => [] end) o /\ occurrences (Constructed o) (gone x) = 0.
Proof.
  destruct x as [p|]; [|split; reflexivity]. cbn. split.
  - destruct (happening_dec (Destroyed p) (Destroyed o)) as [E|E], (object_dec p o) as [F|F]; auto; [injection E; contradiction|subst; contradiction].
  - destruct (happening_dec (Destroyed p) (Constructed o)); [discriminate|auto].
Qed.
Lemma constructed_occurrences p o : occurrences (Constructed o) [Constructed p] = count_occ object_dec [p] o /\ occurrences (Destroyed o) [Constructed p] = 0.
Proof.
  cbn. split.
  - destruct (happening_dec (Constructed p) (Constructed o)) as [E|E], (object_dec p o) as [F|F]; auto; [injection E; contradiction|subst; contradiction].
  - destruct (happening_dec (Constructed p) (Destroyed o)); [discriminate|auto].
Qed.
Lemma gone_constructed x o : ~ In (Constructed o) (gone x).
Proof. destruct x; cbn; [intros [E|[]]; discriminate|tauto]. Qed.

(** What an operation changes in the balance of an object. *)
Lemma effect_balance c n op o : possible c op ->
  number_held o c + occurrences (Constructed o) (snd (effect c n op)) = number_held o (fst (effect c n op)) + occurrences (Destroyed o) (snd (effect c n op)).
Proof.
  intros P. destruct op as [|t [|]|j|i j|i t [|]|i|i]; cbn [effect fst snd possible] in *; rewrite ?objects_app, ?count_occ_app.
  - cbn. lia.
  - destruct (constructed_occurrences (mkobject t n) o) as [-> ->]. cbn [objects flat_map objects_of app]. lia.
  - cbn. lia.
  - destruct P as (x & E). pose proof (objects_put c j (Some None) _ o E) as H. rewrite (held_objects c j x E) in H.
    cbn [objects flat_map objects_of app count_occ] in *. rewrite app_nil_r. destruct (held c j); cbn [count_occ] in *; lia.
  - destruct P as [(x & E) (y & F)]. destruct (Nat.eqb_spec i j) as [<-|N]; cbn [fst snd].
    + destruct (gone_occurrences (held c i) o) as [-> ->]. pose proof (objects_put c i (Some None) _ o E) as H. rewrite (held_objects c i x E) in H.
      cbn [objects_of count_occ] in H. lia.
    + destruct (gone_occurrences (held c i) o) as [-> ->]. pose proof (objects_put c i (Some (held c j)) _ o E) as H. rewrite (held_objects c i x E) in H.
      assert (F' : nth_error (put c i (Some (held c j))) j = Some (Some y)) by now rewrite put_other.
      pose proof (objects_put _ j (Some None) _ o F') as H'. rewrite (held_objects c j y F) in H'. 
      destruct (held c j) eqn:HJ; cbn [count_occ objects_of] in *; lia.
  - destruct P as (x & E). destruct (gone_occurrences (held c i) o) as [-> ->]. destruct (constructed_occurrences (mkobject t n) o) as [-> ->].
    pose proof (objects_put c i (Some (Some (mkobject t n))) _ o E) as H. rewrite (held_objects c i x E) in H. cbn [objects_of] in H. lia.
  - destruct P as (x & E). destruct (gone_occurrences (held c i) o) as [-> ->]. pose proof (objects_put c i (Some None) _ o E) as H.
    rewrite (held_objects c i x E) in H. cbn [objects_of count_occ] in H. lia.
  - destruct P as (x & E). destruct (gone_occurrences (held c i) o) as [-> ->]. pose proof (objects_put c i (Some None) _ o E) as H.
    rewrite (held_objects c i x E) in H. cbn [objects_of count_occ] in H. lia.
  - destruct P as (x & E). destruct (gone_occurrences (held c i) o) as [-> ->]. pose proof (objects_put c i None _ o E) as H.
    rewrite (held_objects c i x E) in H. cbn [objects_of count_occ] in H. lia.
Qed.
Lemma effect_constructed c n op o : In (Constructed o) (snd (effect c n op)) -> o_number o = n /\ occurrences (Constructed o) (snd (effect c n op)) = 1 /\
  (forall p, In (Constructed p) (snd (effect c n op)) -> p = o).
Proof.
  assert (G : forall x t, occurrences (Constructed (mkobject t n)) (gone x ++ [Constructed (mkobject t n)]) = 1).
  { intros x t. rewrite count_occ_app. destruct (gone_occurrences x (mkobject t n)) as [_ ->]. cbn. destruct (happening_dec _ _); [auto|contradiction]. }
  assert (Q : forall x t p, In (Constructed p) (gone x ++ [Constructed (mkobject t n)]) -> p = mkobject t n).
  { intros x t p I. apply in_app_iff in I as [I|[I|[]]]; [now apply gone_constructed in I|now injection I]. }
  destruct op as [|t [|]|j|i j|i t [|]|i|i]; cbn [effect snd]; try (intros []; fail); try (intros I; now apply gone_constructed in I).
  - intros I. pose proof (Q None t o I) as ->. split; [reflexivity|]. split; [apply (G None)|apply (Q None)].
  - destruct (i =? j); intros I; now apply gone_constructed in I.
  - intros I. pose proof (Q _ t o I) as ->. split; [reflexivity|]. split; [apply G|apply Q].
Qed.

Lemma history_balance ops c l : history ops c l -> forall o, occurrences (Constructed o) l = number_held o c + occurrences (Destroyed o) l.
Proof.
  induction 1 as [|ops c l op H IH P]; intros o; [reflexivity|]. rewrite !count_occ_app, IH. pose proof (effect_balance c (length l) op o P). lia.
Qed.
Lemma history_numbers ops c l : history ops c l -> forall o, In (Constructed o) l -> o_number o < length l.
Proof.
  induction 1 as [|ops c l op H IH P]; intros o I; [destruct I|]. rewrite app_length. apply in_app_iff in I as [I|I]; [specialize (IH o I); lia|].
  pose proof (effect_constructed c (length l) op o I) as (E & _). destruct (snd (effect c (length l) op)); [destruct I|cbn; lia].
Qed.
Lemma history_once ops c l : history ops c l -> forall o, In (Constructed o) l -> occurrences (Constructed o) l = 1.
Proof.
  induction 1 as [|ops c l op H IH P]; intros o I; [destruct I|]. rewrite count_occ_app. destruct (in_dec happening_dec (Constructed o) (snd (effect c (length l) op))) as [J|J].
  - pose proof (effect_constructed c (length l) op o J) as (E & E1 & _). rewrite E1.
    assert (N : ~ In (Constructed o) l) by (intros K; apply (history_numbers _ _ _ H) in K; lia). apply (count_occ_not_In happening_dec) in N. lia.
  - apply in_app_iff in I as [I|I]; [|contradiction]. rewrite (IH o I). apply (count_occ_not_In happening_dec) in J. lia.
Qed.
Lemma history_unique ops c l : history ops c l -> forall o p, In (Constructed o) l -> In (Constructed p) l -> o_number o = o_number p -> o = p.
Proof.
  induction 1 as [|ops c l op H IH P]; intros o p I J E; [destruct I|]. apply in_app_iff in I, J. destruct I as [I|I], J as [J|J].
  - auto.
  - pose proof (history_numbers _ _ _ H _ I). pose proof (effect_constructed c (length l) op p J) as (K & _). lia.
  - pose proof (history_numbers _ _ _ H _ J). pose proof (effect_constructed c (length l) op o I) as (K & _). lia.
  - pose proof (effect_constructed c (length l) op p J) as (_ & _ & K). auto.
Qed.
Lemma held_in c i o : held c i = Some o -> In o (objects c).
Proof.
  unfold held, objects. intros H. apply in_flat_map. destruct (nth_error c i) as [[x|]|] eqn:E; try discriminate. exists (Some x). split; [eapply nth_error_In; eauto|].
  subst. now left.
Qed.
Lemma history_held ops c l : history ops c l -> forall o, In o (objects c) -> In (Constructed o) l /\ ~ In (Destroyed o) l /\ number_held o c = 1.
Proof.
  intros H o I. pose proof (history_balance _ _ _ H o) as B. apply (count_occ_In object_dec) in I.
  assert (C : In (Constructed o) l) by (apply (count_occ_In happening_dec); lia). split; auto. pose proof (history_once _ _ _ H o C).
  split; [apply (count_occ_not_In happening_dec)|]; lia.
Qed.
Lemma history_destroyed ops c l : history ops c l -> forall o, In (Destroyed o) l -> In (Constructed o) l.
Proof.
  intros H o I. pose proof (history_balance _ _ _ H o) as B. apply (count_occ_In happening_dec) in I. apply (count_occ_In happening_dec). lia.
Qed.
Lemma history_order ops c l : history ops c l -> forall a o b, l = a ++ Destroyed o :: b -> In (Constructed o) a.
Proof.
  intros H. induction H as [|ops c l op H IH P]; intros a o b E; [now destruct a|].
  assert (F : exists x y, a = x ++ y /\ (y = [] /\ (exists b', l = x ++ Destroyed o :: b') \/ x = l /\ snd (effect c (length l) op) = y ++ Destroyed o :: b)).
  { clear - E. revert E. generalize (snd (effect c (length l) op)). intros e E. revert l E. induction a as [|h a IH]; intros l E.
    - destruct l as [|h l]; cbn in E; [exists [], []; split; auto; right; auto|]. injection E as -> E. exists [], []. split; auto. left. split; auto. now exists l.
    - destruct l as [|h' l]; cbn in E; [exists [], (h :: a); split; auto|]. injection E as -> E. destruct (IH l E) as (x & y & -> & [(-> & b' & ->)|(-> & F)]).
      + exists (h :: x), []. split; auto. left. split; auto. now exists b'.
      + exists (h :: l), y. split; auto. }
  destruct F as (x & y & -> & [(-> & b' & F)|(-> & F)]); [rewrite app_nil_r; eapply IH; exact F|].
  assert (I : In (Destroyed o) (snd (effect c (length l) op))) by (rewrite F; apply in_or_app; right; now left).
  apply in_or_app. left. pose proof (history_held _ _ _ H o) as Q. apply Q.
  assert (G : forall i, In (Destroyed o) (gone (held c i)) -> In o (objects c)).
  { intros i K. destruct (held c i) as [p|] eqn:E'; cbn in K; [|destruct K]. destruct K as [K|[]]. injection K as ->. eapply held_in; eauto. }
  destruct op as [|t [|]|j|i j|i t [|]|i|i]; cbn [effect snd] in I; try (destruct I; fail); try (eapply G; exact I).
  - destruct I as [I|[]]. discriminate.
  - destruct (i =? j); eapply G; exact I.
  - apply in_app_iff in I as [I|[I|[]]]; [eapply G; exact I|discriminate].
Qed.

(** ** The model *)
Definition represents (x : option any) (y : option (option object)) : Prop :=
  match x, y with
  | None, None => True
  | Some a, Some v => deleter a = option_map o_type v /\ tid a = option_map o_type v /\ (forall o, v = Some o -> storage a = Some o)
  | _, _ => False
  end.
Definition represents_all (h : list (option any)) (c : contents) : Prop := Forall2 represents h c.
Definition numbers_dead (d : list nat) (l : list happening) : Prop := forall n, In n d <-> exists o, In (Destroyed o) l /\ o_number o = n.
Definition related (w : world) (c : contents) (l : list happening) : Prop := represents_all (heap w) c /\ numbers_dead (dead w) l /\ log w = l.

Lemma rep_length h c : represents_all h c -> length h = length c.
Proof. induction 1; cbn; auto. Qed.
Lemma rep_put h c i x y : represents_all h c -> represents x y -> represents_all (put h i x) (put c i y).
Proof.
  intros H R. revert i. induction H as [|a b h c E H IH]; intros [|i]; cbn; try constructor; auto. apply IH.
Qed.
Lemma rep_nth h c i : represents_all h c -> exists_in c i -> exists a v, nth_error h i = Some (Some a) /\ nth_error c i = Some (Some v) /\ represents (Some a) (Some v).
Proof.
  intros H (v & E). revert i E. induction H as [|a b h c R H IH]; intros [|i] E; cbn in *; try discriminate; auto.
  injection E as ->. destruct a as [a|]; [|destruct R]. exists a, v. auto.
Qed.
Lemma rep_release a v : represents (Some a) (Some v) -> represents (Some (release a)) (Some None).
Proof. intros _. cbn. repeat split. discriminate. Qed.

Lemma dead_false w l o : numbers_dead (dead w) l -> (forall p, In (Destroyed p) l -> o_number p <> o_number o) -> existsb (Nat.eqb (o_number o)) (dead w) = false.
Proof.
  intros D N. destruct (existsb _ _) eqn:E; auto. apply existsb_exists in E as (n & I & F). apply Nat.eqb_eq in F as <-. apply D in I as (p & I & E). now apply N in I.
Qed.

Lemma live ops c l i o : history ops c l -> held c i = Some o -> forall p, In (Destroyed p) l -> o_number p <> o_number o.
Proof.
  intros H E p I F. apply held_in in E. pose proof (history_held _ _ _ H o E) as (C & D & _).
  assert (p = o) as -> by (eapply history_unique; eauto using history_destroyed). contradiction.
Qed.

Lemma reset_related ops w c l i : history ops c l -> related w c l -> exists_in c i ->
  exists w', any_reset w i = Ok w' /\ related w' (put c i (Some None)) (l ++ gone (held c i)).
Proof.
  intros H (R & D & L) X. destruct (rep_nth _ _ _ R X) as (a & v & EA & EC & (R1 & R2 & R3)). unfold any_reset, get_any. rewrite EA. cbn [bind]. rewrite R1.
  assert (HV : held c i = v) by (unfold held; now rewrite EC).
  destruct v as [o|]; cbn [option_map].
  - rewrite (R3 o eq_refl). unfold delete_object. rewrite Nat.eqb_refl. rewrite (dead_false w l o D) by (eapply live; eauto). cbn [andb negb bind]. eexists. split; [reflexivity|].
    rewrite HV. cbn [gone]. split; [|split].
    + cbn [heap set_any]. apply rep_put; auto. cbn. repeat split. discriminate.
    + cbn [dead set_any]. intros n. split.
      * intros [<-|I]; [exists o; split; [apply in_or_app; right; now left|auto]|]. apply D in I as (p & I & E). exists p. split; [apply in_or_app; now left|auto].
      * intros (p & I & E). apply in_app_iff in I as [I|[I|[]]]; [right; apply D; eauto|]. injection I as ->. now left.
    + cbn [log set_any]. now rewrite L.
  - cbn [bind]. eexists. split; [reflexivity|]. rewrite HV. cbn [gone]. rewrite app_nil_r. split; [|split]; auto.
    cbn [heap set_any]. apply rep_put; auto. cbn. repeat split. discriminate.
Qed.

Lemma numbers_more d l o : numbers_dead d l -> numbers_dead d (l ++ [Constructed o]).
Proof.
  intros D n. rewrite (D n). split; intros (p & I & E); exists p; (split; [|auto]); [apply in_or_app; now left|]. apply in_app_iff in I as [I|[I|[]]]; [auto|discriminate].
Qed.
Lemma put_put {A} (l : list A) i x y : put (put l i x) i y = put l i y.
Proof. revert i. induction l; intros [|i]; cbn; f_equal; auto. Qed.
Lemma put_last {A} (l : list A) x y : put (l ++ [x]) (length l) y = l ++ [y].
Proof. induction l; cbn; f_equal; auto. Qed.
Lemma put_app {A} (l : list A) m i x : i < length l -> put (l ++ m) i x = put l i x ++ m.
Proof. revert i. induction l as [|a l IH]; intros [|i] L; cbn in *; try lia; f_equal; auto. apply IH. lia. Qed.

Lemma exec_related ops w c l op : history ops c l -> related w c l -> possible c op ->
  exists w', any_exec w op = Ok w' /\ related w' (fst (effect c (length l) op)) (l ++ snd (effect c (length l) op)).
Proof.
  intros H RL P. pose proof RL as (R & D & L).
  destruct op as [|t ok|j|i j|i t ok|i|i]; cbn [any_exec effect possible] in *.
  - eexists. split; [reflexivity|]. cbn [fst snd]. rewrite app_nil_r. split; [|split]; auto. cbn [heap]. apply Forall2_app; auto. constructor; [|constructor]. cbn. repeat split. discriminate.
  - unfold any_emplace, any_reset, get_any. cbn [heap log dead]. rewrite nth_error_app2, Nat.sub_diag by lia. cbn [nth_error bind any_init deleter].
    unfold set_any. cbn [heap log dead]. rewrite put_last. destruct ok; cbn [bind fst snd].
    + cbn [heap log dead]. rewrite L. eexists. split; [reflexivity|]. split; [|split]; cbn [heap dead log]; auto using numbers_more.
      rewrite put_last. apply Forall2_app; auto. constructor; [|constructor]. cbn. repeat split. now intros o [= <-].
    + eexists. split; [reflexivity|]. rewrite app_nil_r. split; [|split]; auto.
  - destruct (rep_nth _ _ _ R P) as (a & v & EA & EC & RA). unfold get_any. rewrite EA. cbn [bind]. eexists. split; [reflexivity|]. cbn [fst snd].
    rewrite app_nil_r. split; [|split]; auto. cbn [heap set_any].
    assert (J : j < length (heap w)) by (apply nth_error_Some; now rewrite EA). rewrite put_app by exact J. apply Forall2_app; [apply rep_put; auto; eapply rep_release; eauto|].
    constructor; [|constructor]. unfold held. rewrite EC. exact RA.
  - destruct P as [P1 P2]. destruct (reset_related ops w c l i H RL P1) as (w1 & E1 & (R1 & D1 & L1)). rewrite E1. cbn [bind].
    destruct P1 as (x & EX). destruct P2 as (y & EY). destruct (Nat.eqb_spec i j) as [<-|N]; cbn [fst snd].
    + assert (X : exists_in (put c i (Some None)) i) by (exists None; eapply put_same; eauto).
      destruct (rep_nth _ _ _ R1 X) as (b & v & EB & EV & RB). unfold get_any. rewrite EB. cbn [bind]. unfold set_any at 1. cbn [heap].
      rewrite (put_same _ _ _ _ EB). cbn [bind]. eexists. split; [reflexivity|]. split; [|split]; auto. cbn [heap set_any]. rewrite put_put.
      replace (put c i (Some None)) with (put (put c i (Some None)) i (Some None)) by apply put_put. apply rep_put; auto. apply (rep_release _ None). cbn in *. rewrite (put_same _ _ _ _ EX) in EV. injection EV as <-. exact RB.
    + assert (EY' : nth_error (put c i (Some None)) j = Some (Some y)) by now rewrite put_other.
      assert (X : exists_in (put c i (Some None)) j) by (exists y; auto).
      destruct (rep_nth _ _ _ R1 X) as (b & v & EB & EV & RB). rewrite EY' in EV. injection EV as <-. unfold get_any. rewrite EB. cbn [bind]. unfold set_any at 1. cbn [heap].
      rewrite put_other by auto. rewrite EB. cbn [bind]. eexists. split; [reflexivity|]. split; [|split]; auto. cbn [heap set_any].
      apply rep_put; [|eapply rep_release; exact RB]. replace (put c i (Some (held c j))) with (put (put c i (Some None)) i (Some (held c j))) by apply put_put.
      apply rep_put; auto. unfold held. rewrite EY. exact RB.
  - destruct (reset_related ops w c l i H RL P) as (w1 & E1 & (R1 & D1 & L1)). unfold any_emplace. rewrite E1. cbn [bind]. destruct ok; cbn [fst snd].
    + eexists. split; [reflexivity|]. rewrite L. split; [|split]; cbn [heap dead log].
      * replace (put c i (Some (Some (mkobject t (length l))))) with (put (put c i (Some None)) i (Some (Some (mkobject t (length l))))) by apply put_put.
        apply rep_put; auto. cbn. repeat split. now intros o [= <-].
      * rewrite app_assoc. now apply numbers_more.
      * now rewrite L1, app_assoc.
    + eexists. split; [reflexivity|]. split; [|split]; auto.
  - apply (reset_related ops); auto.
  - destruct (reset_related ops w c l i H RL P) as (w1 & E1 & (R1 & D1 & L1)). rewrite E1. cbn [bind fst snd]. eexists. split; [reflexivity|]. split; [|split]; auto.
    cbn [heap set_any]. replace (put c i None) with (put (put c i (Some None)) i None) by apply put_put. apply rep_put; auto. exact I.
Qed.

Lemma any_run_app a : forall w b, any_run w (a ++ b) = do w1 <- any_run w a ;; any_run w1 b.
Proof. induction a as [|op a IH]; intros w b; [reflexivity|]. cbn [app any_run]. destruct (any_exec w op); [apply IH|reflexivity]. Qed.

Lemma run_related ops c l : history ops c l -> exists w, any_run no_world ops = Ok w /\ related w c l.
Proof.
  induction 1 as [|ops c l op H (w & E & R) P].
  - exists no_world. split; auto. split; [constructor|]. split; auto. intros n. split; [intros []|intros (o & [] & _)].
  - destruct (exec_related ops w c l op H R P) as (w' & E' & R'). exists w'. split; auto. rewrite any_run_app, E. cbn [bind any_run]. rewrite E'. reflexivity.
Qed.

Lemma get_spec ops c l w i : history ops c l -> any_run no_world ops = Ok w -> exists_in c i ->
  (forall t, any_get w i t = match held c i with Some o => if o_type o =? t then Ok o else Err Assert | None => Err Assert end) /\
  exists a, get_any w i = Ok a /\ any_has_value a = (match held c i with Some _ => true | None => false end) /\ tid a = option_map o_type (held c i).
Proof.
  intros H E X. destruct (run_related _ _ _ H) as (w' & E' & (R & D & L)). rewrite E in E'. injection E' as <-.
  destruct (rep_nth _ _ _ R X) as (a & v & EA & EC & (R1 & R2 & R3)). assert (HV : held c i = v) by (unfold held; now rewrite EC).
  split.
  - intros t. unfold any_get, get_any. rewrite EA. cbn [bind]. rewrite R2, HV. destruct v as [o|]; cbn [option_map]; auto. destruct (o_type o =? t) eqn:T; auto.
    rewrite (R3 o eq_refl), T. rewrite (dead_false w l o D) by (eapply live; eauto). reflexivity.
  - exists a. unfold get_any, any_has_value. rewrite EA, R2, HV. destruct v; auto.
Qed.

Theorem once ops c l : history ops c l ->
  exists w, any_run no_world ops = Ok w /\ log w = l /\
  forall o, In (Constructed o) l ->
    occurrences (Constructed o) l = 1 /\
    (occurrences (Destroyed o) l = 1 /\ (forall i, held c i <> Some o) \/
     occurrences (Destroyed o) l = 0 /\ exists i, held c i = Some o /\ forall j, held c j = Some o -> j = i).
Proof.
  intros H. destruct (run_related _ _ _ H) as (w & E & (_ & _ & L)). exists w. split; auto. split; auto. intros o I.
  pose proof (history_once _ _ _ H o I) as O. pose proof (history_balance _ _ _ H o) as B. split; auto. rewrite O in B.
  destruct (occurrences (Destroyed o) l) as [|n] eqn:N.
  - right. split; auto. assert (U : number_held o c = 1) by lia. clear - U. induction c as [|x c IH]; [discriminate|].
    change (x :: c) with ([x] ++ c) in U. rewrite objects_app, count_occ_app in U. destruct (Nat.eq_dec (number_held o c) 0) as [Z|Z].
    + exists 0. assert (x = Some (Some o)) as ->.
      { destruct x as [[p|]|]; cbn in U; try lia. destruct (object_dec p o) as [->|]; [auto|lia]. }
      split; auto. intros [|j] F; auto. unfold held in F. cbn in F. apply (count_occ_not_In object_dec) in Z. exfalso. apply Z. apply (held_in c j). exact F.
    + destruct IH as (i & F & G); [lia|]. exists (S i). split; auto. intros [|j] F'; [|f_equal; apply G; exact F'].
      unfold held in F'. cbn in F'. destruct x as [x|]; [|discriminate]. subst x. cbn in U. destruct (object_dec o o); [lia|contradiction].
  - left. split; [lia|]. intros i F. apply held_in in F. apply (count_occ_In object_dec) in F. lia.
Qed.

Theorem all_destroyed ops c l : history ops c l -> Forall (fun x => x = None) c ->
  forall o, In (Constructed o) l -> occurrences (Constructed o) l = 1 /\ occurrences (Destroyed o) l = 1.
Proof.
  intros H F o I. destruct (once _ _ _ H) as (w & _ & _ & K). destruct (K o I) as (O & [[D _]|[D (i & G & _)]]); auto.
  exfalso. unfold held in G. destruct (nth_error c i) as [x|] eqn:E; [|discriminate]. apply nth_error_In in E. rewrite Forall_forall in F. rewrite (F x E) in G. discriminate.
Qed.

Theorem self_assignment ops c l i o : history ops c l -> held c i = Some o ->
  exists w, any_run no_world (ops ++ [Assign i i]) = Ok w /\ log w = l ++ [Destroyed o] /\ forall t, any_get w i t = Err Assert.
Proof.
  intros H E. assert (X : exists_in c i) by (unfold held in E; destruct (nth_error c i) as [[x|]|] eqn:F; try discriminate; now exists x).
  pose proof (one_more ops c l (Assign i i) H (conj X X)) as H2. cbn [effect] in H2. rewrite Nat.eqb_refl in H2. cbn [fst snd] in H2. rewrite E in H2. cbn [gone] in H2.
  destruct (run_related _ _ _ H2) as (w & R & (_ & _ & L)). exists w. split; auto. split; auto. intros t.
  destruct X as (x & F). assert (X2 : exists_in (put c i (Some None)) i) by (exists None; eapply put_same; eauto).
  destruct (get_spec _ _ _ w i H2 R X2) as (G & _). rewrite G. unfold held. now rewrite (put_same _ _ _ _ F).
Qed.
