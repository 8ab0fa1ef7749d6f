(** Output files (C50). *)
From Verif.Spec Require Import TextSpec FileSpec.
From Verif.Model Require Import Base Vector StringUtil File.

Definition holds (f : nat) (o : option (option nat)) : nat := match o with Some (Some g) => if g =? f then 1 else 0 | _ => 0 end.
Definition holders (f : nat) (l : list (option (option nat))) : nat := list_sum (map (holds f) l).

Lemma holders_app f a b : holders f (a ++ b) = holders f a + holders f b.
Proof. unfold holders. now rewrite map_app, list_sum_app. Qed.

Lemma holders_one f o : holders f [o] = holds f o.
Proof. unfold holders. cbn. lia. Qed.

Lemma holders_set f w o l old : nth_error l w = Some old -> holders f (set_object w o l) + holds f old = holders f l + holds f o.
Proof.
  intros N. destruct (nth_error_split _ _ N) as (a & b & -> & <-). unfold set_object.
  rewrite firstn_app, firstn_all, Nat.sub_diag. replace (skipn (S (length a)) (a ++ old :: b)) with b.
  - cbn [firstn]. rewrite app_nil_r, !holders_app. unfold holders. cbn [map list_sum fold_right]. unfold list_sum. lia.
  - change (S (length a)) with (1 + length a). replace (1 + length a) with (length (a ++ [old])) by (rewrite app_length; cbn; lia).
    change (old :: b) with ([old] ++ b). rewrite app_assoc, skipn_app, skipn_all, Nat.sub_diag. reflexivity.
Qed.

(** Each file is held by one object while it is open, by none otherwise. *)
Definition sound (st : files) : Prop := forall f, exists u,
  history f (f_log st) = actions_of f u /\
  match u with
  | Unopened => f_count st <= f /\ holders f (f_objects st) = 0
  | Open _ => f < f_count st /\ holders f (f_objects st) = 1
  | Closed _ => f < f_count st /\ holders f (f_objects st) = 0
  end.

Lemma handle_inv st w h : handle st w = Ok h -> nth_error (f_objects st) w = Some (Some h).
Proof. unfold handle. destruct (nth_error _ w) as [[x|]|]; congruence. Qed.

Lemma history_app f a b : history f (a ++ b) = history f a ++ history f b.
Proof. unfold history. now rewrite filter_app. Qed.

Lemma sound_same st st' : f_log st' = f_log st -> f_count st' = f_count st -> (forall f, holders f (f_objects st') = holders f (f_objects st)) ->
  sound st -> sound st'.
Proof. intros L C H I f. destruct (I f) as (u & E & U). exists u. rewrite L, C, H. auto. Qed.

Lemma nth_set w o l old k : nth_error l w = Some old -> nth_error (set_object w o l) k = if k =? w then Some o else nth_error l k.
Proof.
  intros N. destruct (nth_error_split _ _ N) as (a & b & -> & <-). unfold set_object.
  rewrite firstn_app, firstn_all, Nat.sub_diag. replace (skipn (S (length a)) (a ++ old :: b)) with b.
  2:{ replace (S (length a)) with (length (a ++ [old])) by (rewrite app_length; cbn; lia).
      change (old :: b) with ([old] ++ b). rewrite app_assoc, skipn_app, skipn_all, Nat.sub_diag. reflexivity. }
  cbn [firstn]. rewrite app_nil_r. destruct (Nat.eqb_spec k (length a)) as [->|NE].
  - rewrite nth_error_app2, Nat.sub_diag by lia. reflexivity.
  - destruct (Nat.lt_ge_cases k (length a)).
    + rewrite !nth_error_app1 by lia. reflexivity.
    + rewrite !nth_error_app2 by lia. destruct (k - length a) eqn:E; [lia|reflexivity].
Qed.

Lemma step_sound st o st' : sound st -> file_step st o = Ok st' -> sound st'.
Proof.
  intros I E. destruct o as [| |other|w other|w s|w]; cbn [file_step] in E.
  - injection E as <-. refine (sound_same st _ _ _ _ I); [reflexivity..|]. intros f. cbn [f_objects]. rewrite holders_app, holders_one. cbn [holds]. lia.
  - injection E as <-. intros f. destruct (I f) as (u & H & U). cbn [f_log f_objects f_count]. rewrite history_app, holders_app, holders_one, H. cbn [holds]. unfold history. cbn [filter about].
    destruct (Nat.eqb_spec (f_count st) f) as [<-|NE].
    + destruct u; destruct U as [U1 U2]; try lia. exists (Open []). cbn [actions_of map app]. split; [reflexivity|]. lia.
    + exists u. rewrite app_nil_r. split; [reflexivity|]. destruct u; lia.
  - destruct (handle st other) as [h|] eqn:R; cbn [bind] in E; [|discriminate]. injection E as <-. apply handle_inv in R.
    refine (sound_same st _ _ _ _ I); [reflexivity..|]. intros f. cbn [f_objects set_handle]. rewrite holders_app. pose proof (holders_set f other (Some None) _ _ R) as X. change (holds f (Some None)) with 0 in X.
    rewrite holders_one. lia.
  - destruct (handle st w) as [a|] eqn:R1; cbn [bind] in E; [|discriminate]. destruct (handle st other) as [b|] eqn:R2; cbn [bind] in E; [|discriminate]. injection E as <-.
    apply handle_inv in R1, R2. refine (sound_same st _ _ _ _ I); [reflexivity..|]. intros f. cbn [f_objects set_handle].
    pose proof (holders_set f w (Some b) _ _ R1) as X1. pose proof (nth_set w (Some b) _ _ other R1) as N. rewrite R2 in N.
    destruct (Nat.eqb_spec other w) as [->|NE].
    + pose proof (holders_set f w (Some a) _ _ N) as X2. rewrite R1 in R2. injection R2 as ->. lia.
    + pose proof (holders_set f other (Some a) _ _ N) as X2. lia.
  - destruct (handle st w) as [[g|]|] eqn:R; cbn [bind] in E; [| |discriminate]; injection E as <-; [|exact I]. apply handle_inv in R.
    intros f. destruct (I f) as (u & H & U). cbn [f_log f_objects f_count]. rewrite history_app, H. unfold history. cbn [filter about]. destruct (Nat.eqb_spec g f) as [->|NE].
    + pose proof (holders_set f w None _ _ R) as X. cbn [holds] in X. rewrite Nat.eqb_refl in X.
      destruct u; destruct U as [U1 U2]; try lia. exists (Open (texts ++ [s])). cbn [actions_of]. rewrite map_app. auto.
    + exists u. rewrite app_nil_r. auto.
  - destruct (handle st w) as [h|] eqn:R; cbn [bind] in E; [|discriminate]. apply handle_inv in R. destruct h as [g|]; injection E as <-.
    + intros f. destruct (I f) as (u & H & U). cbn [f_log f_objects f_count]. rewrite history_app, H. unfold history. cbn [filter about].
      pose proof (holders_set f w None _ _ R) as X. cbn [holds] in X. destruct (Nat.eqb_spec g f) as [->|NE].
      * destruct u; destruct U as [U1 U2]; try lia. exists (Closed texts). cbn [actions_of app]. split; [reflexivity|]. lia.
      * exists u. rewrite app_nil_r. split; [reflexivity|]. destruct u; lia.
    + refine (sound_same st _ _ _ _ I); [reflexivity..|]. intros f. cbn [f_objects]. pose proof (holders_set f w None _ _ R) as X. cbn [holds] in X. lia.
Qed.

Lemma run_sound ops : forall st st', sound st -> file_run st ops = Ok st' -> sound st'.
Proof.
  induction ops as [|o ops IH]; cbn [file_run]; intros st st' I E; [injection E as <-; exact I|].
  destruct (file_step st o) as [st1|] eqn:R; cbn [bind] in E; [|discriminate]. apply (IH st1); [|exact E]. exact (step_sound _ _ _ I R).
Qed.

Lemma handles_closed ops st : file_run no_files ops = Ok st ->
  forall f, exists u, history f (f_log st) = actions_of f u /\
    ((exists texts, u = Open texts) -> exists w, nth_error (f_objects st) w = Some (Some (Some f)) /\
       forall w', nth_error (f_objects st) w' = Some (Some (Some f)) -> w' = w) /\
    (~ (exists texts, u = Open texts) -> ~ In (Some (Some f)) (f_objects st)).
Proof.
  intros R f. assert (I : sound st).
  { apply (run_sound ops no_files); [|exact R]. intros g. exists Unopened. cbn. split; [reflexivity|lia]. }
  destruct (I f) as (u & H & U). exists u. split; [exact H|].
  assert (Z : forall l, holders f l = 0 -> ~ In (Some (Some f)) l).
  { intros l E X. apply in_split in X as (a & b & ->). rewrite holders_app in E. unfold holders in E. cbn [map list_sum fold_right holds] in E. rewrite Nat.eqb_refl in E. lia. }
  split.
  - intros (t & ->). destruct U as [_ U]. 
    assert (X : In (Some (Some f)) (f_objects st)).
    { clear - U. induction (f_objects st) as [|o l IH]; [discriminate|]. unfold holders in *. cbn [map list_sum fold_right] in U.
      destruct o as [[g|]|]; cbn [holds] in U; try (right; apply IH; exact U). destruct (Nat.eqb_spec g f) as [->|]; [left; reflexivity|right; apply IH; exact U]. }
    apply In_nth_error in X as (w & N). exists w. split; [exact N|]. intros w' N'.
    destruct (Nat.eq_dec w' w) as [|NE]; [assumption|]. exfalso.
    pose proof (holders_set f w None _ _ N) as X. pose proof (nth_set w None _ _ w' N) as N2. destruct (Nat.eqb_spec w' w); [contradiction|]. rewrite N' in N2.
    cbn [holds] in X. rewrite Nat.eqb_refl in X. rewrite U in X. assert (holders f (set_object w None (f_objects st)) = 0) by lia.
    apply (Z _ H0). now apply nth_error_In in N2.
  - intros NO. apply Z. destruct u; destruct U as [_ U]; auto. exfalso. apply NO. eauto.
Qed.

(** Only a destroyed (or not yet constructed) object can be misused. *)
Lemma step_defined st o :
  match o with
  | ODefault | OOpen => True
  | OMove w | OWrite w _ | ODestroy w => exists h, nth_error (f_objects st) w = Some (Some h)
  | OAssign w w' => (exists h, nth_error (f_objects st) w = Some (Some h)) /\ (exists h, nth_error (f_objects st) w' = Some (Some h))
  end -> exists st', file_step st o = Ok st'.
Proof.
  destruct o; cbn [file_step]; eauto; unfold handle.
  - intros (h & ->). cbn [bind]. eauto.
  - intros ((h & ->) & (h' & ->)). cbn [bind]. eauto.
  - intros (h & ->). cbn [bind]. destruct h; eauto.
  - intros (h & ->). cbn [bind]. destruct h; eauto.
Qed.

Lemma all_closed ops st : file_run no_files ops = Ok st -> Forall (fun o => o = None) (f_objects st) ->
  forall f, history f (f_log st) = [] \/ exists texts, history f (f_log st) = FOpen f :: map (FWrite f) texts ++ [FClose f].
Proof.
  intros R D f. destruct (handles_closed _ _ R f) as (u & H & O & _). rewrite H. destruct u as [|texts|texts]; cbn [actions_of]; eauto.
  exfalso. destruct (O (ex_intro _ texts eq_refl)) as (w & N & _). apply nth_error_In in N. rewrite Forall_forall in D. specialize (D _ N). discriminate.
Qed.
